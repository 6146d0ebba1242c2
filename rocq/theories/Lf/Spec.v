(** The loop filter of the AV1 specification (section 7.14), written from the specification alone. *)
From Coq Require Import ZArith List Bool.
From Verif Require Import Base.Loop.
Open Scope Z_scope.

Definition Clip3 (lo hi x : Z) : Z := if x <? lo then lo else if x >? hi then hi else x.
Definition Round2 (x n : Z) : Z := (x + 2 ^ n / 2) / 2 ^ n.

(** * Strength *)
(** 7.14.5: limit, blimit and thresh of a level *)
Definition shift (sharpness : Z) : Z := if sharpness >? 4 then 2 else if sharpness >? 0 then 1 else 0.
Definition limit (sharpness lvl : Z) : Z :=
  if sharpness >? 0 then Clip3 1 (9 - sharpness) (lvl / 2 ^ shift sharpness) else Z.max 1 (lvl / 2 ^ shift sharpness).
Definition blimit (sharpness lvl : Z) : Z := 2 * (lvl + 2) + limit sharpness lvl.
Definition thresh (lvl : Z) : Z := lvl / 16.

(** 7.14.4: the level of a block, from the syntax elements of the frame header, the deltas of the block, its segment,
    reference frame (0 is INTRA_FRAME) and mode type. [i] is pass for luma, 1 + plane for chroma. *)
Record header := {
  loop_filter_level : Z -> Z;
  delta_lf_multi : bool;
  segmentation_enabled : bool;
  FeatureEnabled : Z -> Z -> bool;
  FeatureData : Z -> Z -> Z;
  loop_filter_delta_enabled : bool;
  loop_filter_ref_deltas : Z -> Z;
  loop_filter_mode_deltas : Z -> Z }.
Definition SEG_LVL_ALT_LF_Y_V : Z := 1.
Definition level (h : header) (DeltaLF : Z -> Z) (i segment ref modeType : Z) : Z :=
  let deltaLF := DeltaLF (if delta_lf_multi h then i else 0) in
  let baseFilterLevel := Clip3 0 63 (deltaLF + loop_filter_level h i) in
  let feature := SEG_LVL_ALT_LF_Y_V + i in
  let lvlSeg := if segmentation_enabled h && FeatureEnabled h segment feature
    then Clip3 0 63 (baseFilterLevel + FeatureData h segment feature) else baseFilterLevel in
  if loop_filter_delta_enabled h then
    let nShift := lvlSeg / 32 in
    Clip3 0 63 (if ref =? 0 then lvlSeg + loop_filter_ref_deltas h 0 * 2 ^ nShift
      else lvlSeg + loop_filter_ref_deltas h ref * 2 ^ nShift + loop_filter_mode_deltas h modeType * 2 ^ nShift)
  else lvlSeg.
(** The loop filter is invoked when a luma level is not zero (7.4), for a chroma plane when its level is not zero
    (7.14.1). *)
Definition filtered (h : header) (i : Z) : bool :=
  (negb (loop_filter_level h 0 =? 0) || negb (loop_filter_level h 1 =? 0)) && ((i <? 2) || negb (loop_filter_level h i =? 0)).

(** * Samples: 7.14.6. [F i] is the sample at distance [i] from the edge: q0 is [F 0], p0 is [F (-1)]. *)
Section Samples.
Variables (BitDepth plane filterSize sharpness lvl : Z) (F : Z -> Z).
Definition q (i : Z) : Z := F i.
Definition p (i : Z) : Z := F (- 1 - i).
(** 7.14.6.2 *)
Definition scaled (x : Z) : Z := x * 2 ^ (BitDepth - 8).
Definition above (t a b : Z) : bool := Z.abs (a - b) >? t.
Definition hevMask : bool := above (scaled (thresh lvl)) (p 1) (p 0) || above (scaled (thresh lvl)) (q 1) (q 0).
Definition filterLen : Z := if filterSize =? 4 then 4 else if negb (plane =? 0) then 6 else if filterSize =? 8 then 8 else 16.
Definition filterMask : bool :=
  let lim := scaled (limit sharpness lvl) in
  negb (above lim (p 1) (p 0) || above lim (q 1) (q 0)
    || (Z.abs (p 0 - q 0) * 2 + Z.abs (p 1 - q 1) / 2 >? scaled (blimit sharpness lvl))
    || ((filterLen >=? 6) && (above lim (p 2) (p 1) || above lim (q 2) (q 1)))
    || ((filterLen >=? 8) && (above lim (p 3) (p 2) || above lim (q 3) (q 2)))).
Definition flatMask : bool :=
  let one := scaled 1 in
  (filterSize >=? 8) &&
  negb (above one (p 1) (p 0) || above one (q 1) (q 0) || above one (p 2) (p 0) || above one (q 2) (q 0)
    || ((filterLen >=? 8) && (above one (p 3) (p 0) || above one (q 3) (q 0)))).
Definition flatMask2 : bool :=
  let one := scaled 1 in
  (filterSize >=? 16) &&
  negb (above one (p 6) (p 0) || above one (q 6) (q 0) || above one (p 5) (p 0) || above one (q 5) (q 0)
    || above one (p 4) (p 0) || above one (q 4) (q 0)).
(** 7.14.6.3 *)
Definition filter4_clamp (x : Z) : Z := Clip3 (- 2 ^ (BitDepth - 1)) (2 ^ (BitDepth - 1) - 1) x.
Definition narrow (i : Z) : Z :=
  let mid := 128 * 2 ^ (BitDepth - 8) in
  let ps1 := p 1 - mid in let ps0 := p 0 - mid in let qs0 := q 0 - mid in let qs1 := q 1 - mid in
  let filter := if hevMask then filter4_clamp (ps1 - qs1) else 0 in
  let filter := filter4_clamp (filter + 3 * (qs0 - ps0)) in
  let filter1 := filter4_clamp (filter + 4) / 8 in
  let filter2 := filter4_clamp (filter + 3) / 8 in
  if i =? 0 then filter4_clamp (qs0 - filter1) + mid
  else if i =? -1 then filter4_clamp (ps0 + filter2) + mid
  else if hevMask then F i
  else let filter := Round2 filter1 1 in
    if i =? 1 then filter4_clamp (qs1 - filter) + mid
    else if i =? -2 then filter4_clamp (ps1 + filter) + mid
    else F i.
(** 7.14.6.4 *)
Definition wide (log2Size i : Z) : Z :=
  let n := if log2Size =? 4 then 6 else if plane =? 0 then 3 else 2 in
  let n2 := if (log2Size =? 3) && (plane =? 0) then 0 else 1 in
  if (- n <=? i) && (i <? n)
  then Round2 (zfor (- n) (n + 1) (fun j t => t + F (Clip3 (- (n + 1)) n (i + j)) * (if Z.abs j <=? n2 then 2 else 1)) 0) log2Size
  else F i.
(** 7.14.6.1 *)
Definition sample_filter (i : Z) : Z :=
  if negb filterMask then F i
  else if (filterSize =? 4) || negb flatMask then narrow i
  else if (filterSize =? 8) || negb flatMask2 then wide 3 i
  else wide 4 i.
End Samples.

(** 7.14.2: an edge at [pos] of a line of samples across it, between a block of level [prevLvl] and one of level [lvl]. *)
Definition edge_filter (BitDepth plane sharpness filterSize lvl prevLvl : Z) (line : Z -> Z) (pos : Z) : Z -> Z :=
  let lvl := if lvl =? 0 then prevLvl else lvl in
  fun x => if lvl >? 0 then sample_filter BitDepth plane filterSize sharpness lvl (fun i => line (pos + i)) (x - pos) else line x.
(** 7.14.1: the edges of a line at multiples of four samples, from unit [lo] to [hi]; there is none at the border of
    the picture. [size p] is the size of the filter of the edge before unit [p], None when there is no such edge. *)
Definition filter_line (BitDepth plane sharpness : Z) (size : Z -> option Z) (lvl : Z -> Z) (lo hi : Z) (line : Z -> Z) : Z -> Z :=
  zfor lo hi (fun p line =>
    if p =? 0 then line else
    match size p with Some fs => edge_filter BitDepth plane sharpness fs (lvl p) (lvl (p - 1)) line (4 * p) | None => line end) line.

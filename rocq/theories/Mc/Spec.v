(** Block inter prediction of the AV1 specification: the rounding variables (7.11.3.2), the motion vector scaling
    process (7.11.3.3), the block inter prediction process (7.11.3.4) and the combination of two predictions
    (7.11.3.1, 7.11.3.12, 7.11.3.14, 7.11.3.15). *)
From Coq Require Import ZArith List Bool.
Import ListNotations.
Open Scope Z_scope.

Definition Round2 (x n : Z) : Z := if n =? 0 then x else (x + 2 ^ (n - 1)) / 2 ^ n.
Definition Round2Signed (x n : Z) : Z := if 0 <=? x then Round2 x n else - Round2 (- x) n.
Definition Clip3 (lo hi x : Z) : Z := if x <? lo then lo else if hi <? x then hi else x.
Definition Clip1 (BitDepth x : Z) : Z := Clip3 0 (2 ^ BitDepth - 1) x.

(** 7.11.3.2 *)
Definition InterRound0 (BitDepth : Z) : Z := if BitDepth =? 12 then 5 else 3.
Definition InterRound1 (BitDepth : Z) (isCompound : bool) : Z :=
  if isCompound then 7 else if BitDepth =? 12 then 9 else 11.
Definition InterPostRound (BitDepth : Z) : Z := if BitDepth =? 12 then 2 else 4.  (* of a compound block *)

(** 7.11.3.3; [origin] is the position of the block, [mv] one component of the motion vector *)
Definition xScale (RefUpscaledWidth FrameWidth : Z) : Z := (RefUpscaledWidth * 2 ^ 14 + FrameWidth / 2) / FrameWidth.
Definition start (scale sub origin mv : Z) : Z :=
  let halfSample := 8 in
  let orig := origin * 16 + (2 * mv) / 2 ^ sub + halfSample in
  let base := orig * scale - halfSample * 2 ^ 14 in
  Round2Signed base 8 + 32.
Definition step (scale : Z) : Z := Round2Signed scale 4.

(** 7.11.3.4: EIGHTTAP = 0, EIGHTTAP_SMOOTH = 1, EIGHTTAP_SHARP = 2, BILINEAR = 3 *)
Definition interpFilterIdx (interp_filter n : Z) : Z :=
  if n <=? 4 then
    if (interp_filter =? 0) || (interp_filter =? 2) then 4 else if interp_filter =? 1 then 5 else interp_filter
  else interp_filter.
Definition Subpel_Filters : list (list (list Z)) :=
  [ [ [0; 0; 0; 128; 0; 0; 0; 0];
      [0; 2; -6; 126; 8; -2; 0; 0];
      [0; 2; -10; 122; 18; -4; 0; 0];
      [0; 2; -12; 116; 28; -8; 2; 0];
      [0; 2; -14; 110; 38; -10; 2; 0];
      [0; 2; -14; 102; 48; -12; 2; 0];
      [0; 2; -16; 94; 58; -12; 2; 0];
      [0; 2; -14; 84; 66; -12; 2; 0];
      [0; 2; -14; 76; 76; -14; 2; 0];
      [0; 2; -12; 66; 84; -14; 2; 0];
      [0; 2; -12; 58; 94; -16; 2; 0];
      [0; 2; -12; 48; 102; -14; 2; 0];
      [0; 2; -10; 38; 110; -14; 2; 0];
      [0; 2; -8; 28; 116; -12; 2; 0];
      [0; 0; -4; 18; 122; -10; 2; 0];
      [0; 0; -2; 8; 126; -6; 2; 0] ];
    [ [0; 0; 0; 128; 0; 0; 0; 0];
      [0; 2; 28; 62; 34; 2; 0; 0];
      [0; 0; 26; 62; 36; 4; 0; 0];
      [0; 0; 22; 62; 40; 4; 0; 0];
      [0; 0; 20; 60; 42; 6; 0; 0];
      [0; 0; 18; 58; 44; 8; 0; 0];
      [0; 0; 16; 56; 46; 10; 0; 0];
      [0; -2; 16; 54; 48; 12; 0; 0];
      [0; -2; 14; 52; 52; 14; -2; 0];
      [0; 0; 12; 48; 54; 16; -2; 0];
      [0; 0; 10; 46; 56; 16; 0; 0];
      [0; 0; 8; 44; 58; 18; 0; 0];
      [0; 0; 6; 42; 60; 20; 0; 0];
      [0; 0; 4; 40; 62; 22; 0; 0];
      [0; 0; 4; 36; 62; 26; 0; 0];
      [0; 0; 2; 34; 62; 28; 2; 0] ];
    [ [0; 0; 0; 128; 0; 0; 0; 0];
      [-2; 2; -6; 126; 8; -2; 2; 0];
      [-2; 6; -12; 124; 16; -6; 4; -2];
      [-2; 8; -18; 120; 26; -10; 6; -2];
      [-4; 10; -22; 116; 38; -14; 6; -2];
      [-4; 10; -22; 108; 48; -18; 8; -2];
      [-4; 10; -24; 100; 60; -20; 8; -2];
      [-4; 10; -24; 90; 70; -22; 10; -2];
      [-4; 12; -24; 80; 80; -24; 12; -4];
      [-2; 10; -22; 70; 90; -24; 10; -4];
      [-2; 8; -20; 60; 100; -24; 10; -4];
      [-2; 8; -18; 48; 108; -22; 10; -4];
      [-2; 6; -14; 38; 116; -22; 10; -4];
      [-2; 6; -10; 26; 120; -18; 8; -2];
      [-2; 4; -6; 16; 124; -12; 6; -2];
      [0; 2; -2; 8; 126; -6; 2; -2] ];
    [ [0; 0; 0; 128; 0; 0; 0; 0];
      [0; 0; 0; 120; 8; 0; 0; 0];
      [0; 0; 0; 112; 16; 0; 0; 0];
      [0; 0; 0; 104; 24; 0; 0; 0];
      [0; 0; 0; 96; 32; 0; 0; 0];
      [0; 0; 0; 88; 40; 0; 0; 0];
      [0; 0; 0; 80; 48; 0; 0; 0];
      [0; 0; 0; 72; 56; 0; 0; 0];
      [0; 0; 0; 64; 64; 0; 0; 0];
      [0; 0; 0; 56; 72; 0; 0; 0];
      [0; 0; 0; 48; 80; 0; 0; 0];
      [0; 0; 0; 40; 88; 0; 0; 0];
      [0; 0; 0; 32; 96; 0; 0; 0];
      [0; 0; 0; 24; 104; 0; 0; 0];
      [0; 0; 0; 16; 112; 0; 0; 0];
      [0; 0; 0; 8; 120; 0; 0; 0] ];
    [ [0; 0; 0; 128; 0; 0; 0; 0];
      [0; 0; -4; 126; 8; -2; 0; 0];
      [0; 0; -8; 122; 18; -4; 0; 0];
      [0; 0; -10; 116; 28; -6; 0; 0];
      [0; 0; -12; 110; 38; -8; 0; 0];
      [0; 0; -12; 102; 48; -10; 0; 0];
      [0; 0; -14; 94; 58; -10; 0; 0];
      [0; 0; -12; 84; 66; -10; 0; 0];
      [0; 0; -12; 76; 76; -12; 0; 0];
      [0; 0; -10; 66; 84; -12; 0; 0];
      [0; 0; -10; 58; 94; -14; 0; 0];
      [0; 0; -10; 48; 102; -12; 0; 0];
      [0; 0; -8; 38; 110; -12; 0; 0];
      [0; 0; -6; 28; 116; -10; 0; 0];
      [0; 0; -4; 18; 122; -8; 0; 0];
      [0; 0; -2; 8; 126; -4; 0; 0] ];
    [ [0; 0; 0; 128; 0; 0; 0; 0];
      [0; 0; 30; 62; 34; 2; 0; 0];
      [0; 0; 26; 62; 36; 4; 0; 0];
      [0; 0; 22; 62; 40; 4; 0; 0];
      [0; 0; 20; 60; 42; 6; 0; 0];
      [0; 0; 18; 58; 44; 8; 0; 0];
      [0; 0; 16; 56; 46; 10; 0; 0];
      [0; 0; 14; 54; 48; 12; 0; 0];
      [0; 0; 12; 52; 52; 12; 0; 0];
      [0; 0; 12; 48; 54; 14; 0; 0];
      [0; 0; 10; 46; 56; 16; 0; 0];
      [0; 0; 8; 44; 58; 18; 0; 0];
      [0; 0; 6; 42; 60; 20; 0; 0];
      [0; 0; 4; 40; 62; 22; 0; 0];
      [0; 0; 4; 36; 62; 26; 0; 0];
      [0; 0; 2; 34; 62; 30; 0; 0] ] ].
Definition Subpel (idx frac t : Z) : Z := nth (Z.to_nat t) (nth (Z.to_nat frac) (nth (Z.to_nat idx) Subpel_Filters []) []) 0.
Definition sum8 (f : Z -> Z) : Z := f 0 + f 1 + f 2 + f 3 + f 4 + f 5 + f 6 + f 7.

Section Block.
Variables (BitDepth : Z) (isCompound : bool) (ref : Z -> Z -> Z) (lastX lastY startX startY stepX stepY w h : Z)
  (interp_filter0 interp_filter1 : Z).
Definition intermediate (r c : Z) : Z :=
  let p := startX + stepX * c in
  Round2 (sum8 (fun t => Subpel (interpFilterIdx interp_filter1 w) ((p / 2 ^ 6) mod 16) t *
    ref (Clip3 0 lastY (startY / 2 ^ 10 + r - 3)) (Clip3 0 lastX (p / 2 ^ 10 + t - 3)))) (InterRound0 BitDepth).
Definition pred (r c : Z) : Z :=
  let q := startY mod 1024 + stepY * r in
  Round2 (sum8 (fun t => Subpel (interpFilterIdx interp_filter0 h) ((q / 2 ^ 6) mod 16) t *
    intermediate (q / 2 ^ 10 + t) c)) (InterRound1 BitDepth isCompound).
End Block.

(** The prediction of a block of w x h samples at (x, y) of a plane subsampled by subX and subY from a reference frame
    of RefUpscaledWidth x RefFrameHeight. *)
Section Prediction.
Variables (BitDepth : Z) (isCompound : bool) (ref : Z -> Z -> Z) (RefUpscaledWidth RefFrameHeight FrameWidth FrameHeight subX subY : Z).
Definition block_inter (x y w h mvRow mvCol interp_filter0 interp_filter1 : Z) (r c : Z) : Z :=
  let sx := xScale RefUpscaledWidth FrameWidth in
  let sy := xScale RefFrameHeight FrameHeight in
  pred BitDepth isCompound ref ((RefUpscaledWidth + subX) / 2 ^ subX - 1) ((RefFrameHeight + subY) / 2 ^ subY - 1)
    (start sx subX x mvCol) (start sy subY y mvRow) (step sx) (step sy) w h interp_filter0 interp_filter1 r c.
End Prediction.

(** 7.11.3.1: what is written to CurrFrame from one prediction and from two *)
Definition single (BitDepth p : Z) : Z := Clip1 BitDepth p.
Definition average (BitDepth p0 p1 : Z) : Z := Clip1 BitDepth (Round2 (p0 + p1) (1 + InterPostRound BitDepth)).
(** 7.11.3.15 *)
Definition distance (BitDepth FwdWeight BckWeight p0 p1 : Z) : Z :=
  Clip1 BitDepth (Round2 (p0 * FwdWeight + p1 * BckWeight) (4 + InterPostRound BitDepth)).
(** 7.11.3.14 *)
Definition mask_blend (BitDepth m p0 p1 : Z) : Z :=
  Clip1 BitDepth (Round2 (m * p0 + (64 - m) * p1) (6 + InterPostRound BitDepth)).
(** the mask of a sample at (i, j) of a plane *)
Definition mask_at (Mask : Z -> Z -> Z) (subX subY : bool) (i j : Z) : Z :=
  match subX, subY with
  | false, _ => Mask i j
  | true, false => Round2 (Mask i (2 * j) + Mask i (2 * j + 1)) 1
  | true, true => Round2 (Mask (2 * i) (2 * j) + Mask (2 * i) (2 * j + 1) + Mask (2 * i + 1) (2 * j) + Mask (2 * i + 1) (2 * j + 1)) 2
  end.
(** 7.11.3.12 *)
Definition difference_weight (BitDepth : Z) (mask_type : bool) (p0 p1 : Z) : Z :=
  let diff := Round2 (Z.abs (p0 - p1)) ((BitDepth - 8) + InterPostRound BitDepth) in
  let m := Clip3 0 64 (38 + diff / 16) in
  if mask_type then 64 - m else m.

(** subsampling_x and subsampling_y of a plane; 1 = 4:2:0, 2 = 4:2:2, 3 = 4:4:4 *)
Definition subX (layout plane : Z) : Z := if (plane =? 0) || (layout =? 3) then 0 else 1.
Definition subY (layout plane : Z) : Z := if (plane =? 0) || negb (layout =? 1) then 0 else 1.

(** 7.11.3.1 for a compound block: [p i plane r c] are the two predictions, [wedge s r c] the wedge mask for a sign. *)
Inductive compound_type := COMPOUND_AVERAGE | COMPOUND_DISTANCE (FwdWeight BckWeight : Z) | COMPOUND_DIFFWTD (mask_type : bool) | COMPOUND_WEDGE (wedge_sign : bool).
Definition compound (BitDepth layout : Z) (t : compound_type) (p : bool -> Z -> Z -> Z -> Z) (wedge : bool -> Z -> Z -> Z) (plane r c : Z) : Z :=
  let p0 := p false plane r c in let p1 := p true plane r c in
  let mask (M : Z -> Z -> Z) := mask_at M (subX layout plane =? 1) (subY layout plane =? 1) r c in
  match t with
  | COMPOUND_AVERAGE => average BitDepth p0 p1
  | COMPOUND_DISTANCE f b => distance BitDepth f b p0 p1
  | COMPOUND_DIFFWTD s => mask_blend BitDepth (mask (fun i j => difference_weight BitDepth s (p false 0 i j) (p true 0 i j))) p0 p1
  | COMPOUND_WEDGE s => mask_blend BitDepth (mask (wedge s)) p0 p1
  end.

(** Intra block copy: the current frame is the reference, up to the end of the tile; BILINEAR *)
Definition block_copy (BitDepth : Z) (ref : Z -> Z -> Z) (lastX lastY subX subY x y w h mvRow mvCol r c : Z) : Z :=
  pred BitDepth false ref lastX lastY (start (2 ^ 14) subX x mvCol) (start (2 ^ 14) subY y mvRow) 1024 1024 w h 3 3 r c.

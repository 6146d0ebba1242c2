(** AV1 specification, 7.15 CDEF process.  [CurrFrame plane y x] is the frame after
    deblocking. *)
From Coq Require Import ZArith List Bool.
From Verif Require Import Base.Loop.
Import ListNotations.
Open Scope Z_scope.

Record frame : Type := mkFrame {
  BitDepth : Z; subX : Z; subY : Z; NumPlanes : Z; MiRows : Z; MiCols : Z;
  CdefDamping : Z;
  cdef_y_pri_strength : Z -> Z; cdef_y_sec_strength : Z -> Z;
  cdef_uv_pri_strength : Z -> Z; cdef_uv_sec_strength : Z -> Z;
  cdef_idx : Z -> Z -> Z;        (* at multiples of 16 rows and columns of 4x4 units *)
  Skips : Z -> Z -> bool }.
Definition picture : Type := Z -> Z -> Z -> Z.

Section Cdef.
Variable v : frame.
Variable CurrFrame : picture.
Definition coeffShift : Z := BitDepth v - 8.
Definition psubX (plane : Z) : Z := if plane =? 0 then 0 else subX v.
Definition psubY (plane : Z) : Z := if plane =? 0 then 0 else subY v.

(** * 7.15.2 CDEF direction process *)
Definition Div_Table : list Z := [0; 840; 420; 280; 210; 168; 140; 120; 105].
Definition div_at (i : Z) : Z := nth (Z.to_nat i) Div_Table 0.
(** Sum of [g i] for [lo] <= i < [hi]. *)
Definition Sum (lo hi : Z) (g : Z -> Z) : Z := zfor lo hi (fun i a => a + g i) 0.
(** The element of partial[d] that the pixel in row i, column j is added to. *)
Definition line_of (d i j : Z) : Z :=
  if d =? 0 then i + j
  else if d =? 1 then i + j / 2
  else if d =? 2 then i
  else if d =? 3 then 3 + i - j / 2
  else if d =? 4 then 7 + i - j
  else if d =? 5 then 3 - i / 2 + j
  else if d =? 6 then j
  else i / 2 + j.
Definition partial (r c d k : Z) : Z :=
  Sum 0 8 (fun i => Sum 0 8 (fun j =>
    if line_of d i j =? k then CurrFrame 0 (r * 4 + i) (c * 4 + j) / 2 ^ coeffShift - 128 else 0)).
Definition cost (r c d : Z) : Z :=
  let p k := partial r c d k in
  if (d =? 2) || (d =? 6) then Sum 0 8 (fun i => p i * p i) * div_at 8
  else if (d =? 0) || (d =? 4) then
    Sum 0 7 (fun i => (p i * p i + p (14 - i) * p (14 - i)) * div_at (i + 1)) + p 7 * p 7 * div_at 8
  else Sum 0 5 (fun j => p (3 + j) * p (3 + j)) * div_at 8 +
       Sum 0 3 (fun j => (p j * p j + p (10 - j) * p (10 - j)) * div_at (2 * j + 2)).
(** yDir and var. *)
Definition direction (r c : Z) : Z * Z :=
  let '(bestCost, yDir) := zfor 0 8 (fun d st => let '(bestCost, yDir) := st in
                             if bestCost <? cost r c d then (cost r c d, d) else (bestCost, yDir)) (0, 0) in
  (yDir, (bestCost - cost r c (Z.land (yDir + 4) 7)) / 2 ^ 10).

(** * 7.15.3 CDEF filter process *)
Definition FloorLog2 (x : Z) : Z := Z.log2 x.
Definition Clip3 (lo hi x : Z) : Z := if x <? lo then lo else if hi <? x then hi else x.
Definition constrain (diff threshold damping : Z) : Z :=
  if threshold =? 0 then 0 else
  let dampingAdj := Z.max 0 (damping - FloorLog2 threshold) in
  let mag := Z.abs diff in
  Z.sgn diff * Clip3 0 mag (threshold - mag / 2 ^ dampingAdj).
Definition Cdef_Directions : list (list (Z * Z)) :=
  [ [(-1, 1); (-2, 2)]; [(0, 1); (-1, 2)]; [(0, 1); (0, 2)]; [(0, 1); (1, 2)];
    [(1, 1); (2, 2)]; [(1, 0); (2, 1)]; [(1, 0); (2, 0)]; [(1, 0); (2, -1)] ].
Definition Cdef_Pri_Taps : list (list Z) := [[4; 2]; [3; 3]].
Definition Cdef_Sec_Taps : list (list Z) := [[2; 1]; [2; 1]].
Definition nth2 (l : list (list Z)) (i k : Z) : Z := nth (Z.to_nat k) (nth (Z.to_nat i) l []) 0.
Definition is_inside_filter_region (candR candC : Z) : bool :=
  (0 <=? candC) && (candC <? MiCols v) && (0 <=? candR) && (candR <? MiRows v).
(** cdef_get_at(): None where CdefAvailable is 0. *)
Definition get_at (plane y0 x0 dir k sign : Z) : option Z :=
  let '(dy, dx) := nth (Z.to_nat k) (nth (Z.to_nat dir) Cdef_Directions []) (0, 0) in
  let y := y0 + sign * dy in
  let x := x0 + sign * dx in
  if is_inside_filter_region ((y * 2 ^ psubY plane) / 4) ((x * 2 ^ psubX plane) / 4) then Some (CurrFrame plane y x) else None.
(** (sum, max, min) after one more pixel. *)
Definition add_tap (x : Z) (weight strength damping : Z) (p : option Z) (st : Z * Z * Z) : Z * Z * Z :=
  let '(sum, mx, mn) := st in
  match p with
  | Some p => (sum + weight * constrain (p - x) strength damping, Z.max p mx, Z.min p mn)
  | None => st
  end.
Definition filter_pixel (plane y x : Z) (priStr secStr damping dir : Z) : Z :=
  let px := CurrFrame plane y x in
  let odd := Z.land (priStr / 2 ^ coeffShift) 1 in
  let '(sum, mx, mn) :=
    zfor 0 2 (fun k st =>
      fold_left (fun st sign =>
        let st := add_tap px (nth2 Cdef_Pri_Taps odd k) priStr damping (get_at plane y x dir k sign) st in
        fold_left (fun st dirOff =>
          add_tap px (nth2 Cdef_Sec_Taps odd k) secStr damping (get_at plane y x (Z.land (dir + dirOff) 7) k sign) st)
          [-2; 2] st) [-1; 1] st) (0, px, px) in
  Clip3 mn mx (px + (8 + sum - (if sum <? 0 then 1 else 0)) / 2 ^ 4).

(** * 7.15.1 CDEF block process *)
Definition Cdef_Uv_Dir : list (list (list Z)) :=
  [ [[0; 1; 2; 3; 4; 5; 6; 7]; [1; 2; 2; 2; 3; 4; 6; 0]]; [[7; 0; 2; 4; 5; 6; 6; 6]; [0; 1; 2; 3; 4; 5; 6; 7]] ].
(** The block of 8x8 luma pixels at ([r], [c]) in 4x4 units. *)
Definition block_pixel (plane y x r c : Z) : Z :=
  let idx := cdef_idx v (r / 16) (c / 16) in
  let skip := Skips v r c && Skips v (r + 1) c && Skips v r (c + 1) && Skips v (r + 1) (c + 1) in
  if (idx =? -1) || skip then CurrFrame plane y x else
  let '(yDir, var) := direction r c in
  if plane =? 0 then
    let priStr := cdef_y_pri_strength v idx * 2 ^ coeffShift in
    let secStr := cdef_y_sec_strength v idx * 2 ^ coeffShift in
    let dir := if priStr =? 0 then 0 else yDir in
    let varStr := if var / 2 ^ 6 =? 0 then 0 else Z.min (FloorLog2 (var / 2 ^ 6)) 12 in
    let priStr := if var =? 0 then 0 else (priStr * (4 + varStr) + 8) / 2 ^ 4 in
    filter_pixel plane y x priStr secStr (CdefDamping v + coeffShift) dir
  else
    let priStr := cdef_uv_pri_strength v idx * 2 ^ coeffShift in
    let secStr := cdef_uv_sec_strength v idx * 2 ^ coeffShift in
    let dir := if priStr =? 0 then 0
               else nth (Z.to_nat yDir) (nth (Z.to_nat (subY v)) (nth (Z.to_nat (subX v)) Cdef_Uv_Dir []) []) 0 in
    filter_pixel plane y x priStr secStr (CdefDamping v + coeffShift - 1) dir.
(** The frame after the process. *)
Definition CdefFrame : picture := fun plane y x =>
  let r := 2 * ((y * 2 ^ psubY plane) / 8) in
  let c := 2 * ((x * 2 ^ psubX plane) / 8) in
  block_pixel plane y x r c.
End Cdef.

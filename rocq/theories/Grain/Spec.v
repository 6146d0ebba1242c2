(** AV1 specification, 7.18.3 film grain synthesis process, over the syntax elements
    of film_grain_params().  Two-dimensional arrays are functions of row and column. *)
From Coq Require Import ZArith List Bool.
From Verif Require Import Base.Loop Obu.FrameSpec Grain.Table.
Import ListNotations.
Open Scope Z_scope.

Definition array2 : Type := Z -> Z -> Z.
Definition assign (a : array2) (i j v : Z) : array2 := fun i' j' => if (i' =? i) && (j' =? j) then v else a i' j'.
Definition Round2 (x n : Z) : Z := if n =? 0 then x else (x + 2 ^ (n - 1)) / 2 ^ n.
Definition Clip3 (lo hi x : Z) : Z := if x <? lo then lo else if hi <? x then hi else x.

(** What the process uses of the sequence header. *)
Record video : Type := mkVideo {
  BitDepth : Z; subX : Z; subY : Z; monochrome : bool; mc_identity : bool;
  frame_w : Z; frame_h : Z }.

(** * 7.18.3.2 random number process: (result, RandomRegister) *)
Definition random_number (bits r : Z) : Z * Z :=
  let bit := (r + r / 2 + r / 8 + r / 4096) mod 2 in
  let r := r / 2 + 32768 * bit in
  ((r / 2 ^ (16 - bits)) mod 2 ^ bits, r).

(** * 7.18.3.3 generate grain process *)
Section Grain.
Variable v : video.
Variable s : film_grain.
Definition GrainCenter : Z := 128 * 2 ^ (BitDepth v - 8).
Definition GrainMin : Z := - GrainCenter.
Definition GrainMax : Z := 256 * 2 ^ (BitDepth v - 8) - 1 - GrainCenter.

Definition num_points (l : list (Z * Z)) : Z := Z.of_nat (length l).
Definition coeff (l : list Z) (pos : Z) : Z := nth (Z.to_nat pos) l 0 - 128.

Definition gaussian (h w RandomRegister : Z) : array2 :=
  let shift := 12 - BitDepth v + grain_scale_shift s in
  fst (zfor 0 h (fun y st =>
    zfor 0 w (fun x st =>
      let '(g, r) := st in
      let '(k, r) := random_number 11 r in
      (assign g y x (Round2 (nth (Z.to_nat k) gaussian_list 0) shift), r)) st)
    ((fun _ _ => 0), RandomRegister)).

(** One sample of the auto-regressive filter; [luma] is the contribution of the luma
    grain, a function of the position in the coefficients. *)
Definition ar_sample (cs : list Z) (luma : Z -> Z) (g : array2) (y x : Z) : Z :=
  let lag := ar_coeff_lag s in
  let '(sum, pos) :=
    zfor (- lag) 1 (fun deltaRow st =>
      zfor (- lag) (if deltaRow =? 0 then 0 else lag + 1) (fun deltaCol st =>
        let '(sum, pos) := st in
        (sum + coeff cs pos * g (y + deltaRow) (x + deltaCol), pos + 1)) st) (0, 0) in
  let sum := sum + luma pos in
  Clip3 GrainMin GrainMax (g y x + Round2 sum (ar_coeff_shift_minus_6 s + 6)).

Definition ar_filter (h w : Z) (cs : list Z) (luma : Z -> Z -> Z -> Z) (g : array2) : array2 :=
  zfor 3 h (fun y g => zfor 3 (w - 3) (fun x g => assign g y x (ar_sample cs (luma y x) g y x)) g) g.

Definition LumaGrain : array2 :=
  if 0 <? num_points (point_y s) then
    ar_filter 73 82 (ar_coeffs_y_plus_128 s) (fun _ _ _ => 0) (gaussian 73 82 (grain_seed s))
  else fun _ _ => 0.

Definition chromaW : Z := if subX v =? 1 then 44 else 82.
Definition chromaH : Z := if subY v =? 1 then 38 else 73.
Definition luma_average (y x : Z) : Z :=
  let lumaX := (x - 3) * 2 ^ subX v + 3 in
  let lumaY := (y - 3) * 2 ^ subY v + 3 in
  Round2 (zfor 0 (subY v + 1) (fun i a => zfor 0 (subX v + 1) (fun j a => a + LumaGrain (lumaY + i) (lumaX + j)) a) 0)
    (subX v + subY v).
Definition chroma_grain (cs : list Z) (RandomRegister : Z) : array2 :=
  ar_filter chromaH chromaW cs
    (fun y x pos => if 0 <? num_points (point_y s) then luma_average y x * coeff cs pos else 0)
    (gaussian chromaH chromaW RandomRegister).
Definition CbGrain : array2 := chroma_grain (ar_coeffs_cb_plus_128 s) (Z.lxor (grain_seed s) 46372).   (* 0xb524 *)
Definition CrGrain : array2 := chroma_grain (ar_coeffs_cr_plus_128 s) (Z.lxor (grain_seed s) 18904).   (* 0x49d8 *)

(** * 7.18.3.4 scaling lookup initialization process *)
Fixpoint segments (x0 y0 : Z) (l : list (Z * Z)) (i : Z) : Z :=
  match l with
  | [] => y0
  | (x1, y1) :: l =>
      if i <? x1 then y0 + ((i - x0) * ((y1 - y0) * ((65536 + (x1 - x0) / 2) / (x1 - x0))) + 32768) / 65536
      else segments x1 y1 l i
  end.
Definition ScalingLut (l : list (Z * Z)) (i : Z) : Z :=
  match l with
  | [] => 0
  | (x0, y0) :: l => if i <? x0 then y0 else segments x0 y0 l i
  end.
(** scale_lut() *)
Definition scale_lut (l : list (Z * Z)) (index : Z) : Z :=
  let shift := BitDepth v - 8 in
  let x := index / 2 ^ shift in
  let rem := index - x * 2 ^ shift in
  if (BitDepth v =? 8) || (x =? 255) then ScalingLut l x
  else let start := ScalingLut l x in
       let stop := ScalingLut l (x + 1) in
       start + Round2 ((stop - start) * rem) shift.

(** * 7.18.3.5 add noise synthesis process *)
(** Overlap: [pos] is the distance from the edge of the block, [sub] the subsampling. *)
Definition overlapped (sub pos old g : Z) : Z :=
  Clip3 GrainMin GrainMax
    (Round2 (if sub =? 1 then old * 23 + g * 22
             else if pos =? 0 then old * 27 + g * 17 else old * 17 + g * 27) 5).
(** Noise stripe [lumaNum] of a plane with subsampling [sx], [sy]. *)
Definition NoiseStripe (Grain : array2) (sx sy lumaNum : Z) : array2 :=
  let RandomRegister := Z.lxor (Z.lxor (grain_seed s) (((lumaNum * 37 + 178) mod 256) * 256)) ((lumaNum * 173 + 105) mod 256) in
  fst (zfor 0 (((frame_w v + 1) / 2 + 15) / 16) (fun n st =>       (* x = 16 * n *)
    let '(stripe, r) := st in
    let '(rand, r) := random_number 8 r in
    let offsetX := rand / 16 in
    let offsetY := rand mod 16 in
    let planeOffsetX := if sx =? 1 then 6 + offsetX else 9 + offsetX * 2 in
    let planeOffsetY := if sy =? 1 then 6 + offsetY else 9 + offsetY * 2 in
    let col := 16 * n * (if sx =? 1 then 1 else 2) in
    (zfor 0 (if sy =? 1 then 17 else 34) (fun i stripe =>
       zfor 0 (if sx =? 1 then 17 else 34) (fun j stripe =>
         let g := Grain (planeOffsetY + i) (planeOffsetX + j) in
         let g := if (j <? (if sx =? 1 then 1 else 2)) && (overlap_flag s =? 1) && (0 <? n)
                  then overlapped sx j (stripe i (col + j)) g else g in
         assign stripe i (col + j) g) stripe) stripe, r))
    ((fun _ _ => 0), RandomRegister)).
Definition NoiseImage (Grain : array2) (sx sy : Z) : array2 := fun y x =>
  let size := if sy =? 1 then 16 else 32 in
  let lumaNum := y / size in
  let i := y - lumaNum * size in
  let g := NoiseStripe Grain sx sy lumaNum i x in
  if (i <? (if sy =? 1 then 1 else 2)) && (0 <? lumaNum) && (overlap_flag s =? 1)
  then overlapped sy i (NoiseStripe Grain sx sy (lumaNum - 1) (i + size) x) g else g.

Definition minValue : Z := if clip_to_restricted_range s =? 1 then 16 * 2 ^ (BitDepth v - 8) else 0.
Definition maxLuma : Z := if clip_to_restricted_range s =? 1 then 235 * 2 ^ (BitDepth v - 8) else 256 * 2 ^ (BitDepth v - 8) - 1.
Definition maxChroma : Z :=
  if clip_to_restricted_range s =? 1 then (if mc_identity v then maxLuma else 240 * 2 ^ (BitDepth v - 8))
  else 256 * 2 ^ (BitDepth v - 8) - 1.
Definition ScalingShift : Z := grain_scaling_minus_8 s + 8.
Definition Clip1 (x : Z) : Z := Clip3 0 (2 ^ BitDepth v - 1) x.

(** The output planes, from the input planes. *)
Definition OutY (inY : array2) : array2 := fun y x =>
  if 0 <? num_points (point_y s) then
    let orig := inY y x in
    let noise := Round2 (scale_lut (point_y s) orig * NoiseImage LumaGrain 0 0 y x) ScalingShift in
    Clip3 minValue maxLuma (orig + noise)
  else inY y x.
Definition out_chroma (pts : list (Z * Z)) (Grain : array2) (params : option (Z * Z * Z)) (inY inC : array2) : array2 := fun y x =>
  if (0 <? num_points pts) || (chroma_scaling_from_luma s =? 1) then
    let lumaX := x * 2 ^ subX v in
    let lumaY := y * 2 ^ subY v in
    let lumaNextX := Z.min (lumaX + 1) (frame_w v - 1) in
    let averageLuma := if subX v =? 1 then Round2 (inY lumaY lumaX + inY lumaY lumaNextX) 1 else inY lumaY lumaX in
    let orig := inC y x in
    let merged :=
      if chroma_scaling_from_luma s =? 1 then averageLuma
      else let '(mult, luma_mult, offset) := match params with Some p => p | None => (128, 128, 256) end in
           let combined := averageLuma * (luma_mult - 128) + orig * (mult - 128) in
           Clip1 (combined / 2 ^ 6 + (offset - 256) * 2 ^ (BitDepth v - 8)) in
    let points := if chroma_scaling_from_luma s =? 1 then point_y s else pts in
    let noise := Round2 (scale_lut points merged * NoiseImage Grain (subX v) (subY v) y x) ScalingShift in
    Clip3 minValue maxChroma (orig + noise)
  else inC y x.
Definition OutU (inY inU : array2) : array2 := out_chroma (point_cb s) CbGrain (cb_params s) inY inU.
Definition OutV (inY inV : array2) : array2 := out_chroma (point_cr s) CrGrain (cr_params s) inY inV.

(** * Syntax constraints of film_grain_params() (5.9.30, 6.8.20) *)
Definition coded_points (n : Z) (l : list (Z * Z)) : Prop :=
  num_points l <= n /\
  (forall i, 0 <= i < num_points l -> 0 <= fst (nth (Z.to_nat i) l (0, 0)) <= 255 /\ 0 <= snd (nth (Z.to_nat i) l (0, 0)) <= 255) /\
  (forall i j, 0 <= i < j -> j < num_points l -> fst (nth (Z.to_nat i) l (0, 0)) < fst (nth (Z.to_nat j) l (0, 0))).
Definition coded_coeffs (n : Z) (l : list Z) : Prop :=
  Z.of_nat (length l) = n /\ forall i, 0 <= i < n -> 0 <= nth (Z.to_nat i) l 0 <= 255.
Definition coded_params (o : option (Z * Z * Z)) : Prop :=
  match o with Some (a, b, c) => 0 <= a <= 255 /\ 0 <= b <= 255 /\ 0 <= c <= 511 | None => True end.
Definition coded_grain (mono : bool) : Prop :=
  let luma := 2 * ar_coeff_lag s * (ar_coeff_lag s + 1) in
  let chroma := if 0 <? num_points (point_y s) then luma + 1 else luma in
  let cfl := chroma_scaling_from_luma s in
  0 <= grain_seed s < 65536 /\ coded_points 14 (point_y s) /\ coded_points 10 (point_cb s) /\ coded_points 10 (point_cr s) /\
  0 <= cfl <= 1 /\ 0 <= grain_scaling_minus_8 s <= 3 /\ 0 <= ar_coeff_lag s <= 3 /\
  (0 < num_points (point_y s) -> coded_coeffs luma (ar_coeffs_y_plus_128 s)) /\
  (0 < num_points (point_cb s) \/ cfl = 1 -> coded_coeffs chroma (ar_coeffs_cb_plus_128 s)) /\
  (0 < num_points (point_cr s) \/ cfl = 1 -> coded_coeffs chroma (ar_coeffs_cr_plus_128 s)) /\
  0 <= ar_coeff_shift_minus_6 s <= 3 /\ 0 <= grain_scale_shift s <= 3 /\
  coded_params (cb_params s) /\ coded_params (cr_params s) /\
  0 <= overlap_flag s <= 1 /\ 0 <= clip_to_restricted_range s <= 1 /\
  (mono = true \/ cfl = 1 -> point_cb s = [] /\ point_cr s = []) /\ (mono = true -> cfl = 0).
End Grain.

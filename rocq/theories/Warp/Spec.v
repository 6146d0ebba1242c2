(** The AV1 specification on local warped motion: the warp samples process (7.10.4), the setup shear process (7.11.3.6),
    the resolve divisor process (7.11.3.7) and the warp estimation process (7.11.3.8). *)
From Coq Require Import ZArith List Bool.
Import ListNotations.
Open Scope Z_scope.

Definition WARPEDMODEL_PREC_BITS := 16.
Definition WARP_PARAM_REDUCE_BITS := 6.
Definition WARPEDMODEL_NONDIAGAFFINE_CLAMP := 2 ^ 13.
Definition WARPEDMODEL_TRANS_CLAMP := 2 ^ 23.
Definition DIV_LUT_BITS := 8.
Definition DIV_LUT_PREC_BITS := 14.
Definition LS_MV_MAX := 256.
Definition LEAST_SQUARES_SAMPLES_MAX := 8.
Definition NONE := -1.

Definition Clip3 (lo hi x : Z) : Z := if x <? lo then lo else if hi <? x then hi else x.
Definition Round2 (x n : Z) : Z := if n =? 0 then x else (x + 2 ^ (n - 1)) / 2 ^ n.
Definition Round2Signed (x n : Z) : Z := if 0 <=? x then Round2 x n else - Round2 (- x) n.
(** Div_Lut[ i ] is 2^22 / (256 + i), rounded to nearest *)
Definition Div_Lut (i : Z) : Z := (2 ^ (DIV_LUT_BITS + DIV_LUT_PREC_BITS) + (256 + i) / 2) / (256 + i).

(** ** Resolve divisor: divShift and divFactor *)
Definition resolve_divisor (d : Z) : Z * Z :=
  let n := Z.log2 (Z.abs d) in
  let e := Z.abs d - 2 ^ n in
  let f := if DIV_LUT_BITS <? n then Round2 e (n - DIV_LUT_BITS) else e * 2 ^ (DIV_LUT_BITS - n) in
  (n + DIV_LUT_PREC_BITS, if d <? 0 then - Div_Lut f else Div_Lut f).

(** ** Setup shear: warpValid, alpha, beta, gamma, delta; warpParams is a list of six *)
Record shear : Type := { warpValid : bool; alpha : Z; beta : Z; gamma : Z; delta : Z }.
Record params : Type := { P0 : Z; P1 : Z; P2 : Z; P3 : Z; P4 : Z; P5 : Z }.
Definition reduce (x : Z) : Z := Round2Signed x WARP_PARAM_REDUCE_BITS * 2 ^ WARP_PARAM_REDUCE_BITS.
Definition setup_shear (p : params) : shear :=
  let one := 2 ^ WARPEDMODEL_PREC_BITS in
  let alpha0 := Clip3 (-32768) 32767 (P2 p - one) in
  let beta0 := Clip3 (-32768) 32767 (P3 p) in
  let '(divShift, divFactor) := resolve_divisor (P2 p) in
  let v := P4 p * one in
  let gamma0 := Clip3 (-32768) 32767 (Round2Signed (v * divFactor) divShift) in
  let w := P3 p * P4 p in
  let delta0 := Clip3 (-32768) 32767 (P5 p - Round2Signed (w * divFactor) divShift - one) in
  let a := reduce alpha0 in let b := reduce beta0 in let c := reduce gamma0 in let d := reduce delta0 in
  {| warpValid := negb ((one <=? 4 * Z.abs a + 7 * Z.abs b) || (one <=? 4 * Z.abs c + 4 * Z.abs d));
     alpha := a; beta := b; gamma := c; delta := d |}.

(** ** Warp samples *)
(** What is recorded for each 4x4 unit: Num_4x4_Blocks_Wide and _High of MiSizes[][], RefFrames[][][0..1], Mvs[][][0] *)
Record mode_info : Type := { W4 : Z; H4 : Z; Ref0 : Z; Ref1 : Z; MvRow : Z; MvCol : Z }.
(** CandList[][0..3] *)
Record cand : Type := { c0 : Z; c1 : Z; c2 : Z; c3 : Z }.
Record samples : Type := { CandList : Z -> cand; NumSamples : Z; NumSamplesScanned : Z }.
Section Samples.
(** [avail r c]: is_inside( r, c ) is 1 and the unit has been written for this frame *)
Variables (mi : Z -> Z -> mode_info) (avail : Z -> Z -> bool) (AvailU AvailL : bool).
Variables (MiRow MiCol MiRows MiCols bw4 bh4 RefFrame Mv0 Mv1 : Z).
Definition add_sample (deltaRow deltaCol : Z) (s : samples) : samples :=
  if LEAST_SQUARES_SAMPLES_MAX <=? NumSamplesScanned s then s else
  let mvRow := MiRow + deltaRow in
  let mvCol := MiCol + deltaCol in
  if negb (avail mvRow mvCol) then s else
  let m := mi mvRow mvCol in
  if negb (Ref0 m =? RefFrame) then s else
  if negb (Ref1 m =? NONE) then s else
  let candRow := mvRow / H4 m * H4 m in      (* mvRow & ~( candH4 - 1 ) *)
  let candCol := mvCol / W4 m * W4 m in
  let midY := candRow * 4 + H4 m * 2 - 1 in
  let midX := candCol * 4 + W4 m * 2 - 1 in
  let threshold := Clip3 16 112 (Z.max (4 * bw4) (4 * bh4)) in
  let mvDiffRow := Z.abs (MvRow m - Mv0) in
  let mvDiffCol := Z.abs (MvCol m - Mv1) in
  let valid := mvDiffRow + mvDiffCol <=? threshold in
  let c := {| c0 := midY * 8; c1 := midX * 8; c2 := midY * 8 + MvRow m; c3 := midX * 8 + MvCol m |} in
  let scanned := NumSamplesScanned s + 1 in
  if negb valid && (1 <? scanned) then {| CandList := CandList s; NumSamples := NumSamples s; NumSamplesScanned := scanned |} else
  {| CandList := fun i => if i =? NumSamples s then c else CandList s i;
     NumSamples := if valid then NumSamples s + 1 else NumSamples s;
     NumSamplesScanned := scanned |}.
Fixpoint above (fuel : nat) (i : Z) (s : samples) : samples :=
  match fuel with
  | O => s
  | S fuel => if i <? Z.min bw4 (MiCols - MiCol) then
      above fuel (i + Z.min bw4 (W4 (mi (MiRow - 1) (MiCol + i)))) (add_sample (-1) i s) else s
  end.
Fixpoint left (fuel : nat) (i : Z) (s : samples) : samples :=
  match fuel with
  | O => s
  | S fuel => if i <? Z.min bh4 (MiRows - MiRow) then
      left fuel (i + Z.min bh4 (H4 (mi (MiRow + i) (MiCol - 1)))) (add_sample i (-1) s) else s
  end.
(** doTopLeft and doTopRight *)
Definition doTopRight : bool :=
  negb (AvailU && (let srcW := W4 (mi (MiRow - 1) MiCol) in
                   (bw4 <=? srcW) && (bw4 <? - (MiCol mod srcW) + srcW))).
Definition doTopLeft : bool :=
  negb (AvailU && (let srcW := W4 (mi (MiRow - 1) MiCol) in (bw4 <=? srcW) && (- (MiCol mod srcW) <? 0))) &&
  negb (AvailL && (let srcH := H4 (mi MiRow (MiCol - 1)) in (bh4 <=? srcH) && (- (MiRow mod srcH) <? 0))).
Definition warp_samples : samples :=
  let s := {| CandList := fun _ => {| c0 := 0; c1 := 0; c2 := 0; c3 := 0 |}; NumSamples := 0; NumSamplesScanned := 0 |} in
  let s := if AvailU then
      if bw4 <=? W4 (mi (MiRow - 1) MiCol) then add_sample (-1) 0 s else above (Z.to_nat bw4) 0 s
    else s in
  let s := if AvailL then
      if bh4 <=? H4 (mi MiRow (MiCol - 1)) then add_sample 0 (-1) s else left (Z.to_nat bh4) 0 s
    else s in
  let s := if doTopLeft then add_sample (-1) (-1) s else s in
  let s := if doTopRight && (Z.max bw4 bh4 <=? 16) then add_sample (-1) bw4 s else s in
  if (NumSamples s =? 0) && (0 <? NumSamplesScanned s) then
    {| CandList := CandList s; NumSamples := 1; NumSamplesScanned := NumSamplesScanned s |} else s.

(** ** Warp estimation: None if LocalValid is 0, else LocalWarpParams *)
Definition ls_product (a b : Z) : Z := a * b / 4 + (a + b).
Record acc : Type := { A00 : Z; A01 : Z; A11 : Z; Bx0 : Z; Bx1 : Z; By0 : Z; By1 : Z }.
Definition midY := MiRow * 4 + bh4 * 2 - 1.
Definition midX := MiCol * 4 + bw4 * 2 - 1.
Definition accumulate (c : cand) (s : acc) : acc :=
  let suy := midY * 8 in
  let sux := midX * 8 in
  let duy := suy + Mv0 in
  let dux := sux + Mv1 in
  let sy := c0 c - suy in
  let sx := c1 c - sux in
  let dy := c2 c - duy in
  let dx := c3 c - dux in
  if (Z.abs (sx - dx) <? LS_MV_MAX) && (Z.abs (sy - dy) <? LS_MV_MAX) then
    {| A00 := A00 s + (ls_product sx sx + 8);
       A01 := A01 s + (ls_product sx sy + 4);
       A11 := A11 s + (ls_product sy sy + 8);
       Bx0 := Bx0 s + (ls_product sx dx + 8);
       Bx1 := Bx1 s + (ls_product sy dx + 4);
       By0 := By0 s + (ls_product sx dy + 4);
       By1 := By1 s + (ls_product sy dy + 8) |}
  else s.
Definition acc0 : acc := {| A00 := 0; A01 := 0; A11 := 0; Bx0 := 0; Bx1 := 0; By0 := 0; By1 := 0 |}.
Definition cands (s : samples) : list cand := map (fun i => CandList s (Z.of_nat i)) (seq 0 (Z.to_nat (NumSamples s))).
Definition solve (s : acc) : option params :=
  let det := A00 s * A11 s - A01 s * A01 s in
  if det =? 0 then None else
  let '(divShift, divFactor) := resolve_divisor det in
  let divShift := divShift - WARPEDMODEL_PREC_BITS in
  let divFactor := if divShift <? 0 then divFactor * 2 ^ (- divShift) else divFactor in
  let divShift := if divShift <? 0 then 0 else divShift in
  let nondiag v := Clip3 (- WARPEDMODEL_NONDIAGAFFINE_CLAMP + 1) (WARPEDMODEL_NONDIAGAFFINE_CLAMP - 1) (Round2Signed (v * divFactor) divShift) in
  let diag v := Clip3 (2 ^ WARPEDMODEL_PREC_BITS - WARPEDMODEL_NONDIAGAFFINE_CLAMP + 1)
                      (2 ^ WARPEDMODEL_PREC_BITS + WARPEDMODEL_NONDIAGAFFINE_CLAMP - 1) (Round2Signed (v * divFactor) divShift) in
  let p2 := diag (A11 s * Bx0 s - A01 s * Bx1 s) in
  let p3 := nondiag (- A01 s * Bx0 s + A00 s * Bx1 s) in
  let p4 := nondiag (A11 s * By0 s - A01 s * By1 s) in
  let p5 := diag (- A01 s * By0 s + A00 s * By1 s) in
  let vx := Mv1 * 2 ^ (WARPEDMODEL_PREC_BITS - 3) - (midX * (p2 - 2 ^ WARPEDMODEL_PREC_BITS) + midY * p3) in
  let vy := Mv0 * 2 ^ (WARPEDMODEL_PREC_BITS - 3) - (midX * p4 + midY * (p5 - 2 ^ WARPEDMODEL_PREC_BITS)) in
  Some {| P0 := Clip3 (- WARPEDMODEL_TRANS_CLAMP) (WARPEDMODEL_TRANS_CLAMP - 1) vx;
          P1 := Clip3 (- WARPEDMODEL_TRANS_CLAMP) (WARPEDMODEL_TRANS_CLAMP - 1) vy;
          P2 := p2; P3 := p3; P4 := p4; P5 := p5 |}.
Definition warp_estimation (s : samples) : option params := solve (fold_left (fun a c => accumulate c a) (cands s) acc0).
End Samples.

(** The local warp of a block, if LocalValid is 1 after the shear has been set up *)
Definition local_warp (p : option params) : option (params * shear) :=
  match p with
  | None => None
  | Some p => let sh := setup_shear p in if warpValid sh then Some (p, sh) else None
  end.

(** The two-dimensional inverse transform and the reconstruction of the AV1
    specification, sections 7.12.3 and 7.13.3, written independently of the
    code. *)
From Coq Require Import ZArith List Bool.
From Verif.Itx Require Import Spec1d.
Import ListNotations.
Open Scope Z_scope.

(** Tx_Width_Log2 and Tx_Height_Log2, in the order of the constants TX_4X4,
    TX_8X8, TX_16X16, TX_32X32, TX_64X64, TX_4X8, TX_8X4, TX_8X16, TX_16X8,
    TX_16X32, TX_32X16, TX_32X64, TX_64X32, TX_4X16, TX_16X4, TX_8X32,
    TX_32X8, TX_16X64, TX_64X16. *)
Definition tx_log2 : list (nat * nat) :=
  [ (2, 2); (3, 3); (4, 4); (5, 5); (6, 6); (2, 3); (3, 2); (3, 4); (4, 3); (4, 5); (5, 4); (5, 6); (6, 5);
    (2, 4); (4, 2); (3, 5); (5, 3); (4, 6); (6, 4) ]%nat.
Definition log2w (tx : nat) : nat := fst (nth tx tx_log2 (2, 2)%nat).
Definition log2h (tx : nat) : nat := snd (nth tx tx_log2 (2, 2)%nat).
Definition width (tx : nat) : nat := 2 ^ log2w tx.
Definition height (tx : nat) : nat := 2 ^ log2h tx.

(** Transform_Row_Shift *)
Definition row_shift (tx : nat) : Z :=
  nth tx [0; 1; 2; 2; 2; 0; 0; 1; 1; 1; 1; 1; 1; 1; 1; 2; 2; 2; 2] 0.

(** The kinds of one-dimensional transforms of a transform type.  "A_B" is A
    for the columns and B for the rows; V_x leaves the rows and H_x the
    columns to the identity. *)
Inductive kind := Dct | Adst | Flip | Ident_.
Definition kinds : list (kind * kind) :=   (* (columns, rows) *)
  [ (Dct, Dct); (Adst, Dct); (Dct, Adst); (Adst, Adst); (Flip, Dct); (Dct, Flip); (Flip, Flip); (Adst, Flip);
    (Flip, Adst); (Ident_, Ident_); (Dct, Ident_); (Ident_, Dct); (Adst, Ident_); (Ident_, Adst);
    (Flip, Ident_); (Ident_, Flip) ].
Definition col_kind (ty : nat) : kind := fst (nth ty kinds (Dct, Dct)).
Definition row_kind (ty : nat) : kind := snd (nth ty kinds (Dct, Dct)).
Definition is_flip (k : kind) : bool := match k with Flip => true | _ => false end.

Definition kind_steps (k : kind) (n : nat) : list step :=
  match k with
  | Dct => dct_steps n
  | Adst | Flip => adst_steps n
  | Ident_ => identity_steps n
  end.

(** Which types a size can have: the transform sets. *)
Definition allowed (tx ty : nat) : bool :=
  let big := Nat.max (log2w tx) (log2h tx) in
  let small := Nat.min (log2w tx) (log2h tx) in
  if Nat.eqb big 6 then Nat.eqb ty 0
  else if Nat.eqb big 5 then Nat.eqb ty 0 || Nat.eqb ty 9
  else if Nat.eqb small 4 then Nat.leb ty 11
  else Nat.leb ty 15.

(** Clip3 to a signed value of [r] bits. *)
Definition clamp (r v : Z) : Z :=
  if v <? - 2 ^ (r - 1) then - 2 ^ (r - 1)
  else if 2 ^ (r - 1) - 1 <? v then 2 ^ (r - 1) - 1 else v.

Definition row_bits (BitDepth : Z) : Z := BitDepth + 8.
Definition col_bits (BitDepth : Z) : Z := Z.max (BitDepth + 6) 16.

Definition Clip1 (BitDepth v : Z) : Z :=
  if v <? 0 then 0 else if 2 ^ BitDepth - 1 <? v then 2 ^ BitDepth - 1 else v.

(** 7.13.3.  [satr], [satc]: what is done to the results of the Hadamard
    rotations, see Spec1d.v.  [coef i j] is the dequantised coefficient of row
    [i] and column [j]. *)
Section Inverse.
Variables satr satc : Z -> Z.
Variables (BitDepth : Z) (tx ty : nat) (coef : nat -> nat -> Z).
Let w := width tx. Let h := height tx.

Definition row_input (i : nat) : list Z :=
  let T := map (fun j => if Nat.ltb i 32 && Nat.ltb j 32 then coef i j else 0) (seq 0 w) in
  let T := if Nat.eqb (log2w tx) (S (log2h tx)) || Nat.eqb (log2h tx) (S (log2w tx))
           then map (fun v => round2 (v * 2896) 12) T else T in
  map (clamp (row_bits BitDepth)) T.
Definition row_output (i : nat) : list Z :=
  map (fun v => clamp (col_bits BitDepth) (round2 v (row_shift tx)))
      (do_steps satr (kind_steps (row_kind ty) (log2w tx)) (row_input i)).
Definition col_input (j : nat) : list Z := map (fun i => nth j (row_output i) 0) (seq 0 h).
Definition col_output (j : nat) : list Z :=
  map (fun v => round2 v 4) (do_steps satc (kind_steps (col_kind ty) (log2h tx)) (col_input j)).
Definition residual (i j : nat) : Z := nth i (col_output j) 0.

(** 7.12.3: the flipped transforms write the residual mirrored. *)
Definition reconstruct (dst : list (list Z)) : list (list Z) :=
  map (fun y => map (fun x =>
         let i := if is_flip (col_kind ty) then (h - 1 - y)%nat else y in
         let j := if is_flip (row_kind ty) then (w - 1 - x)%nat else x in
         Clip1 BitDepth (nth x (nth y dst []) 0 + residual i j)) (seq 0 w)) (seq 0 h).
End Inverse.

(** The lossless blocks: the Walsh-Hadamard transform, with a shift of 2 in
    the rows and of 0 in the columns, and no clamping. *)
Definition wht_row (coef : nat -> nat -> Z) (i : nat) : list Z :=
  do_steps (fun v => v) [Wht4] (map (fun j => Z.shiftr (coef i j) 2) (seq 0 4)).
Definition wht_col (coef : nat -> nat -> Z) (j : nat) : list Z :=
  do_steps (fun v => v) [Wht4] (map (fun i => nth j (wht_row coef i) 0) (seq 0 4)).
Definition reconstruct_wht (BitDepth : Z) (coef : nat -> nat -> Z) (dst : list (list Z)) : list (list Z) :=
  map (fun y => map (fun x => Clip1 BitDepth (nth x (nth y dst []) 0 + nth y (wht_col coef x) 0)) (seq 0 4)) (seq 0 4).

(** ** Scans: 5.11.41.  The default scans visit the anti-diagonals from the
    corner outwards; on a square block every other diagonal is taken in the
    opposite direction.  A scan position [pos] of a [tw] x [th] block is the
    coefficient of row [pos / tw] and column [pos mod tw]. *)
Definition diagonal (tw th d : nat) (down : bool) : list nat :=
  let cells := flat_map (fun i => if Nat.leb i d && Nat.ltb (d - i) tw then [(i * tw + (d - i))%nat] else [])
                        (seq 0 th) in
  if down then cells else rev cells.
Definition default_scan (tw th : nat) : list nat :=
  flat_map (fun d => diagonal tw th d
              (if Nat.eqb tw th then Nat.odd d else Nat.ltb tw th)) (seq 0 (tw + th - 1)).

(** Row scans (V_x) go along the rows, column scans (H_x) down the columns. *)
Definition mrow_scan (tw th : nat) : list nat := seq 0 (tw * th).
Definition mcol_scan (tw th : nat) : list nat :=
  flat_map (fun j => map (fun i => (i * tw + j)%nat) (seq 0 th)) (seq 0 tw).

Definition scan_w (tx : nat) : nat := Nat.min 32 (width tx).
Definition scan_h (tx : nat) : nat := Nat.min 32 (height tx).
Definition get_scan (tx ty : nat) : list nat :=
  match col_kind ty, row_kind ty with
  | Ident_, Ident_ => default_scan (scan_w tx) (scan_h tx)
  | _, Ident_ => mrow_scan (scan_w tx) (scan_h tx)
  | Ident_, _ => mcol_scan (scan_w tx) (scan_h tx)
  | _, _ => default_scan (scan_w tx) (scan_h tx)
  end.

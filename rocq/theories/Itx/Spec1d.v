(** The one-dimensional inverse transforms of the AV1 specification, section
    7.13.2, as sequences of butterfly steps on an array [T].  Written from the
    specification, independently of the code. *)
From Coq Require Import ZArith List Bool.
Import ListNotations.
Open Scope Z_scope.

(** 7.13.2.1: cos128, sin128 (angles in units of 1/128 of a half turn). *)
Definition cos128_lookup : list Z :=
  [ 4096; 4095; 4091; 4085; 4076; 4065; 4052; 4036; 4017; 3996; 3973; 3948; 3920; 3889; 3857; 3822;
    3784; 3745; 3703; 3659; 3612; 3564; 3513; 3461; 3406; 3349; 3290; 3229; 3166; 3102; 3035; 2967;
    2896; 2824; 2751; 2675; 2598; 2520; 2440; 2359; 2276; 2191; 2106; 2019; 1931; 1842; 1751; 1660;
    1567; 1474; 1380; 1285; 1189; 1092; 995; 897; 799; 700; 601; 501; 401; 301; 201; 101; 0 ].
Definition cos128 (angle : Z) : Z :=
  let a := angle mod 256 in
  let tbl i := nth (Z.to_nat i) cos128_lookup 0 in
  if a <=? 64 then tbl a
  else if a <=? 128 then - tbl (128 - a)
  else if a <=? 192 then - tbl (a - 128)
  else tbl (256 - a).
Definition sin128 (angle : Z) : Z := cos128 (angle - 64).

Definition round2 (x n : Z) : Z := if n =? 0 then x else Z.shiftr (x + 2 ^ (n - 1)) n.

(** brev(numBits, x): the low [numBits] bits of [x], reversed. *)
Definition brev (numBits : nat) (x : nat) : nat :=
  fold_left (fun a i => (2 * a + (if Nat.testbit x i then 1 else 0))%nat) (seq 0 numBits) 0%nat.

(** The steps. *)
Inductive step :=
| B (a b : nat) (angle : Z) (flip : bool)     (* butterfly rotation, optionally with flip *)
| H (a b : nat) (flip : bool)                 (* Hadamard rotation *)
| Perm (idx : list nat)                       (* T[i] = copyT[idx[i]] *)
| Neg (i : nat)                               (* T[i] = -T[i] *)
| Ident (i : nat) (num den : Z)               (* T[i] = T[i] * num, rounded by den bits *)
| Adst4                                       (* 7.13.2.6 *)
| Wht4.                                       (* 7.13.2.10, shift 0 *)

Definition get (T : list Z) (i : nat) : Z := nth i T 0.
Fixpoint set (T : list Z) (i : nat) (v : Z) : list Z :=
  match T, i with
  | [], _ => []
  | _ :: T, O => v :: T
  | x :: T, S i => x :: set T i v
  end.

Definition SINPI_1_9 := 1321.
Definition SINPI_2_9 := 2482.
Definition SINPI_3_9 := 3344.
Definition SINPI_4_9 := 3803.

(** [sat] is what is done to the two results of a Hadamard rotation.  The
    specification requires of a conforming stream that they be representable
    in [r] bits, so that nothing needs doing; a decoder saturates. *)
Section Steps.
Variable sat : Z -> Z.

Definition do_H (a b : nat) (T : list Z) : list Z :=
  let x := get T a in let y := get T b in set (set T a (sat (x + y))) b (sat (x - y)).

Definition do_step (st : step) (T : list Z) : list Z :=
  match st with
  | B a b angle flip =>
      let x := get T a * cos128 angle - get T b * sin128 angle in
      let y := get T a * sin128 angle + get T b * cos128 angle in
      let x := round2 x 12 in let y := round2 y 12 in
      if flip then set (set T a y) b x else set (set T a x) b y
  | H a b flip => if flip then do_H b a T else do_H a b T
  | Perm idx => map (get T) idx
  | Neg i => set T i (- get T i)
  | Ident i num den => set T i (round2 (get T i * num) den)
  | Adst4 =>
      let s0 := SINPI_1_9 * get T 0 in
      let s1 := SINPI_2_9 * get T 0 in
      let s2 := SINPI_3_9 * get T 1 in
      let s3 := SINPI_4_9 * get T 2 in
      let s4 := SINPI_1_9 * get T 2 in
      let s5 := SINPI_2_9 * get T 3 in
      let s6 := SINPI_4_9 * get T 3 in
      let a7 := get T 0 - get T 2 in
      let b7 := a7 + get T 3 in
      let s0 := s0 + s3 in
      let s1 := s1 - s4 in
      let s3 := s2 in
      let s2 := SINPI_3_9 * b7 in
      let s0 := s0 + s5 in
      let s1 := s1 - s6 in
      let x0 := s0 + s3 in
      let x1 := s1 + s3 in
      let x2 := s2 in
      let x3 := s0 + s1 in
      let x3 := x3 - s3 in
      [round2 x0 12; round2 x1 12; round2 x2 12; round2 x3 12]
  | Wht4 =>
      let a := get T 0 in let c := get T 1 in let d := get T 2 in let b := get T 3 in
      let a := a + c in
      let d := d - b in
      let e := Z.shiftr (a - d) 1 in
      let b := e - b in
      let c := e - c in
      let a := a - b in
      let d := d + c in
      [a; b; c; d]
  end.

Definition do_steps (l : list step) (T : list Z) : list Z := fold_left (fun T st => do_step st T) l T.
End Steps.

Definition for_ (k : nat) (f : nat -> list step) : list step := flat_map f (seq 0 k).
Definition when (b : bool) (l : list step) : list step := if b then l else [].
Notation z := Z.of_nat.

(** 7.13.2.2, 7.13.2.3: the inverse DCT on [2 ^ n] points. *)
Definition dct_steps (n : nat) : list step :=
  let ge k := Nat.leb k n in let is6 := Nat.eqb n 6 in
  [Perm (map (brev n) (seq 0 (2 ^ n)))] ++
  when is6 (for_ 16 (fun i => [B (32 + i) (63 - i) (63 - 4 * z (brev 4 i)) false])) ++
  when (ge 5%nat) (for_ 8 (fun i => [B (16 + i) (31 - i) (6 + 8 * z (brev 3 (7 - i))) false])) ++
  when is6 (for_ 16 (fun i => [H (32 + i * 2) (33 + i * 2) (Nat.odd i)])) ++
  when (ge 4%nat) (for_ 4 (fun i => [B (8 + i) (15 - i) (12 + 16 * z (brev 2 (3 - i))) false])) ++
  when (ge 5%nat) (for_ 8 (fun i => [H (16 + 2 * i) (17 + 2 * i) (Nat.odd i)])) ++
  when is6 (for_ 4 (fun i => for_ 2 (fun j =>
    [B (62 - i * 4 - j) (33 + i * 4 + j) (60 - 16 * z (brev 2 i) + 64 * z j) true]))) ++
  when (ge 3%nat) (for_ 2 (fun i => [B (4 + i) (7 - i) (56 - 32 * z i) false])) ++
  when (ge 4%nat) (for_ 4 (fun i => [H (8 + 2 * i) (9 + 2 * i) (Nat.odd i)])) ++
  when (ge 5%nat) (for_ 2 (fun i => for_ 2 (fun j =>
    [B (30 - 4 * i - j) (17 + 4 * i + j) (24 + 64 * z j + 32 * z (1 - i)) true]))) ++
  when is6 (for_ 8 (fun i => for_ 2 (fun j => [H (32 + i * 4 + j) (35 + i * 4 - j) (Nat.odd i)]))) ++
  for_ 2 (fun i => [B (2 * i) (2 * i + 1) (32 + 16 * z i) (Nat.eqb i 0)]) ++
  when (ge 3%nat) (for_ 2 (fun i => [H (4 + 2 * i) (5 + 2 * i) (Nat.odd i)])) ++
  when (ge 4%nat) (for_ 2 (fun i => [B (14 - i) (9 + i) (48 + 64 * z i) true])) ++
  when (ge 5%nat) (for_ 4 (fun i => for_ 2 (fun j => [H (16 + 4 * i + j) (19 + 4 * i - j) (Nat.odd i)]))) ++
  when is6 (for_ 2 (fun i => for_ 4 (fun j =>
    [B (61 - i * 8 - j) (34 + i * 8 + j) (56 - 32 * z i + 64 * z (j / 2)) true]))) ++
  for_ 2 (fun i => [H i (3 - i) false]) ++
  when (ge 3%nat) [B 6 5 32 true] ++
  when (ge 4%nat) (for_ 2 (fun i => for_ 2 (fun j => [H (8 + 4 * i + j) (11 + 4 * i - j) (Nat.odd i)]))) ++
  when (ge 5%nat) (for_ 4 (fun i => [B (29 - i) (18 + i) (48 + 64 * z (i / 2)) true])) ++
  when is6 (for_ 4 (fun i => for_ 4 (fun j => [H (32 + 8 * i + j) (39 + 8 * i - j) (Nat.odd i)]))) ++
  when (ge 3%nat) (for_ 4 (fun i => [H i (7 - i) false])) ++
  when (ge 4%nat) (for_ 2 (fun i => [B (13 - i) (10 + i) 32 true])) ++
  when (ge 5%nat) (for_ 2 (fun i => for_ 4 (fun j => [H (16 + 8 * i + j) (23 + 8 * i - j) (Nat.odd i)]))) ++
  when is6 (for_ 8 (fun i => [B (59 - i) (36 + i) (if Nat.ltb i 4 then 48 else 112) true])) ++
  when (ge 4%nat) (for_ 8 (fun i => [H i (15 - i) false])) ++
  when (ge 5%nat) (for_ 4 (fun i => [B (27 - i) (20 + i) 32 true])) ++
  when is6 (for_ 8 (fun i => [H (32 + i) (47 - i) false; H (48 + i) (63 - i) true])) ++
  when (ge 5%nat) (for_ 16 (fun i => [H i (31 - i) false])) ++
  when is6 (for_ 8 (fun i => [B (55 - i) (40 + i) 32 true])) ++
  when is6 (for_ 32 (fun i => [H i (63 - i) false])).

(** 7.13.2.4, 7.13.2.5: the ADST array permutations. *)
Definition adst_in_perm (n : nat) : list nat :=
  map (fun i => if Nat.odd i then (i - 1)%nat else (2 ^ n - i - 1)%nat) (seq 0 (2 ^ n)).
Definition adst_out_perm (n : nat) : list nat :=
  map (fun i =>
         let bit k := Nat.testbit i k in
         let v (b : bool) := if b then 1%nat else 0%nat in
         let a := bit 3%nat in
         let b := xorb (bit 2%nat) (bit 3%nat) in
         let c := xorb (bit 1%nat) (bit 2%nat) in
         let d := xorb (bit 0%nat) (bit 1%nat) in
         ((8 * v d + 4 * v c + 2 * v b + v a) / 2 ^ (4 - n))%nat) (seq 0 (2 ^ n)).

(** 7.13.2.7 and 7.13.2.8. *)
Definition adst8_steps : list step :=
  [Perm (adst_in_perm 3)] ++
  for_ 4 (fun i => [B (2 * i) (2 * i + 1) (60 - 16 * z i) true]) ++
  for_ 4 (fun i => [H i (4 + i) false]) ++
  for_ 2 (fun i => [B (4 + 3 * i) (5 + i) (48 - 32 * z i) true]) ++
  for_ 2 (fun i => for_ 2 (fun j => [H (4 * j + i) (2 + 4 * j + i) false])) ++
  for_ 2 (fun i => [B (2 + 4 * i) (3 + 4 * i) 32 true]) ++
  [Perm (adst_out_perm 3)] ++
  for_ 4 (fun i => [Neg (1 + 2 * i)]).
Definition adst16_steps : list step :=
  [Perm (adst_in_perm 4)] ++
  for_ 8 (fun i => [B (2 * i) (2 * i + 1) (62 - 8 * z i) true]) ++
  for_ 8 (fun i => [H i (8 + i) false]) ++
  for_ 2 (fun i => [B (8 + 2 * i) (9 + 2 * i) (56 - 32 * z i) true;
                    B (13 + 2 * i) (12 + 2 * i) (8 + 32 * z i) true]) ++
  for_ 4 (fun i => for_ 2 (fun j => [H (8 * j + i) (4 + 8 * j + i) false])) ++
  for_ 2 (fun i => for_ 2 (fun j => [B (4 + 8 * j + 3 * i) (5 + 8 * j + i) (48 - 32 * z i) true])) ++
  for_ 2 (fun i => for_ 4 (fun j => [H (4 * j + i) (2 + 4 * j + i) false])) ++
  for_ 4 (fun i => [B (2 + 4 * i) (3 + 4 * i) 32 true]) ++
  [Perm (adst_out_perm 4)] ++
  for_ 8 (fun i => [Neg (1 + 2 * i)]).

(** 7.13.2.9 and following: ADST by size, identity by size. *)
Definition adst_steps (n : nat) : list step :=
  match n with
  | 2%nat => [Adst4]
  | 3%nat => adst8_steps
  | _ => adst16_steps
  end.
Definition identity_steps (n : nat) : list step :=
  match n with
  | 2%nat => for_ 4 (fun i => [Ident i 5793 12])
  | 3%nat => for_ 8 (fun i => [Ident i 2 0])
  | 4%nat => for_ 16 (fun i => [Ident i 11586 12])
  | _ => for_ 32 (fun i => [Ident i 4 0])
  end.

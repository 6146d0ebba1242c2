(** Specification of bit reading, written from the AV1 bitstream
    specification (sections 4.10.x "Descriptors"), independent of the C
    reader: a byte buffer is a function from bit positions to bits. *)
From Coq Require Import ZArith List Bool.
Import ListNotations.
Open Scope Z_scope.

(** Bit [i] of a buffer of which the first [sz] bytes are valid; most
    significant bit first; zero after the end. *)
Definition stream_bit (buf : list Z) (sz : Z) (i : Z) : Z :=
  if (0 <=? i) && (i <? 8 * sz)
  then (nth (Z.to_nat (i / 8)) buf 0 / 2 ^ (7 - i mod 8)) mod 2
  else 0.

(** AV1 spec 4.10.2, f(n): [x = 0; for (i = 0; i < n; i++) x = 2*x + read_bit()]. *)
Fixpoint bitsval (f : Z -> Z) (pos : Z) (n : nat) : Z :=
  match n with
  | O => 0
  | S m => 2 * bitsval f pos m + f (pos + Z.of_nat m)
  end.
Definition f_n (f : Z -> Z) (pos n : Z) : Z := bitsval f pos (Z.to_nat n).

(** AV1 spec 4.10.6, su(n). *)
Definition su_n (f : Z -> Z) (pos n : Z) : Z :=
  let value := f_n f pos n in
  if 2 ^ (n - 1) <=? value then value - 2 ^ n else value.

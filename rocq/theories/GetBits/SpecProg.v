(** Syntax tables of the AV1 bitstream specification as programs that read
    syntax elements.  This type only knows f(n) and "requirement of bitstream
    conformance"; it does not know anything about the C reader. *)
From Coq Require Import ZArith List Bool.
From Verif Require Import GetBits.Spec.
Import ListNotations.
Open Scope Z_scope.

Inductive sp (A : Type) : Type :=
| SRet (a : A)
| SReject                       (* a bitstream conformance requirement fails *)
| SF (n : Z) (k : Z -> sp A).   (* f(n) *)
Arguments SRet {A} a.
Arguments SReject {A}.
Arguments SF {A} n k.

Fixpoint sbind {A B} (m : sp A) (g : A -> sp B) : sp B :=
  match m with
  | SRet a => g a
  | SReject => SReject
  | SF n k => SF n (fun v => sbind (k v) g)
  end.

Declare Scope sp_scope.
Delimit Scope sp_scope with sp.
Notation "'let*' x ':=' m 'in' k" := (sbind m (fun x => k))
  (at level 200, x pattern, m at level 100, k at level 200) : sp_scope.
Local Open Scope sp_scope.

(** Running a syntax table on a bit stream. *)
Fixpoint srun {A} (p : sp A) (b : Z -> Z) (pos : Z) : option A * Z :=
  match p with
  | SRet a => (Some a, pos)
  | SReject => (None, pos)
  | SF n k => srun (k (f_n b pos n)) b (pos + n)
  end.

Definition f (n : Z) : sp Z := SF n SRet.
Definition require (b : bool) : sp unit := if b then SRet tt else SReject.

(** 4.10.6 su(n). *)
Definition su (n : Z) : sp Z :=
  let* value := f n in
  let signMask := 2 ^ (n - 1) in
  SRet (if 0 <? Z.land value signMask then value - 2 * signMask else value).

(** 4.10.7 ns(n).  FloorLog2 of section 4.7 is [Z.log2]. *)
Definition ns (n : Z) : sp Z :=
  let w := Z.log2 n + 1 in
  let m := 2 ^ w - n in
  let* v := f (w - 1) in
  if v <? m then SRet v
  else let* extra_bit := f 1 in SRet (v * 2 - m + extra_bit).

(** 4.10.3 uvlc().  The specification's loop over leading zeros is unbounded;
    as soon as 32 zeros have been seen the result is fixed to 2^32-1, and this
    table stops there. *)
Fixpoint uvlc_zeros (fuel : nat) (leadingZeros : Z) : sp Z :=
  match fuel with
  | O => SRet leadingZeros
  | S fuel => let* done := f 1 in
              if done =? 1 then SRet leadingZeros
              else uvlc_zeros fuel (leadingZeros + 1)
  end.
Definition uvlc : sp Z :=
  let* leadingZeros := uvlc_zeros 32 0 in
  if 32 <=? leadingZeros then SRet (2 ^ 32 - 1)
  else let* value := (if leadingZeros =? 0 then SRet 0 else f leadingZeros) in
       SRet (value + 2 ^ leadingZeros - 1).

(** 4.10.5 leb128(): value and the number of bytes read. *)
Fixpoint leb128_loop (rem : nat) (i value : Z) : sp (Z * Z) :=
  match rem with
  | O => SReject  (* the eighth byte has its top bit set *)
  | S rem =>
    let* leb128_byte := f 8 in
    let value := value + (leb128_byte mod 128) * 2 ^ (i * 7) in
    if leb128_byte <? 128 then SRet (value, i + 1)
    else leb128_loop rem (i + 1) value
  end.
Definition leb128 : sp Z :=
  let* (value, _) := leb128_loop 8 0 0 in
  let* _ := require (value <=? 2 ^ 32 - 1) in
  SRet value.

(** 5.9.29 inverse_recenter(r, v). *)
Definition inverse_recenter (r v : Z) : Z :=
  if 2 * r <? v then v
  else if v mod 2 =? 1 then r - (v + 1) / 2
  else r + v / 2.

(** 5.9.28 decode_subexp(numSyms), k = 3. *)
Fixpoint decode_subexp_loop (fuel : nat) (i mk numSyms : Z) : sp Z :=
  match fuel with
  | O => SReject
  | S fuel =>
    let b2 := if 0 <? i then 3 + i - 1 else 3 in
    let a := 2 ^ b2 in
    if numSyms <=? mk + 3 * a then
      let* subexp_final_bits := ns (numSyms - mk) in
      SRet (subexp_final_bits + mk)
    else
      let* subexp_more_bits := f 1 in
      if subexp_more_bits =? 1 then decode_subexp_loop fuel (i + 1) (mk + a) numSyms
      else let* subexp_bits := f b2 in SRet (subexp_bits + mk)
  end.
Definition decode_subexp (numSyms : Z) : sp Z := decode_subexp_loop 32 0 0 numSyms.

(** 5.9.27 decode_unsigned_subexp_with_ref(mx, r). *)
Definition decode_unsigned_subexp_with_ref (mx r : Z) : sp Z :=
  let* v := decode_subexp mx in
  SRet (if 2 * r <=? mx then inverse_recenter r v
        else mx - 1 - inverse_recenter (mx - 1 - r) v).

(** 5.9.26 decode_signed_subexp_with_ref(low, high, r). *)
Definition decode_signed_subexp_with_ref (low high r : Z) : sp Z :=
  let* x := decode_unsigned_subexp_with_ref (high - low) (r - low) in
  SRet (x + low).

(** C integer types, the "undefined behaviour" outcome, and byte memory. *)
From Coq Require Import ZArith List Bool Lia.
Import ListNotations.
Open Scope Z_scope.

(** Outcome of executing a piece of C code: a value, or undefined behaviour
    (out-of-bounds access, failed [assert], out-of-range shift, signed
    overflow, exhausted fuel of a loop). *)
Inductive outcome (A : Type) : Type :=
| Ok (a : A)
| Undef.
Arguments Ok {A} a.
Arguments Undef {A}.

Definition obind {A B} (m : outcome A) (f : A -> outcome B) : outcome B :=
  match m with Ok a => f a | Undef => Undef end.

Declare Scope outcome_scope.
Delimit Scope outcome_scope with outcome.
Notation "'let!' x ':=' m 'in' k" := (obind m (fun x => k))
  (at level 200, x pattern, m at level 100, k at level 200) : outcome_scope.
Notation "'guard!' b 'in' k" := (if b then k else Undef)
  (at level 200, b at level 100, k at level 200) : outcome_scope.

(** Conversions to fixed-width unsigned types: C11 6.3.1.3p2. *)
Definition u8  (x : Z) : Z := x mod 2 ^ 8.
Definition u16 (x : Z) : Z := x mod 2 ^ 16.
Definition u32 (x : Z) : Z := x mod 2 ^ 32.
Definition u64 (x : Z) : Z := x mod 2 ^ 64.

(** Conversions to fixed-width signed types (two's complement; the behaviour
    of every compiler dav1d supports). *)
Definition sN (n : Z) (x : Z) : Z := (x + 2 ^ (n - 1)) mod 2 ^ n - 2 ^ (n - 1).
Definition s8  (x : Z) : Z := sN 8 x.
Definition s16 (x : Z) : Z := sN 16 x.
Definition s32 (x : Z) : Z := sN 32 x.
Definition s64 (x : Z) : Z := sN 64 x.

Definition INT_MAX : Z := 2147483647.
Definition INT_MIN : Z := -2147483648.
Definition UINT_MAX : Z := 4294967295.
Definition fits_int (x : Z) : bool := (INT_MIN <=? x) && (x <=? INT_MAX).

(** Booleans as C ints. *)
Definition b2z (b : bool) : Z := if b then 1 else 0.
Definition z2b (x : Z) : bool := negb (x =? 0).

(** Byte (or element) [i] of a buffer; reading outside is undefined. *)
Definition rd_at {A} (l : list A) (i : Z) : outcome A :=
  if i <? 0 then Undef else
  match nth_error l (Z.to_nat i) with Some a => Ok a | None => Undef end.

(** Write element [i] of an array; writing outside is undefined. *)
Fixpoint upd_nat {A} (l : list A) (i : nat) (v : A) : list A :=
  match l, i with
  | [], _ => []
  | _ :: t, O => v :: t
  | h :: t, S i => h :: upd_nat t i v
  end.
Definition wr_at {A} (l : list A) (i : Z) (v : A) : outcome (list A) :=
  if (0 <=? i) && (i <? Z.of_nat (length l))
  then Ok (upd_nat l (Z.to_nat i) v) else Undef.

Definition zlen {A} (l : list A) : Z := Z.of_nat (length l).

Definition is_byte (b : Z) : Prop := 0 <= b < 256.

(** /repo/include/common/intops.h:51-53 iclip. *)
Definition iclip (v lo hi : Z) : Z :=
  if v <? lo then lo else if hi <? v then hi else v.
(** intops.h:55-57 iclip_u8. *)
Definition iclip_u8 (v : Z) : Z := iclip v 0 255.
(** intops.h:59-61 apply_sign; negation of INT_MIN is not reachable for the
    callers modelled, where [v] is a magnitude. *)
Definition apply_sign (v s : Z) : Z := if s <? 0 then - v else v.
(** intops.h:67-69 ulog2: index of the highest set bit; [clz 0] is undefined,
    callers are modelled with a guard. *)
Definition ulog2 (v : Z) : Z := Z.log2 v.
(** intops.h:75-82 inv_recenter, unsigned arithmetic. *)
Definition inv_recenter (r v : Z) : Z :=
  if u32 (Z.shiftl r 1) <? v then v
  else if Z.land v 1 =? 0 then u32 (Z.shiftr v 1 + r)
  else u32 (r - Z.shiftr (u32 (v + 1)) 1).

(** Abstract semantics of parser programs: a position in a bit stream. *)
From Coq Require Import ZArith List Bool.
From Verif Require Import Base.CInt GetBits.Model GetBits.Spec.
Import ListNotations.
Open Scope Z_scope.
Local Open Scope outcome_scope.

(** A stream: its bits (zero outside) and the number of valid bits. *)
Record stream : Type := mkStream { st_bit : Z -> Z; st_len : Z }.
Record apos : Type := mkApos { a_pos : Z; a_err : bool }.

(** Reading [n] bits.  The only resource limit is that the C reader counts
    over-read bits in an [int]. *)
Definition a_read (s : stream) (a : apos) (n : Z) : outcome apos :=
  guard! a_pos a + n <=? st_len s + 2 ^ 31 in
  Ok {| a_pos := a_pos a + n; a_err := a_err a || (st_len s <? a_pos a + n) |}.

Definition a_align (s : stream) (a : apos) : apos :=
  {| a_pos := if st_len s <? a_pos a then st_len s else 8 * ((a_pos a + 7) / 8);
     a_err := a_err a |}.

Definition a_rest (s : stream) (a : apos) : bool :=
  f_n (st_bit s) (a_pos a) (st_len s - a_pos a) =? 0.

Definition a_seterr (a : apos) : apos := {| a_pos := a_pos a; a_err := true |}.

Fixpoint aexec {A} (p : rd A) (s : stream) (a : apos) : outcome ((A + Z) * apos) :=
  match p with
  | Ret x => Ok (inl x, a)
  | Fail e => Ok (inr e, a)
  | Stuck => Undef
  | RBit k => let! a' := a_read s a 1 in aexec (k (st_bit s (a_pos a))) s a'
  | RBits n k =>
      guard! (0 <? n) && (n <=? 32) in
      let! a' := a_read s a n in aexec (k (f_n (st_bit s) (a_pos a) n)) s a'
  | RSBits n k =>
      guard! (0 <? n) && (n <=? 32) in
      let! a' := a_read s a n in aexec (k (su_n (st_bit s) (a_pos a) n)) s a'
  | RErr k => aexec (k (a_err a)) s a
  | RSetErr k => aexec k s (a_seterr a)
  | RAlign k => aexec k s (a_align s a)
  | RPos k => aexec (k (u32 (a_pos a))) s a
  | RRest k => aexec (k (a_rest s a)) s a
  end.

Definition stream_of (c : gb) : stream :=
  {| st_bit := stream_bit (gb_buf c) (gb_end c); st_len := 8 * gb_end c |}.
Definition apos_of (c : gb) : apos :=
  {| a_pos := 8 * gb_ptr c - gb_left c; a_err := gb_err c |}.

(** Invariant of the C reader. *)
Definition gb_wf (c : gb) : Prop :=
  Forall is_byte (gb_buf c) /\
  0 <= gb_ptr c <= gb_end c /\ gb_end c <= zlen (gb_buf c) /\
  ((0 <= gb_left c <= 7 /\ gb_left c <= 8 * gb_ptr c /\
    gb_state c = f_n (st_bit (stream_of c)) (8 * gb_ptr c - gb_left c) (gb_left c)
                 * 2 ^ (64 - gb_left c))
   \/ (gb_left c < 0 /\ gb_ptr c = gb_end c /\ gb_state c = 0 /\ gb_err c = true)).

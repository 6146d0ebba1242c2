(** Sequences of fixed-width reads: C side and specification side. *)
From Coq Require Import ZArith List Bool Lia.
From Verif Require Import Base.CInt Base.Lemmas GetBits.Model GetBits.Spec GetBits.Abstract
  GetBits.Proofs.
Import ListNotations.
Open Scope Z_scope.
Local Open Scope outcome_scope.

(** Calls a parser can make: dav1d_get_bit, dav1d_get_bits, dav1d_get_sbits. *)
Inductive read_op : Type := OBit | OBits (n : Z) | OSBits (n : Z).
Definition op_width (o : read_op) : Z :=
  match o with OBit => 1 | OBits n => n | OSBits n => n end.
Definition op_ok (o : read_op) : Prop := 1 <= op_width o <= 32.
Fixpoint total_width (ops : list read_op) : Z :=
  match ops with [] => 0 | o :: r => op_width o + total_width r end.

(** C side. *)
Definition do_op (o : read_op) (c : gb) : outcome (Z * gb) :=
  match o with OBit => get_bit c | OBits n => get_bits c n | OSBits n => get_sbits c n end.
Fixpoint do_ops (ops : list read_op) (c : gb) : outcome (list Z * gb) :=
  match ops with
  | [] => Ok ([], c)
  | o :: r => let! (v, c) := do_op o c in
              let! (vs, c) := do_ops r c in Ok (v :: vs, c)
  end.

(** Specification side: each read consumes its width, no state but the
    position. *)
Definition spec_op (b : Z -> Z) (pos : Z) (o : read_op) : Z :=
  match o with OBit => b pos | OBits n => f_n b pos n | OSBits n => su_n b pos n end.
Fixpoint spec_ops (b : Z -> Z) (pos : Z) (ops : list read_op) : list Z :=
  match ops with
  | [] => []
  | o :: r => spec_op b pos o :: spec_ops b (pos + op_width o) r
  end.

Lemma total_width_nonneg : forall ops, Forall op_ok ops -> 0 <= total_width ops.
Proof. induction 1; simpl; unfold op_ok in *; lia. Qed.

Lemma do_op_ok : forall o c, gb_wf c -> op_ok o ->
  a_pos (apos_of c) + op_width o <= st_len (stream_of c) + 2 ^ 31 ->
  exists c', do_op o c = Ok (spec_op (st_bit (stream_of c)) (a_pos (apos_of c)) o, c') /\
    read_ok c (op_width o) c'.
Proof.
  intros o c Hwf Ho Hb. unfold op_ok in Ho. destruct o; simpl op_width in *; simpl do_op; simpl spec_op.
  - apply get_bit_ok; auto.
  - apply get_bits_ok; auto; lia.
  - apply get_sbits_ok; auto; lia.
Qed.

Lemma do_ops_ok : forall ops c, gb_wf c -> Forall op_ok ops ->
  (8 * gb_end c < a_pos (apos_of c) -> gb_err c = true) ->
  a_pos (apos_of c) + total_width ops <= 8 * gb_end c + 2 ^ 31 ->
  exists c', do_ops ops c = Ok (spec_ops (st_bit (stream_of c)) (a_pos (apos_of c)) ops, c') /\
    gb_wf c' /\ same_buf c c' /\ a_pos (apos_of c') = a_pos (apos_of c) + total_width ops /\
    gb_err c' = gb_err c || (8 * gb_end c <? a_pos (apos_of c) + total_width ops).
Proof.
  induction ops; intros c Hwf Hops Hcons Hb; cbn [do_ops spec_ops total_width] in *.
  - exists c. split; [reflexivity|]. split; [auto|]. split; [split; auto|]. split; [lia|].
    rewrite Z.add_0_r.
    destruct (Z.ltb_spec (8 * gb_end c) (a_pos (apos_of c))) as [Hlt|Hge].
    + rewrite (Hcons Hlt). reflexivity.
    + rewrite orb_false_r. reflexivity.
  - inversion Hops; subst. pose proof (total_width_nonneg ops H2) as TW. unfold op_ok in H1.
    destruct (do_op_ok a c Hwf H1) as (c1 & E1 & W1 & (B1 & B2) & A1); [simpl st_len; lia|].
    rewrite E1. cbn [obind].
    assert (P1 : a_pos (apos_of c1) = a_pos (apos_of c) + op_width a) by (rewrite A1; auto).
    assert (Er1 : gb_err c1 = gb_err c || (8 * gb_end c <? a_pos (apos_of c) + op_width a)).
    { change (gb_err c1) with (a_err (apos_of c1)). rewrite A1. reflexivity. }
    assert (S1 : stream_of c1 = stream_of c) by (apply same_buf_stream; split; auto).
    destruct (IHops c1) as (c2 & E2 & W2 & (B3 & B4) & P2 & Er2); auto.
    + rewrite B2, P1, Er1. intros. replace (8 * gb_end c <? a_pos (apos_of c) + op_width a) with true by lia.
      apply orb_true_r.
    + rewrite B2, P1. lia.
    + rewrite E2. cbn [obind]. rewrite S1, P1. exists c2. split; [reflexivity|]. split; auto.
      split; [split; congruence|]. split; [rewrite P2, P1; lia|].
      rewrite Er2, Er1, B2, P1. rewrite <- Z.add_assoc.
      destruct (gb_err c); [reflexivity|]. cbn [orb].
      destruct (Z.ltb_spec (8 * gb_end c) (a_pos (apos_of c) + op_width a)); [|reflexivity].
      cbn [orb]. symmetry. apply Z.ltb_lt. lia.
Qed.

Lemma reads_exact : forall buf ops, Forall is_byte buf -> 0 < zlen buf -> Forall op_ok ops ->
  total_width ops <= 8 * zlen buf + 2 ^ 31 ->
  exists c0 c, gb_init buf (zlen buf) = Ok c0 /\
    do_ops ops c0 = Ok (spec_ops (stream_bit buf (zlen buf)) 0 ops, c) /\
    gb_err c = (8 * zlen buf <? total_width ops) /\
    gb_pos c = total_width ops mod 2 ^ 32.
Proof.
  intros buf ops Hb Hl Ho Hw.
  destruct (init_ok buf (zlen buf) Hb ltac:(lia)) as (c0 & E0 & W0 & S0 & A0).
  assert (P0 : a_pos (apos_of c0) = 0) by (rewrite A0; auto).
  assert (Er0 : gb_err c0 = false).
  { change (gb_err c0) with (a_err (apos_of c0)). rewrite A0; auto. }
  assert (En : gb_end c0 = zlen buf).
  { assert (st_len (stream_of c0) = 8 * zlen buf) by (rewrite S0; auto). simpl in H. lia. }
  destruct (do_ops_ok ops c0) as (c & E & W & _ & P & Er); auto.
  - rewrite P0, En. lia.
  - rewrite P0, En. lia.
  - exists c0, c. split; auto. split; [rewrite E, S0, P0; reflexivity|].
    split. { rewrite Er, Er0, P0, En. reflexivity. }
    rewrite pos_ok, P, P0. reflexivity.
Qed.

Lemma align_exact : forall buf ops, Forall is_byte buf -> 0 < zlen buf -> Forall op_ok ops ->
  total_width ops <= 8 * zlen buf ->
  exists c0 c c', gb_init buf (zlen buf) = Ok c0 /\
    do_ops ops c0 = Ok (spec_ops (stream_bit buf (zlen buf)) 0 ops, c) /\
    gb_align c = Ok c' /\ gb_pos c' = (8 * ((total_width ops + 7) / 8)) mod 2 ^ 32 /\
    (forall ops2, Forall op_ok ops2 -> total_width ops2 <= 2 ^ 31 - 8 ->
      exists c2, do_ops ops2 c' =
        Ok (spec_ops (stream_bit buf (zlen buf)) (8 * ((total_width ops + 7) / 8)) ops2, c2)).
Proof.
  intros buf ops Hb Hl Ho Hw.
  destruct (init_ok buf (zlen buf) Hb ltac:(lia)) as (c0 & E0 & W0 & S0 & A0).
  assert (P0 : a_pos (apos_of c0) = 0) by (rewrite A0; auto).
  assert (Er0 : gb_err c0 = false).
  { change (gb_err c0) with (a_err (apos_of c0)). rewrite A0; auto. }
  assert (En : gb_end c0 = zlen buf).
  { assert (st_len (stream_of c0) = 8 * zlen buf) by (rewrite S0; auto). simpl in H. lia. }
  destruct (do_ops_ok ops c0) as (c & E & W & (B1 & B2) & P & Er); auto.
  { rewrite P0, En. lia. } { rewrite P0, En. lia. }
  destruct (align_ok c W) as (c' & E' & W' & (B3 & B4) & A').
  exists c0, c, c'. split; auto. split; [rewrite E, S0, P0; reflexivity|]. split; auto.
  assert (SC : stream_of c' = stream_of c0) by (apply same_buf_stream; split; congruence).
  assert (SC1 : stream_of c = stream_of c0) by (apply same_buf_stream; split; congruence).
  assert (P' : a_pos (apos_of c') = 8 * ((total_width ops + 7) / 8)).
  { rewrite A', SC1, S0. unfold a_align. cbn [a_pos st_len].
    change (8 * gb_ptr c - gb_left c) with (a_pos (apos_of c)). rewrite P, P0.
    rewrite Z.add_0_l. destruct (Z.ltb_spec (8 * zlen buf) (total_width ops)); auto. lia. }
  split. { rewrite pos_ok, P'. reflexivity. }
  intros ops2 Ho2 Hw2. destruct (do_ops_ok ops2 c') as (c2 & E2 & _); auto.
  - rewrite P', B4, B2, En. lia.
  - rewrite P', B4, B2, En. lia.
  - exists c2. rewrite E2, SC, S0, P'. reflexivity.
Qed.

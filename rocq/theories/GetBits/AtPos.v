(** The C reader positioned at a bit of a buffer, and transfer of simulations
    to it. *)
From Coq Require Import ZArith List Bool Lia.
From Verif Require Import Base.CInt Base.Lemmas GetBits.Model GetBits.Spec GetBits.Abstract
  GetBits.Proofs GetBits.SpecProg GetBits.Sim GetBits.VarLen GetBits.Reads.
Import ListNotations.
Open Scope Z_scope.

(** [at_pos buf pos c]: the reader [c] over [buf] has consumed [pos] bits and its
    error flag says whether this is past the end. *)
Definition at_pos (buf : list Z) (pos : Z) (c : gb) : Prop :=
  gb_wf c /\ gb_buf c = buf /\ gb_end c = zlen buf /\
  apos_of c = {| a_pos := pos; a_err := 8 * zlen buf <? pos |}.

Lemma at_pos_stream : forall buf pos c, at_pos buf pos c ->
  stream_of c = {| st_bit := stream_bit buf (zlen buf); st_len := 8 * zlen buf |}.
Proof. intros buf pos c (_ & E1 & E2 & _). unfold stream_of. rewrite E1, E2. auto. Qed.

Lemma stream_of_ok : forall c, stream_ok (stream_of c).
Proof. intros. split; intros; simpl in *; [apply stream_bit_range|apply stream_bit_end; auto]. Qed.

Lemma gb_wf_pos : forall c, gb_wf c -> apos_ok (stream_of c) (apos_of c).
Proof.
  intros c (_ & Hp & _ & [(L & L8 & _)|(L & P & _ & E)]); split; simpl; intros; auto; lia.
Qed.

Lemma at_pos_init : forall buf, Forall is_byte buf -> 0 < zlen buf ->
  exists c, gb_init buf (zlen buf) = Ok c /\ at_pos buf 0 c.
Proof.
  intros buf H H0. unfold gb_init. replace (0 <? zlen buf) with true by lia.
  eexists. split; [reflexivity|]. unfold at_pos, gb_wf, apos_of; simpl.
  repeat split; auto; try lia; try (left; rewrite f_n_0; lia).
  f_equal. symmetry. apply Z.ltb_ge. lia.
Qed.

(** Any sequence of reads reaches [at_pos]. *)
Lemma at_pos_reads : forall buf ops, Forall is_byte buf -> 0 < zlen buf -> Forall op_ok ops ->
  total_width ops <= 8 * zlen buf + 2 ^ 31 ->
  exists c0 vs c, gb_init buf (zlen buf) = Ok c0 /\ do_ops ops c0 = Ok (vs, c) /\
    at_pos buf (total_width ops) c.
Proof.
  intros buf ops Hb Hl Ho Hw.
  destruct (at_pos_init buf Hb Hl) as (c0 & E0 & (W0 & B0 & N0 & A0)).
  assert (P0 : a_pos (apos_of c0) = 0) by (rewrite A0; auto).
  assert (Er0 : gb_err c0 = false).
  { change (gb_err c0) with (a_err (apos_of c0)). rewrite A0. simpl. apply Z.ltb_ge. lia. }
  destruct (do_ops_ok ops c0) as (c & E & W & (B1 & B2) & P & Er); auto.
  - rewrite P0, N0. lia.
  - rewrite P0, N0. lia.
  - exists c0. eexists. exists c. split; [auto|]. split; [exact E|].
    split; [auto|]. split; [congruence|]. split; [congruence|].
    rewrite Er0, P0, N0 in Er. rewrite P0, Z.add_0_l in P.
    unfold apos_of in *. cbn [a_pos] in P. rewrite P, Er. reflexivity.
Qed.

Lemma sim_exec : forall A B N (p : rd A) (q : sp B) (R : A -> B -> Prop) buf pos c,
  sim N p q R -> at_pos buf pos c -> pos + N <= 8 * zlen buf + 2 ^ 31 ->
  match srun q (stream_bit buf (zlen buf)) pos with
  | (Some y, pos') => pos <= pos' <= pos + N /\
      exists x c', exec p c = Ok (inl x, c') /\ R x y /\ at_pos buf pos' c'
  | (None, pos') => pos <= pos' <= pos + N /\
      exists c', exec p c = Ok (inr DAV1D_EINVAL, c') /\ at_pos buf pos' c'
  end.
Proof.
  intros A B N p q R buf pos c HS Hat Hb. pose proof Hat as (W & E1 & E2 & E3).
  pose proof (at_pos_stream _ _ _ Hat) as ES.
  specialize (HS (stream_of c) (apos_of c) (stream_of_ok c) (gb_wf_pos c W)).
  rewrite ES, E3 in HS. cbn [a_pos st_bit st_len] in HS. specialize (HS Hb).
  assert (EQ : forall p', pos <= p' -> (8 * zlen buf <? pos) || (8 * zlen buf <? p') = (8 * zlen buf <? p')).
  { intros. destruct (Z.ltb_spec (8 * zlen buf) pos), (Z.ltb_spec (8 * zlen buf) p'); auto. lia. }
  destruct (srun q (stream_bit buf (zlen buf)) pos) as [[y|] pos'].
  - destruct HS as (P & x & E & RR). split; [lia|].
    rewrite <- ES, <- E3 in E.
    destruct (exec_refines _ p c _ _ W E) as (c' & X1 & X2 & (X3 & X4) & X5).
    exists x, c'. split; [auto|]. split; [auto|]. split; [auto|].
    split; [congruence|]. split; [congruence|]. rewrite X5, E3. cbn [a_err].
    f_equal. apply EQ. lia.
  - destruct HS as (P & E). split; [lia|].
    rewrite <- ES, <- E3 in E.
    destruct (exec_refines _ p c _ _ W E) as (c' & X1 & X2 & (X3 & X4) & X5).
    exists c'. split; [auto|]. split; [auto|].
    split; [congruence|]. split; [congruence|]. rewrite X5, E3. cbn [a_err].
    f_equal. apply EQ. lia.
Qed.

Lemma uleb_exec : forall buf pos c, at_pos buf pos c -> pos + 64 <= 8 * zlen buf + 2 ^ 31 ->
  match srun leb128 (stream_bit buf (zlen buf)) pos with
  | (Some v, pos') => pos < pos' <= pos + 64 /\ 0 <= v < 2 ^ 32 /\
      exists c', exec get_uleb128 c = Ok (inl v, c') /\ at_pos buf pos' c'
  | (None, pos') => exists c', exec get_uleb128 c = Ok (inl 0, c') /\ gb_err c' = true
  end.
Proof.
  intros buf pos c Hat Hb. pose proof Hat as (W & E1 & E2 & E3).
  pose proof (at_pos_stream _ _ _ Hat) as ES.
  pose proof (uleb128_ok (stream_of c) (apos_of c) (stream_of_ok c) (gb_wf_pos c W)) as H.
  rewrite ES, E3 in H. cbn [a_pos st_bit st_len a_err] in H. specialize (H Hb).
  destruct (srun leb128 (stream_bit buf (zlen buf)) pos) as [[v|] pos'].
  - destruct H as (P1 & P2 & E). split; [lia|]. split; [lia|].
    rewrite <- ES, <- E3 in E.
    destruct (exec_refines _ _ c _ _ W E) as (c' & X1 & X2 & (X3 & X4) & X5).
    exists c'. split; [auto|]. split; [auto|]. split; [congruence|]. split; [congruence|].
    rewrite X5. f_equal.
    destruct (Z.ltb_spec (8 * zlen buf) pos), (Z.ltb_spec (8 * zlen buf) pos'); auto. lia.
  - destruct H as (P2 & E). rewrite <- ES, <- E3 in E.
    destruct (exec_refines _ _ c _ _ W E) as (c' & X1 & X2 & _ & X5).
    exists c'. split; [auto|]. change (gb_err c') with (a_err (apos_of c')). rewrite X5. auto.
Qed.

(** * uvlc with the specification's unbounded loop *)
Definition uvlc_rel (b : Z -> Z) (pos v pos' : Z) : Prop :=
  exists z, 0 <= z /\ (forall i, 0 <= i < z -> b (pos + i) = 0) /\ b (pos + z) = 1 /\
    ((32 <= z /\ v = 2 ^ 32 - 1 /\ pos' = pos + z + 1) \/
     (z < 32 /\ v = f_n b (pos + z + 1) z + 2 ^ z - 1 /\ pos' = pos + z + 1 + z)).

Lemma uvlc_zeros_stop : forall b fuel pos z,
  (forall i, 0 <= i < Z.of_nat fuel -> b (pos + i) = 0) ->
  srun (uvlc_zeros fuel z) b pos = (Some (z + Z.of_nat fuel), pos + Z.of_nat fuel).
Proof.
  intros b. induction fuel; intros pos z H.
  - simpl. f_equal; [f_equal|]; lia.
  - cbn [uvlc_zeros f sbind srun]. rewrite f_n_1.
    specialize (H 0 ltac:(lia)) as H0. rewrite Z.add_0_r in H0. rewrite H0. simpl.
    rewrite IHfuel.
    + f_equal; [f_equal|]; lia.
    + intros. replace (pos + 1 + i) with (pos + (i + 1)) by lia. apply H. lia.
Qed.

Lemma uvlc_rel_srun : forall b pos v pos', (forall i, 0 <= b i <= 1) -> uvlc_rel b pos v pos' ->
  exists p2, srun uvlc b pos = (Some v, p2) /\ (v <> 2 ^ 32 - 1 -> p2 = pos').
Proof.
  intros b pos v pos' Hb (z & Hz & Z0 & Z1 & [(C & -> & ->)|(C & -> & ->)]); unfold uvlc; rewrite srun_bind.
  - rewrite (uvlc_zeros_stop b 32 pos 0) by (intros; apply Z0; lia).
    exists (pos + 32). split; [reflexivity|lia].
  - rewrite (uvlc_zeros_run b 32 z pos 0) by (auto; lia). rewrite Z.add_0_l.
    replace (32 <=? z) with false by lia. rewrite srun_bind.
    destruct (Z.eqb_spec z 0) as [->|].
    + simpl. exists (pos + 0 + 1). split; [|lia]. rewrite f_n_0. reflexivity.
    + cbn [f srun]. exists (pos + z + 1 + z). split; [reflexivity|auto].
Qed.

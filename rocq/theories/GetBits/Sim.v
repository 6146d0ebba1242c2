(** Simulation between parser programs of the model and syntax tables of the
    specification. *)
From Coq Require Import ZArith List Bool Lia.
From Verif Require Import Base.CInt Base.Lemmas GetBits.Model GetBits.Spec GetBits.Abstract
  GetBits.Proofs GetBits.SpecProg.
Import ListNotations.
Open Scope Z_scope.

(** Error code of [return DAV1D_ERR(EINVAL)] (include/dav1d/common.h:56-60). *)
Definition DAV1D_EINVAL : Z := -22.

Definition stream_ok (s : stream) : Prop :=
  (forall i, 0 <= st_bit s i <= 1) /\ (forall i, st_len s <= i -> st_bit s i = 0).

(** The error flag is raised whenever the position is past the end. *)
Definition apos_ok (s : stream) (a : apos) : Prop :=
  0 <= a_pos a /\ (st_len s < a_pos a -> a_err a = true).

(** [sim N p q R]: on every stream, model program [p] and syntax table [q] read
    the same bits, at most [N]; either both succeed with related results, or
    both reject. *)
Definition sim {A B} (N : Z) (p : rd A) (q : sp B) (R : A -> B -> Prop) : Prop :=
  forall s a, stream_ok s -> apos_ok s a -> a_pos a + N <= st_len s + 2 ^ 31 ->
  match srun q (st_bit s) (a_pos a) with
  | (Some b, pos') =>
      a_pos a <= pos' <= a_pos a + N /\
      exists x, aexec p s a = Ok (inl x, {| a_pos := pos'; a_err := a_err a || (st_len s <? pos') |})
                /\ R x b
  | (None, pos') => a_pos a <= pos' <= a_pos a + N /\
      aexec p s a = Ok (inr DAV1D_EINVAL, {| a_pos := pos'; a_err := a_err a || (st_len s <? pos') |})
  end.

Lemma apos_eta : forall s a, apos_ok s a ->
  {| a_pos := a_pos a; a_err := a_err a || (st_len s <? a_pos a) |} = a.
Proof.
  intros s [p e] (H1 & H2). simpl in *. f_equal. destruct e; auto.
  destruct (Z.ltb_spec (st_len s) p); auto. discriminate (H2 H).
Qed.

Lemma sim_ret : forall A B N (x : A) (y : B) (R : A -> B -> Prop), 0 <= N -> R x y -> sim N (Ret x) (SRet y) R.
Proof.
  intros. red. intros. simpl. split; [lia|]. exists x. rewrite apos_eta by auto. auto.
Qed.

Lemma sim_fail : forall A B N (R : A -> B -> Prop), 0 <= N -> sim N (Fail DAV1D_EINVAL) SReject R.
Proof. red. intros. simpl. rewrite apos_eta by auto. split; [lia|auto]. Qed.

Lemma sim_weaken : forall A B N N' p q (R R' : A -> B -> Prop),
  sim N p q R -> N <= N' -> (forall x y, R x y -> R' x y) -> sim N' p q R'.
Proof.
  intros A B N N' p q R R' H HN HR. red. intros s a H0 H1 H2.
  specialize (H s a H0 H1 ltac:(lia)).
  destruct (srun q (st_bit s) (a_pos a)) as [[b|] pos'].
  - destruct H as (P & x & E & RR). split; [lia|]. exists x. auto.
  - destruct H. split; [lia|auto].
Qed.

Lemma aexec_bind : forall A B (m : rd A) (k : A -> rd B) s a,
  aexec (rbind m k) s a =
  match aexec m s a with
  | Undef => Undef
  | Ok (inl x, a') => aexec (k x) s a'
  | Ok (inr e, a') => Ok (inr e, a')
  end.
Proof.
  intros A B m k s. induction m; intros a0; cbn [rbind aexec]; auto.
  - destruct (a_read s a0 1); cbn [obind]; auto.
  - destruct (_ && _); auto. destruct (a_read s a0 n); cbn [obind]; auto.
  - destruct (_ && _); auto. destruct (a_read s a0 n); cbn [obind]; auto.
Qed.

Lemma srun_bind : forall A B (m : sp A) (k : A -> sp B) b pos,
  srun (sbind m k) b pos =
  match srun m b pos with
  | (Some x, pos') => srun (k x) b pos'
  | (None, pos') => (None, pos')
  end.
Proof. intros A B m k b. induction m; intros pos; simpl; auto. Qed.

Lemma exec_bind : forall A B (m : rd A) (k : A -> rd B) c,
  exec (rbind m k) c =
  match exec m c with
  | Undef => Undef
  | Ok (inl x, c') => exec (k x) c'
  | Ok (inr e, c') => Ok (inr e, c')
  end.
Proof.
  intros A B m k. induction m; intros c; cbn [rbind exec]; auto.
  - destruct (get_bit c) as [[v c']|]; cbn [obind]; auto.
  - destruct (get_bits c n) as [[v c']|]; cbn [obind]; auto.
  - destruct (get_sbits c n) as [[v c']|]; cbn [obind]; auto.
  - destruct (gb_align c) as [c'|]; cbn [obind]; auto.
  - destruct (gb_rest_zero c) as [c'|]; cbn [obind]; auto.
Qed.

Lemma sim_bind : forall A B C D N1 N (m : rd A) (m' : sp B) (k : A -> rd C) (k' : B -> sp D) (S : A -> B -> Prop) (R : C -> D -> Prop),
  sim N1 m m' S -> (forall x y, S x y -> sim (N - N1) (k x) (k' y) R) -> N1 <= N ->
  sim N (rbind m k) (sbind m' k') R.
Proof.
  intros A B C D N1 N m m' k k' S R Hm Hk HN. red. intros s a Hs Ha Hb.
  rewrite srun_bind, aexec_bind. specialize (Hm s a Hs Ha ltac:(lia)).
  destruct (srun m' (st_bit s) (a_pos a)) as [[b|] pos'].
  - destruct Hm as (P & x & E & RR). rewrite E.
    set (a' := {| a_pos := pos'; a_err := a_err a || (st_len s <? pos') |}) in *.
    assert (Ha' : apos_ok s a').
    { unfold apos_ok, a'; simpl. unfold apos_ok in Ha. split; [lia|].
      intros. replace (st_len s <? pos') with true by lia. apply orb_true_r. }
    specialize (Hk x b RR s a' Hs Ha' ltac:(simpl; lia)). simpl a_pos in Hk.
    assert (EQ : forall p'', pos' <= p'' -> a_err a' || (st_len s <? p'') = a_err a || (st_len s <? p'')).
    { intros. unfold a'; simpl. destruct (a_err a); simpl; auto.
      destruct (Z.ltb_spec (st_len s) pos'); simpl; auto. symmetry. apply Z.ltb_lt. lia. }
    destruct (srun (k' b) (st_bit s) pos') as [[d|] pos''].
    + destruct Hk as (P2 & y & E2 & R2). split; [lia|]. exists y. rewrite <- EQ by lia. auto.
    + destruct Hk as (P2 & E2). split; [lia|]. rewrite <- EQ by lia. auto.
  - destruct Hm as (P & E). rewrite E. split; [lia|auto].
Qed.

Lemma apos_ok_read : forall s a n, 0 <= n -> apos_ok s a ->
  apos_ok s {| a_pos := a_pos a + n; a_err := a_err a || (st_len s <? a_pos a + n) |}.
Proof.
  unfold apos_ok; simpl; intros. split; [lia|]. intros.
  replace (st_len s <? a_pos a + n) with true by lia. apply orb_true_r.
Qed.

Lemma sim_f : forall N n, 0 < n <= 32 -> n <= N ->
  sim N (bits n) (f n) (fun x y => x = y /\ 0 <= x < 2 ^ n).
Proof.
  intros N n Hn HN s a Hs Ha Hb. simpl. replace ((0 <? n) && (n <=? 32)) with true by lia.
  unfold a_read. replace (a_pos a + n <=? st_len s + 2 ^ 31) with true by lia. cbn [obind].
  split; [lia|]. eexists. split; [reflexivity|]. split; auto.
  apply f_n_range; [apply Hs|lia].
Qed.

Lemma sim_f1 : forall N, 1 <= N -> sim N bit (f 1) (fun x y => x = y /\ 0 <= x <= 1).
Proof.
  intros N HN s a Hs Ha Hb. simpl. unfold a_read.
  replace (a_pos a + 1 <=? st_len s + 2 ^ 31) with true by lia. cbn [obind].
  split; [lia|]. eexists. split; [reflexivity|]. rewrite f_n_1. split; auto. apply Hs.
Qed.

Lemma land_pow2_test : forall v n, 0 < n -> 0 <= v < 2 ^ n ->
  (0 <? Z.land v (2 ^ (n - 1))) = (2 ^ (n - 1) <=? v).
Proof.
  intros v n Hn Hv. pose proof (pow2_pos (n - 1) ltac:(lia)).
  assert (E2 : 2 ^ n = 2 * 2 ^ (n - 1)).
  { rewrite <- Z.pow_succ_r by lia. f_equal. lia. }
  assert (T : Z.testbit v (n - 1) = (2 ^ (n - 1) <=? v)).
  { rewrite Z.testbit_eqb by lia. destruct (Z.leb_spec (2 ^ (n - 1)) v).
    - apply Z.eqb_eq. replace (v / 2 ^ (n - 1)) with 1; [reflexivity|].
      apply Z.div_unique with (v - 2 ^ (n - 1)); lia.
    - rewrite Z.div_small by lia. reflexivity. }
  assert (L : Z.land v (2 ^ (n - 1)) = if Z.testbit v (n - 1) then 2 ^ (n - 1) else 0).
  { apply Z.bits_inj'. intros i Hi. rewrite Z.land_spec, Z.pow2_bits_eqb by lia.
    destruct (Z.eqb_spec (n - 1) i).
    - subst. rewrite andb_true_r. destruct (Z.testbit v (n - 1)) eqn:E; [rewrite Z.pow2_bits_true by lia|rewrite Z.bits_0]; auto.
    - rewrite andb_false_r. destruct (Z.testbit v (n - 1)).
      + rewrite Z.pow2_bits_false by lia. auto.
      + rewrite Z.bits_0. auto. }
  rewrite L, T. destruct (Z.leb_spec (2 ^ (n - 1)) v); lia.
Qed.

Lemma sim_su : forall N n, 0 < n <= 32 -> n <= N ->
  sim N (sbits n) (su n) (fun x y => x = y /\ - 2 ^ (n - 1) <= x < 2 ^ (n - 1)).
Proof.
  intros N n Hn HN s a Hs Ha Hb. cbn [sbits aexec su f sbind srun].
  replace ((0 <? n) && (n <=? 32)) with true by lia.
  unfold a_read. replace (a_pos a + n <=? st_len s + 2 ^ 31) with true by lia. cbn [obind].
  pose proof (f_n_range (st_bit s) (proj1 Hs) (a_pos a) n ltac:(lia)) as R.
  split; [lia|]. eexists. split; [reflexivity|]. unfold su_n.
  rewrite land_pow2_test by lia.
  assert (2 ^ n = 2 * 2 ^ (n - 1)).
  { rewrite <- Z.pow_succ_r by lia. f_equal. lia. }
  destruct (Z.leb_spec (2 ^ (n - 1)) (f_n (st_bit s) (a_pos a) n)); lia.
Qed.

Lemma sim_if : forall A B N (b b' : bool) (p1 p2 : rd A) (q1 q2 : sp B) (R : A -> B -> Prop),
  b = b' -> (b = true -> sim N p1 q1 R) -> (b = false -> sim N p2 q2 R) ->
  sim N (if b then p1 else p2) (if b' then q1 else q2) R.
Proof. intros. subst b'. destruct b; auto. Qed.

(** Binding with trivial results on one side. *)
Lemma sim_bind_ret_l : forall A B C N (x : A) (k : A -> rd B) (q : sp C) (R : B -> C -> Prop),
  sim N (k x) q R -> sim N (rbind (Ret x) k) q R.
Proof. intros. exact H. Qed.
Lemma sim_bind_ret_r : forall A B C N (x : A) (k : A -> sp B) (p : rd C) (R : C -> B -> Prop),
  sim N p (k x) R -> sim N p (sbind (SRet x) k) R.
Proof. intros. exact H. Qed.

Lemma sim_require : forall A B N b b' (p : rd A) (q : sp B) (R : A -> B -> Prop),
  0 <= N -> b = negb b' -> (b' = true -> sim N p q R) ->
  sim N (if b then Fail DAV1D_EINVAL else p) (sbind (require b') (fun _ => q)) R.
Proof.
  intros A B N b b' p q R HN -> H. destruct b'; simpl; auto. apply sim_fail; auto.
Qed.

(** Associativity, used to line up the two programs. *)
Lemma rbind_assoc_sim : forall A B C D N (m : rd A) (k : A -> rd B) (k2 : B -> rd C) (q : sp D) (R : C -> D -> Prop),
  sim N (rbind m (fun x => rbind (k x) k2)) q R -> sim N (rbind (rbind m k) k2) q R.
Proof.
  intros A B C D N m k k2 q R H s a Hs Ha Hb. specialize (H s a Hs Ha Hb).
  rewrite !aexec_bind in *.
  destruct (aexec m s a) as [[[x|e] a']|]; auto.
  rewrite aexec_bind in H. auto.
Qed.
Lemma sbind_assoc_sim : forall A B C D N (m : sp A) (k : A -> sp B) (k2 : B -> sp C) (p : rd D) (R : D -> C -> Prop),
  sim N p (sbind m (fun x => sbind (k x) k2)) R -> sim N p (sbind (sbind m k) k2) R.
Proof.
  intros A B C D N m k k2 p R H s a Hs Ha Hb. specialize (H s a Hs Ha Hb).
  rewrite !srun_bind in *.
  destruct (srun m (st_bit s) (a_pos a)) as [[x|] pos']; auto.
  rewrite srun_bind in H. auto.
Qed.

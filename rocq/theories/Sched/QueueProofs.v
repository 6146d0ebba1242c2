(** Proofs about the task queue, see Queue.v. *)
From Coq Require Import ZArith List Bool Lia Permutation Sorted.
From Verif Require Import Base.CInt Sched.Queue.
Import ListNotations.
Open Scope Z_scope.
Local Open Scope outcome_scope.

(** * Specification *)
(** The scheduler's priority: entropy tasks first; then by superblock row; then by stage;
    then by tile.  Tiles lie in one array, so the tile order is the address order. *)
Definition prec (i : Z -> task) (x y : Z) : Prop :=
  let cls t := if ty (i t) =? T_ENTROPY then 0 else 1 in
  cls x < cls y \/
  (cls x = cls y /\ (sby (i x) < sby (i y) \/
    (sby (i x) = sby (i y) /\ (ty (i x) < ty (i y) \/ (ty (i x) = ty (i y) /\ x < y))))).
(** Two tasks that may be queued together: neither is an init task, and two tasks of the same
    stage and row are tile tasks. *)
Definition compat (i : Z -> task) (x y : Z) : Prop :=
  T_INIT_CDF < ty (i x) /\ T_INIT_CDF < ty (i y) /\
  (ty (i x) = ty (i y) -> sby (i x) = sby (i y) -> ty (i x) = T_ENTROPY \/ ty (i x) = T_RECON).
Definition all_compat (i : Z -> task) (l : list Z) : Prop := forall x y, In x l -> In y l -> x <> y -> compat i x y.
Inductive sorted (i : Z -> task) : list Z -> Prop :=
  | sorted_nil : sorted i nil
  | sorted_cons x l : (forall y, In y l -> prec i x y) -> sorted i l -> sorted i (x :: l).

(** The list found by following the pointers. *)
Fixpoint seg (n : Z -> option Z) (a : option Z) (l : list Z) (b : option Z) : Prop :=
  match l with nil => a = b | x :: r => a = Some x /\ seg n (n x) r b end.
Fixpoint lasto (l : list Z) : option Z := match l with nil => None | x :: r => match r with nil => Some x | _ => lasto r end end.
Record holds (s : st) (q p : list Z) : Prop := mkHolds {
  h_q : seg (nxt s) (head s) q None;
  h_tail : tail s = lasto q;
  h_p : seg (nxt s) (phead s) p None;
  h_ptail : p <> nil -> ptail s = lasto p;
  h_merge : merge s = false -> p = nil;
  h_nodup : NoDup (q ++ p);
  h_sorted : sorted (info s) q;
  h_compat : all_compat (info s) (q ++ p) }.

(** * Lists of pointers *)
Lemma seg_ext : forall l n n' a b, (forall x, In x l -> n x = n' x) -> seg n a l b -> seg n' a l b.
Proof.
  induction l; cbn; intros; auto. destruct H0; split; auto.
  rewrite <- H by auto. eauto.
Qed.
Lemma seg_app : forall l n a r b, seg n a (l ++ r) b <-> exists m, seg n a l m /\ seg n m r b.
Proof.
  induction l; cbn; intros.
  - split; [ eauto | intros (m & -> & H); auto ].
  - split.
    + intros [E H]. apply IHl in H as (m & H1 & H2). eauto.
    + intros (m & (E & H1) & H2). split; auto. apply IHl. eauto.
Qed.
Lemma set_nxt_same : forall n a v, set_nxt n a v a = v.
Proof. intros; unfold set_nxt. now rewrite Z.eqb_refl. Qed.
Lemma set_nxt_other : forall n a v x, x <> a -> set_nxt n a v x = n x.
Proof. intros; unfold set_nxt. apply Z.eqb_neq in H. now rewrite H. Qed.
Lemma lasto_app : forall l x, lasto (l ++ [x]) = Some x.
Proof. induction l; cbn; intros; auto. rewrite IHl. destruct (l ++ [x]) eqn:E; auto. destruct l; discriminate. Qed.
Lemma lasto_app2 : forall l r, r <> nil -> lasto (l ++ r) = lasto r.
Proof.
  induction l; cbn; intros; auto. rewrite IHl by auto.
  destruct (l ++ r) eqn:E; auto. destruct l; [ now subst | discriminate ].
Qed.
Lemma lasto_None : forall l, lasto l = None -> l = nil.
Proof. induction l; cbn; auto. destruct l; [ discriminate | ]. intros H. apply IHl in H. discriminate. Qed.
Lemma lasto_snoc : forall l x, lasto l = Some x -> exists r, l = r ++ [x].
Proof.
  induction l; cbn; intros; [ discriminate | ].
  destruct l. - inversion H; subst. now exists nil.
  - apply IHl in H as (r & ->). now exists (a :: r).
Qed.
Lemma opt_eqb_refl : forall a, opt_eqb a a = true.
Proof. destruct a; cbn; auto using Z.eqb_refl. Qed.

(** * The order *)
Lemma prec_trans : forall i x y z, prec i x y -> prec i y z -> prec i x z.
Proof. unfold prec; intros. cbv zeta in *. lia. Qed.
Lemma prec_irrefl : forall i x, ~ prec i x x.
Proof. unfold prec; intros. cbv zeta in *. lia. Qed.
Lemma compare_spec : forall ar s first p, first <> p -> compat (info s) first p ->
  match compare ar s first p with
  | Bad => False
  | Continue => prec (info s) p first
  | Insert => prec (info s) first p
  end.
Proof.
  intros ar s first p NE (T1 & T2 & TT). unfold compare, prec. cbv zeta.
  unfold T_INIT_CDF, T_ENTROPY, T_RECON in *.
  destruct (ty (info s p) =? 2) eqn:EP.
  - apply Z.eqb_eq in EP.
    destruct (2 <? ty (info s first)) eqn:E1.
    + apply Z.ltb_lt in E1. destruct (ty (info s first) =? 2) eqn:EF; [ cbv beta iota; lia | ]. lia.
    + apply Z.ltb_ge in E1. assert (EF : ty (info s first) = 2) by lia. rewrite EF in *. cbn [Z.eqb Pos.eqb].
      rewrite EP.
      destruct (sby (info s p) <? sby (info s first)) eqn:E2; [ cbv beta iota; lia | ].
      destruct (sby (info s first) <? sby (info s p)) eqn:E3; [ cbv beta iota; lia | ].
      cbn [negb orb Z.eqb Pos.eqb]. replace (sby (info s p) =? sby (info s first)) with true by lia. cbn [negb orb Z.eqb Pos.eqb].
      destruct (first - tile_tasks ar true =? p - tile_tasks ar true) eqn:E4; [ cbv beta iota; lia | ]. destruct (p - tile_tasks ar true <? first - tile_tasks ar true) eqn:E5; cbv beta iota; lia.
  - destruct (ty (info s first) =? 2) eqn:EF; [ cbv beta iota; lia | ].
    destruct (sby (info s p) <? sby (info s first)) eqn:E2; [ cbv beta iota; lia | ].
    destruct (sby (info s first) <? sby (info s p)) eqn:E3; [ cbv beta iota; lia | ].
    destruct (ty (info s p) <? ty (info s first)) eqn:E4; [ cbv beta iota; lia | ].
    destruct (ty (info s first) <? ty (info s p)) eqn:E5; [ cbv beta iota; lia | ].
    assert (ty (info s first) = ty (info s p)) by lia.
    assert (sby (info s first) = sby (info s p)) by lia.
    destruct (TT H H0) as [K|K]; [ cbv beta iota; lia | ].
    rewrite K. cbn [negb orb Z.eqb Pos.eqb]. rewrite <- H, K. cbn [negb orb Z.eqb Pos.eqb]. replace (sby (info s p) =? sby (info s first)) with true by lia. cbn [negb orb Z.eqb Pos.eqb].
    destruct (first - tile_tasks ar false =? p - tile_tasks ar false) eqn:E6; [ cbv beta iota; lia | ]. destruct (p - tile_tasks ar false <? first - tile_tasks ar false) eqn:E7; cbv beta iota; lia.
Qed.
Lemma sorted_app : forall i l r, sorted i (l ++ r) <-> sorted i l /\ sorted i r /\ (forall x y, In x l -> In y r -> prec i x y).
Proof.
  induction l; cbn; intros.
  - split; [ intros; repeat split; auto; [ constructor | contradiction ] | tauto ].
  - split.
    + intros H. inversion H; subst. apply IHl in H3 as (A & B & C).
      repeat split; auto.
      * constructor; auto. intros; apply H2. apply in_or_app; auto.
      * intros x y [<-|I] J; auto. apply H2. apply in_or_app; auto.
    + intros (A & B & C). inversion A; subst. constructor.
      * intros y I. apply in_app_or in I as [I|I]; auto.
      * apply IHl. repeat split; auto.
Qed.
Lemma sorted_ext : forall i i' l, (forall x, In x l -> i x = i' x) -> sorted i l -> sorted i' l.
Proof.
  intros i i' l H S. induction S; constructor.
  - intros y I. specialize (H0 y I). unfold prec in *. rewrite <- !H by (cbn; auto). auto.
  - apply IHS. intros; apply H; cbn; auto.
Qed.
Lemma all_compat_perm : forall i l l', Permutation l l' -> all_compat i l -> all_compat i l'.
Proof.
  intros i l l' P H x y I J. apply Permutation_sym in P.
  apply H; eapply Permutation_in; eauto.
Qed.
Lemma all_compat_incl : forall i l l', incl l' l -> all_compat i l -> all_compat i l'.
Proof. intros i l l' P H x y I J. apply H; auto. Qed.
Lemma all_compat_ext : forall i i' l, (forall x, In x l -> i x = i' x) -> all_compat i l -> all_compat i' l.
Proof. intros i i' l E H x y I J NE. specialize (H x y I J NE). unfold compat in *. now rewrite <- !E by auto. Qed.

(** * Insertion *)
(** What changes: one task enters the list; all other pointers outside stay. *)
Definition pin (s : st) : Z -> task := info s.
Lemma insert_loop_spec : forall r fuel ar s t l prev,
  (length r <= fuel)%nat -> flush s = false ->
  seg (nxt s) (head s) (l ++ r) None -> tail s = lasto (l ++ r) -> NoDup (l ++ r) -> ~ In t (l ++ r) ->
  prev = lasto l ->
  sorted (info s) (l ++ r) -> (forall x, In x l -> prec (info s) x t) ->
  (forall x, In x r -> compat (info s) t x) ->
  exists s' l' r', insert_loop fuel ar s t prev (match r with nil => None | x :: _ => Some x end) = Ok s' /\
    l ++ r = l' ++ r' /\ seg (nxt s') (head s') (l' ++ t :: r') None /\
    tail s' = lasto (l' ++ t :: r') /\ sorted (info s') (l' ++ t :: r') /\
    info s' = info s /\ phead s' = phead s /\ ptail s' = ptail s /\ merge s' = merge s /\ flush s' = false /\
    (forall x, ~ In x (l ++ r) -> x <> t -> nxt s' x = nxt s x).
Proof.
  assert (INS : forall r s t l, flush s = false ->
    seg (nxt s) (head s) (l ++ r) None -> tail s = lasto (l ++ r) -> NoDup (l ++ r) -> ~ In t (l ++ r) ->
    exists s', insert_between s t (lasto l) (match r with nil => None | x :: _ => Some x end) = Ok s' /\
      seg (nxt s') (head s') (l ++ t :: r) None /\ tail s' = lasto (l ++ t :: r) /\
      info s' = info s /\ phead s' = phead s /\ ptail s' = ptail s /\ merge s' = merge s /\ flush s' = false /\
      (forall x, ~ In x (l ++ r) -> x <> t -> nxt s' x = nxt s x)).
  { intros r s t l FL SG TL ND NI. unfold insert_between. rewrite FL.
    destruct (lasto l) as [a|] eqn:LA.
    - apply lasto_snoc in LA as (l0 & ->). rewrite <- app_assoc in SG. cbn in SG.
      apply seg_app in SG as (m & S1 & E & S2). subst m.
      assert (NA : nxt s a = match r with nil => None | x :: _ => Some x end).
      { destruct r; cbn in S2; [ auto | apply S2 ]. }
      assert (SR : seg (nxt s) (match r with nil => None | x :: _ => Some x end) r None) by (rewrite <- NA; auto).
      rewrite NA, opt_eqb_refl. eexists. split; [ reflexivity | ]. cbn [nxt head tail info phead ptail merge flush].
      assert (Ea : a <> t) by (intros ->; apply NI; apply in_or_app; left; apply in_or_app; cbn; auto).
      split; [ | split; [ | repeat (split; [ first [ reflexivity | assumption ] | ]) ] ].
      + rewrite <- app_assoc. cbn. apply seg_app. exists (Some a). split.
        * eapply seg_ext; [ | exact S1 ]. intros x I. 
          assert (x <> t) by (intros ->; apply NI; apply in_or_app; left; apply in_or_app; auto).
          assert (x <> a). { intros ->. rewrite <- app_assoc in ND. apply NoDup_remove_2 in ND. apply ND. apply in_or_app; auto. }
          now rewrite !set_nxt_other by auto.
        * cbn. split; auto. rewrite set_nxt_other by auto. rewrite set_nxt_same. split; auto.
          rewrite set_nxt_same. eapply seg_ext; [ | exact SR ].
          intros x I.
          assert (x <> t) by (intros ->; apply NI; apply in_or_app; auto).
          assert (x <> a). { intros ->. rewrite <- app_assoc in ND. apply NoDup_remove_2 in ND. apply ND. apply in_or_app; auto. }
          now rewrite !set_nxt_other by auto.
      + destruct r; [ now rewrite lasto_app | ]. rewrite TL. rewrite !lasto_app2 by discriminate. reflexivity.
      + intros x NX XT. rewrite set_nxt_other by auto. apply set_nxt_other.
        intros ->. apply NX. apply in_or_app; left; apply in_or_app; cbn; auto.
    - apply lasto_None in LA. subst l. cbn in *.
      eexists. split; [ reflexivity | ]. cbn [nxt head tail info phead ptail merge flush].
      split; [ | split; [ | repeat (split; [ first [ reflexivity | assumption ] | ]) ] ].
      + split; auto. rewrite set_nxt_same.
        assert (SR : seg (nxt s) (match r with nil => None | x :: _ => Some x end) r None).
        { destruct r; cbn in *; tauto. }
        eapply seg_ext; [ | exact SR ]. intros x I. rewrite set_nxt_other; auto. intros ->; auto.
      + destruct r; cbn; auto.
      + intros. now apply set_nxt_other. }
  induction r as [|p r IH]; intros fuel ar s t l prev LE FL SG TL ND NI PV SO PL CP.
  - destruct (INS nil s t l) as (s' & E & R1 & R2 & R3 & R); auto. rewrite app_nil_r in *.
    assert (EI : insert_loop fuel ar s t prev None = Ok s') by (subst prev; destruct fuel; exact E).
    exists s', l, nil. rewrite app_nil_r. split; [ exact EI | ]. split; [ reflexivity | ].
    split; [ exact R1 | ]. split; [ exact R2 | ]. split.
    + rewrite R3. apply sorted_app. split; auto. split.
      * constructor; [ cbn; tauto | constructor ].
      * cbn. intros x y I [<-|[]]. auto.
    + split; [ exact R3 | exact R ].
  - destruct fuel as [|fuel]; [ cbn in LE; lia | ]. cbn [insert_loop].
    assert (NE : t <> p) by (intros ->; apply NI; apply in_or_app; cbn; auto).
    pose proof (compare_spec ar s t p NE (CP p (or_introl eq_refl))) as CS.
    destruct (compare ar s t p); [ | | contradiction ].
    + assert (NP : nxt s p = match r with nil => None | x :: _ => Some x end).
      { apply seg_app in SG as (m & S1 & E & S2). destruct r; cbn in S2; [ auto | apply S2 ]. }
      rewrite NP.
      assert (EQ : (l ++ p :: r) = ((l ++ [p]) ++ r)) by now rewrite <- app_assoc.
      rewrite EQ in *.
      destruct (IH fuel ar s t (l ++ [p]) (Some p)) as (s' & l' & r' & E & R); auto.
      * cbn in LE; lia.
      * symmetry; apply lasto_app.
      * intros x I. apply in_app_or in I as [I|[<-|[]]]; auto.
      * intros; apply CP; cbn; auto.
      * exists s', l', r'. split; auto.
    + destruct (INS (p :: r) s t l) as (s' & E & R1 & R2 & R3 & R); auto.
      subst prev. exists s', l, (p :: r). split; [ exact E | ]. split; [ reflexivity | ].
      split; [ exact R1 | ]. split; [ exact R2 | ]. split; [ | split; [ exact R3 | exact R ] ].
      rewrite R3. apply sorted_app in SO as (S1 & S2 & S3). apply sorted_app. split; auto. split.
      * constructor; auto. intros y [<-|I]; auto. eapply prec_trans; [ exact CS | ].
        inversion S2; subst; auto.
      * intros x y I [<-|J]; auto.
Qed.

(** Facts shared by the operations. *)
Lemma perm_mid : forall (l r : list Z) t, Permutation (l ++ t :: r) (t :: l ++ r).
Proof. intros. symmetry. apply Permutation_middle. Qed.
Lemma NoDup_perm : forall (l l' : list Z), Permutation l l' -> NoDup l -> NoDup l'.
Proof. intros; eapply Permutation_NoDup; eauto. Qed.
Lemma NoDup_app_l : forall (l r : list Z), NoDup (l ++ r) -> NoDup l.
Proof. induction l; intros; constructor; cbn in *; inversion H; subst. - intros I; apply H2; apply in_or_app; auto. - eauto. Qed.
Lemma NoDup_app_disj : forall (l r : list Z) x, NoDup (l ++ r) -> In x l -> In x r -> False.
Proof.
  induction l; cbn; intros; auto. inversion H; subst. destruct H0 as [<-|I]; eauto. apply H4; apply in_or_app; auto.
Qed.

Theorem insert_spec : forall fuel ar s q p t, holds s q p -> flush s = false -> ~ In t (q ++ p) ->
  all_compat (info s) (t :: q ++ p) -> (length q <= fuel)%nat ->
  exists s' q', insert_task fuel ar s t = Ok s' /\ holds s' q' p /\ Permutation q' (t :: q) /\
    info s' = info s /\ flush s' = false /\ (forall x, ~ In x q -> x <> t -> nxt s' x = nxt s x) /\
    (exists l r, q = l ++ r /\ q' = l ++ t :: r).
Proof.
  intros fuel ar s q p t [HQ HT HP HPT HM ND SO CP] FL NI AC LE.
  destruct (insert_loop_spec q fuel ar s t nil None) as (s' & l' & r' & E & EQ & R1 & R2 & R3 & R4 & R5 & R6 & R7 & R8 & R9); auto.
  - eapply NoDup_app_l; eauto.
  - intros I; apply NI; apply in_or_app; auto.
  - intros x [].
  - intros x I. apply AC; cbn; auto. + right; apply in_or_app; auto.
    + intros ->; apply NI; apply in_or_app; auto.
  - cbn in EQ, R9. exists s', (l' ++ t :: r'). unfold insert_task.
    assert (EH : head s = match q with nil => None | x :: _ => Some x end) by (destruct q; cbn in HQ; tauto).
    rewrite EH. split; [ exact E | ].
    assert (PM : Permutation (l' ++ t :: r') (t :: q)) by (rewrite EQ; apply perm_mid).
    split; [ | split; [ auto | split; [ auto | split; [ auto | split; [ auto | eauto ] ] ] ] ].
    constructor; auto.
    + rewrite R5. eapply seg_ext; [ | exact HP ]. intros x I. symmetry. apply R9.
      * intros J. eapply NoDup_app_disj; eauto.
      * intros ->. apply NI. apply in_or_app; auto.
    + intros NP. rewrite R6. auto.
    + intros M. rewrite R7 in M. auto.
    + eapply NoDup_perm; [ apply Permutation_sym, Permutation_app_tail, PM | ]. cbn. constructor; auto.
    + rewrite R4. eapply all_compat_perm; [ apply Permutation_sym, Permutation_app_tail, PM | ]. auto.
Qed.

Theorem add_pending_spec : forall s q p t, holds s q p -> ~ In t (q ++ p) -> all_compat (info s) (t :: q ++ p) ->
  exists s', add_pending s t = Ok s' /\ holds s' q (p ++ [t]) /\ info s' = info s /\ flush s' = flush s.
Proof.
  intros s q p t [HQ HT HP HPT HM ND SO CP] NI AC. unfold add_pending.
  assert (PM : Permutation (q ++ p ++ [t]) (t :: q ++ p)).
  { rewrite app_assoc. symmetry. apply Permutation_cons_append. }
  assert (ND' : NoDup (q ++ p ++ [t])) by (eapply NoDup_perm; [ apply Permutation_sym, PM | constructor; auto ]).
  assert (AC' : all_compat (info s) (q ++ p ++ [t])) by (eapply all_compat_perm; [ apply Permutation_sym, PM | auto ]).
  assert (NQ : forall x, In x q -> x <> t) by (intros x I ->; apply NI; apply in_or_app; auto).
  assert (NP : forall x, In x p -> x <> t) by (intros x I ->; apply NI; apply in_or_app; auto).
  destruct (phead s) as [h|] eqn:PH.
  - assert (PN : p <> nil) by (destruct p; [ cbn in HP; discriminate | discriminate ]).
    rewrite (HPT PN). destruct (lasto p) as [l|] eqn:LP; [ | now apply lasto_None in LP ].
    apply lasto_snoc in LP as (p0 & ->).
    eexists; split; [ reflexivity | ]. split; [ | cbn; auto ].
    assert (NL : l <> t) by (apply NP; apply in_or_app; cbn; auto).
    assert (Q0 : forall x, In x q -> x <> l) by (intros x I ->; eapply NoDup_app_disj; [ exact ND | exact I | apply in_or_app; cbn; auto ]).
    assert (P0 : forall x, In x p0 -> x <> l).
    { intros x I ->. rewrite app_assoc in ND. apply NoDup_remove_2 in ND. apply ND. rewrite app_nil_r. apply in_or_app; auto. }
    constructor; cbn; auto.
    + eapply seg_ext; [ | exact HQ ]. intros. now rewrite !set_nxt_other by auto.
    + apply seg_app in HP as (m & S1 & S2 & S3). subst m. rewrite <- app_assoc. apply seg_app. exists (Some l). split.
      * eapply seg_ext; [ | exact S1 ]. intros. rewrite !set_nxt_other; auto. apply NP; apply in_or_app; auto.
      * cbn. split; auto. rewrite set_nxt_same. split; auto. rewrite set_nxt_other, set_nxt_same by auto. auto.
    + intros _. now rewrite lasto_app.
    + discriminate.
  - assert (p = nil) by (destruct p; [ auto | destruct HP; discriminate ]). subst p. cbn in *.
    eexists; split; [ reflexivity | ]. split; [ | cbn; auto ].
    constructor; cbn; auto.
    + eapply seg_ext; [ | exact HQ ]. intros. now rewrite !set_nxt_other by auto.
    + split; auto. now rewrite set_nxt_same.
    + discriminate.
Qed.

(** Merging drains exactly the pending tasks. *)
Lemma drain_spec : forall r fuel ar s q, holds s q nil -> flush s = false -> NoDup (q ++ r) -> all_compat (info s) (q ++ r) ->
  (length q + 2 * length r < fuel)%nat -> forall h, seg (nxt s) h r None ->
  exists s' q', drain fuel ar s h = Ok s' /\ holds s' q' nil /\ Permutation q' (q ++ r) /\ info s' = info s /\ flush s' = false /\ phead s' = phead s.
Proof.
  induction r as [|t r IH]; intros fuel ar s q HO FL ND AC LE h SG.
  - cbn in SG. subst h. exists s, q. rewrite app_nil_r. assert (drain fuel ar s None = Ok s) by (destruct fuel; reflexivity). auto 10.
  - destruct SG as [-> SG]. destruct fuel; [ lia | ]. cbn [drain length] in *.
    assert (PM : Permutation (q ++ t :: r) (t :: q ++ r)) by apply perm_mid.
    assert (ND1 : NoDup (t :: q ++ r)) by (eapply NoDup_perm; eauto). inversion ND1; subst.
    destruct (insert_spec fuel ar s q nil t) as (s1 & q1 & E & HO1 & P1 & I1 & F1 & N1 & _); auto.
    + intros I. rewrite app_nil_r in I. apply H1. apply in_or_app; auto.
    + eapply all_compat_incl; [ | exact AC ]. rewrite app_nil_r. intros x [<-|I]; apply in_or_app; cbn; auto.
    + lia.
    + rewrite E. cbn [obind].
      assert (PQ : Permutation (q1 ++ r) (q ++ t :: r)).
      { transitivity (t :: q ++ r); [ change (t :: q ++ r) with ((t :: q) ++ r); now apply Permutation_app_tail | now apply Permutation_sym ]. }
      destruct (IH fuel ar s1 q1 HO1 F1) with (h := nxt s t) as (s2 & q2 & E2 & R1 & R2 & R3 & R4 & R5).
      * eapply NoDup_perm; [ apply Permutation_sym, PQ | auto ].
      * rewrite I1. eapply all_compat_perm; [ apply Permutation_sym, PQ | auto ].
      * apply Permutation_length in P1. rewrite P1. cbn. lia.
      * eapply seg_ext; [ | exact SG ]. intros x I. symmetry; apply N1.
        -- intros J. apply (NoDup_app_disj q r x); auto.
        -- intros ->. apply H1. apply in_or_app; auto.
      * exists s2, q2. rewrite E2. split; auto. split; auto. split; [ now rewrite R2 | ]. 
        split; [ congruence | ]. split; auto.
        rewrite R5. clear - E HO. unfold insert_task in E.
        assert (GEN : forall f prev cur, insert_loop f ar s t prev cur = Ok s1 -> phead s1 = phead s).
        { assert (B : forall a b, insert_between s t a b = Ok s1 -> phead s1 = phead s).
          { intros a b. unfold insert_between. destruct (flush s); [ congruence | ]. destruct (match a with Some _ => _ | None => _ end); [ | discriminate ].
            intros K; inversion K; reflexivity. }
          induction f; intros prev [c|]; cbn; eauto; [ discriminate | ]. destruct (compare ar s t c); eauto. discriminate. }
        eauto.
Qed.
Theorem merge_spec : forall fuel ar s q p, holds s q p -> flush s = false -> (length q + 2 * length p < fuel)%nat ->
  exists s' q', merge_pending fuel ar s = Ok s' /\ holds s' q' nil /\ Permutation q' (q ++ p) /\ info s' = info s /\ flush s' = false.
Proof.
  intros fuel ar s q p HO FL LE. unfold merge_pending. destruct (merge s) eqn:M.
  - destruct HO as [HQ HT HP HPT HM ND SO CP].
    edestruct (drain_spec p fuel ar (mkSt (info s) (nxt s) (head s) (tail s) None None false (flush s)) q) as (s' & q' & E & R1 & R2 & R3 & R4 & _);
      cbn; try eassumption.
    + constructor; cbn; auto.
      * rewrite app_nil_r. eapply NoDup_app_l; eauto.
      * rewrite app_nil_r. eapply all_compat_incl; [ | exact CP ]. intros x I; apply in_or_app; auto.
    + exists s', q'. auto.
  - pose proof (h_merge _ _ _ HO M). subst p. exists s, q. rewrite app_nil_r. auto.
Qed.

(** * Removal *)
Lemma scan_spec : forall m fuel s t prev r, seg (nxt s) prev (m ++ t :: r) None -> ~ In t m -> (length m < fuel)%nat ->
  forall p0, scan fuel s t p0 prev = Ok (match lasto m with Some x => Some x | None => p0 end).
Proof.
  induction m as [|x m IH]; cbn [app seg length]; intros fuel s t prev r [-> SG] NI LE p0.
  - destruct fuel; cbn; now rewrite Z.eqb_refl.
  - destruct fuel; [ lia | ]. cbn [scan].
    assert (x <> t) by (intros ->; apply NI; cbn; auto). apply Z.eqb_neq in H. rewrite H.
    rewrite (IH fuel s t (nxt s x) r) by (auto; cbn in NI; tauto || lia).
    cbn. destruct m; auto. destruct (lasto (z :: m)) eqn:E; auto. apply lasto_None in E. discriminate.
Qed.
(** A hint: no hint, or a queued task before the one taken. *)
Definition good_hint (l : list Z) (hint : option Z) : Prop := match hint with None => True | Some h => In h l end.
Lemma find_prev_spec : forall fuel s l t r hint, seg (nxt s) (head s) (l ++ t :: r) None -> ~ In t l -> good_hint l hint ->
  (length l < fuel)%nat -> find_prev fuel s hint t = Ok (lasto l).
Proof.
  intros fuel s l t r [h|] SG NI GH LE; unfold find_prev; cbn in GH.
  - apply in_split in GH as (a & b & ->). rewrite <- app_assoc in SG. cbn in SG. apply seg_app in SG as (m & _ & E & SG).
    subst m. rewrite (scan_spec b fuel s t (nxt s h) r); auto.
    + rewrite lasto_app2 by discriminate. cbn. destruct b; auto. destruct (lasto (z :: b)) eqn:E; auto. now apply lasto_None in E.
    + intros I; apply NI; apply in_or_app; cbn; auto.
    + rewrite app_length in LE. cbn in LE. lia.
  - rewrite (scan_spec l fuel s t (head s) r); auto. destruct (lasto l) eqn:E; auto.
Qed.
Lemma remove_spec : forall s l t r p, holds s (l ++ t :: r) p ->
  holds (remove s (lasto l) t) (l ++ r) p /\ nxt (remove s (lasto l) t) t = None /\
  info (remove s (lasto l) t) = info s /\ flush (remove s (lasto l) t) = flush s.
Proof.
  intros s l t r p [HQ HT HP HPT HM ND SO CP].
  assert (PM : Permutation ((l ++ t :: r) ++ p) (t :: (l ++ r) ++ p)).
  { rewrite <- app_assoc. cbn. rewrite <- app_assoc. apply perm_mid. }
  assert (ND' : NoDup (t :: (l ++ r) ++ p)) by (eapply NoDup_perm; eauto). inversion ND' as [|? ? NI ND2]; subst.
  assert (NL : forall x, In x l -> x <> t) by (intros x I ->; apply NI; apply in_or_app; left; apply in_or_app; auto).
  assert (NR : forall x, In x r -> x <> t) by (intros x I ->; apply NI; apply in_or_app; left; apply in_or_app; auto).
  assert (NP : forall x, In x p -> x <> t) by (intros x I ->; apply NI; apply in_or_app; auto).
  assert (SOR : sorted (info s) (l ++ r)).
  { apply sorted_app in SO as (S1 & S2 & S3). inversion S2; subst. apply sorted_app. repeat split; auto. intros; apply S3; cbn; auto. }
  assert (CPR : all_compat (info s) ((l ++ r) ++ p)).
  { eapply all_compat_incl; [ | exact CP ]. intros x I. eapply Permutation_in; [ apply Permutation_sym, PM | cbn; auto ]. }
  apply seg_app in HQ as (m & S1 & E & S2). subst m.
  assert (NT : nxt s t = match r with nil => None | x :: _ => Some x end) by (destruct r; cbn in S2; tauto).
  unfold remove. cbn [nxt info flush]. rewrite set_nxt_same. split; [ | auto ].
  destruct (lasto l) as [a|] eqn:LA.
  - apply lasto_snoc in LA as (l0 & ->). apply seg_app in S1 as (m & S0 & E & S1). subst m.
    assert (NA : forall x, In x l0 -> x <> a).
    { intros x I ->. apply NoDup_app_l, NoDup_app_l in ND2. apply NoDup_remove_2 in ND2. apply ND2. rewrite app_nil_r; auto. }
    assert (RA : forall x, In x r -> x <> a).
    { intros x I ->. apply NoDup_app_l in ND2. eapply NoDup_app_disj; [ exact ND2 | apply in_or_app; cbn; eauto | auto ]. }
    assert (PA : forall x, In x p -> x <> a).
    { intros x I ->. eapply NoDup_app_disj; [ exact ND2 | | exact I ]. apply in_or_app; left; apply in_or_app; cbn; auto. }
    assert (AT : a <> t) by (apply NL; apply in_or_app; cbn; auto).
    constructor; cbn [nxt head tail phead ptail merge info]; auto.
    + rewrite <- app_assoc. cbn. apply seg_app. exists (Some a). split.
      * eapply seg_ext; [ | exact S0 ]. intros x I. rewrite !set_nxt_other; auto. apply NL; apply in_or_app; auto.
      * cbn. split; auto. rewrite set_nxt_other, set_nxt_same by auto.
        eapply seg_ext; [ | exact S2 ]. intros x I. rewrite !set_nxt_other; auto.
    + rewrite NT. destruct r; [ now rewrite app_nil_r, lasto_app | ].
      rewrite HT. rewrite !lasto_app2 by discriminate. reflexivity.
    + eapply seg_ext; [ | exact HP ]. intros x I. rewrite !set_nxt_other; auto.
  - apply lasto_None in LA. subst l. cbn in *. constructor; cbn [nxt head tail phead ptail merge info]; auto.
    + eapply seg_ext; [ | exact S2 ]. intros x I. rewrite !set_nxt_other; auto.
    + rewrite NT. destruct r; auto.
    + eapply seg_ext; [ | exact HP ]. intros x I. rewrite !set_nxt_other; auto.
Qed.
Theorem take_spec : forall fuel s l t r p hint, holds s (l ++ t :: r) p -> good_hint l hint -> (length l < fuel)%nat ->
  exists s', take fuel s hint t = Ok s' /\ holds s' (l ++ r) p /\ info s' = info s /\ flush s' = flush s.
Proof.
  intros fuel s l t r p hint HO GH LE. unfold take.
  rewrite (find_prev_spec fuel s l t r hint (h_q _ _ _ HO)); auto.
  - cbn [obind]. eexists; split; [ reflexivity | ]. pose proof (remove_spec _ _ _ _ _ HO). tauto.
  - intros I. pose proof (h_nodup _ _ _ HO). apply NoDup_app_l in H. apply NoDup_remove_2 in H. apply H. apply in_or_app; auto.
Qed.

(** * Fields of tasks that are not queued *)
Lemma holds_info : forall s q p t v, holds s q p -> ~ In t (q ++ p) -> holds (set_info s t v) q p.
Proof.
  intros s q p t v [HQ HT HP HPT HM ND SO CP] NI.
  assert (EX : forall x, In x (q ++ p) -> info s x = (if x =? t then v else info s x)).
  { intros x I. destruct (x =? t) eqn:E; auto. apply Z.eqb_eq in E. subst. contradiction. }
  constructor; cbn; auto.
  - eapply sorted_ext; [ | exact SO ]. intros; apply EX; apply in_or_app; auto.
  - eapply all_compat_ext; [ | exact CP ]. auto.
Qed.
Lemma holds_next : forall s q p t v, holds s q p -> ~ In t (q ++ p) -> holds (set_next s t v) q p.
Proof.
  intros s q p t v [HQ HT HP HPT HM ND SO CP] NI.
  constructor; cbn; auto; (eapply seg_ext; [ | eassumption ]); intros x I; rewrite set_nxt_other; auto;
    intros ->; apply NI; apply in_or_app; auto.
Qed.

Lemma split_eq : forall (l : list Z) t r l' r', l ++ t :: r = l' ++ r' -> NoDup (l ++ t :: r) -> In t l' ->
  exists m, l' = l ++ t :: m /\ r = m ++ r'.
Proof.
  induction l; cbn; intros t r l' r' E ND I.
  - destruct l' as [|x l']; [ contradiction | ]. inversion E; subst. exists l'. auto.
  - destruct l' as [|x l']; [ contradiction | ]. inversion E as [[EX ET]]; subst x. inversion ND as [|? ? NI ND']; subst.
    destruct I as [->|I]. { exfalso. apply NI. apply in_or_app; cbn; auto. }
    destruct (IHl _ _ _ _ ET ND' I) as (m & -> & ->). exists m. auto.
Qed.
Theorem take_row_spec : forall fuel ar s l t r p hint, holds s (l ++ t :: r) p -> flush s = false -> good_hint l hint ->
  let i' := fun x => if x =? t + 1 then mkTask (ty (info s t)) (sby (info s t) + 1) else info s x in
  ~ In (t + 1) ((l ++ t :: r) ++ p) -> all_compat i' (t + 1 :: (l ++ t :: r) ++ p) -> (length (l ++ t :: r) < fuel)%nat ->
  exists s' q', take_row fuel ar s hint t = Ok s' /\ holds s' q' p /\ Permutation q' (t + 1 :: l ++ r) /\ info s' = i' /\ flush s' = false.
Proof.
  intros fuel ar s l t r p hint HO FL GH i' NI AC LE. unfold take_row.
  assert (NT : ~ In t l).
  { intros I. pose proof (h_nodup _ _ _ HO). apply NoDup_app_l in H. apply NoDup_remove_2 in H. apply H. apply in_or_app; auto. }
  rewrite (find_prev_spec fuel s l t r hint (h_q _ _ _ HO)); auto.
  2: { rewrite app_length in LE. cbn in LE. lia. }
  cbn [obind]. set (s1 := set_next _ _ _).
  assert (HO1 : holds s1 (l ++ t :: r) p) by (unfold s1; auto using holds_info, holds_next).
  assert (I1 : info s1 = i') by reflexivity.
  destruct (insert_spec fuel ar s1 (l ++ t :: r) p (t + 1)) as (s2 & q2 & E & HO2 & P2 & I2 & F2 & _ & l' & r' & EQ & ->); auto.
  { lia. }
  rewrite E. cbn [obind].
  assert (TP : In t l').
  { assert (K : In t (l' ++ r')) by (rewrite <- EQ; apply in_or_app; cbn; auto).
    apply in_app_or in K as [K|K]; auto. exfalso.
    pose proof (h_sorted _ _ _ HO2) as SO. apply sorted_app in SO as (_ & SO & _). inversion SO; subst.
    specialize (H1 t K). rewrite I2, I1 in H1. unfold prec, i' in H1. cbv zeta in H1. rewrite Z.eqb_refl in H1.
    replace (t =? t + 1) with false in H1 by lia. cbn [ty sby] in H1. lia. }
  destruct (split_eq _ _ _ _ _ EQ) as (m & -> & ->); auto.
  { eapply NoDup_app_l. apply (h_nodup _ _ _ HO). }
  rewrite <- app_assoc in HO2. cbn in HO2.
  destruct (remove_spec _ _ _ _ _ HO2) as (R1 & R2 & R3 & R4).
  eexists _, _. split; [ reflexivity | ]. split; [ exact R1 | ]. split; [ | split; congruence ].
  rewrite !app_assoc. apply perm_mid.
Qed.

(** * Creating the tasks of a frame *)
Fixpoint sbrow_list (t : Z) (sbys : list Z) (pf : option Z) : list Z :=
  match sbys with
  | nil => match pf with Some p => [p] | None => nil end
  | y :: r => match pf with
              | Some p => if y =? 0 then t :: sbrow_list (t + 1) r (Some p) else p :: t :: sbrow_list (t + 1) r None
              | None => t :: sbrow_list (t + 1) r None
              end
  end.
Definition sbrow_info (i : Z -> task) (tty base : Z) (sbys : list Z) (pf pty : Z) : Z -> task :=
  fun x => if (base <=? x) && (x <? base + Z.of_nat (length sbys)) then mkTask tty (nth (Z.to_nat (x - base)) sbys 0)
           else if x =? pf then mkTask pty 0 else i x.

Lemma seg_snoc : forall acc n h b p t, seg n h acc b -> lasto acc = Some p -> NoDup (acc ++ [t]) ->
  exists b', seg (set_nxt n p (Some t)) h (acc ++ [t]) b'.
Proof.
  intros acc n h b p t SG LA ND. apply lasto_snoc in LA as (a0 & ->).
  apply seg_app in SG as (m & S1 & E & S2). subst m.
  exists (set_nxt n p (Some t) t). rewrite <- app_assoc. cbn. apply seg_app. exists (Some p). split.
  - eapply seg_ext; [ | exact S1 ]. intros x I. rewrite set_nxt_other; auto.
    intros ->. rewrite <- app_assoc in ND. apply NoDup_remove_2 in ND. apply ND. apply in_or_app; auto.
  - cbn. rewrite set_nxt_same. auto.
Qed.

Definition same_lists (s s' : st) : Prop :=
  head s' = head s /\ tail s' = tail s /\ phead s' = phead s /\ ptail s' = ptail s /\ merge s' = merge s /\ flush s' = flush s.
Lemma tiles_spec : forall sbys s tty t prev pf acc h,
  prev = lasto acc -> (acc <> nil -> exists b, seg (nxt s) h acc b) -> (acc = nil -> h = Some t) ->
  (acc = nil -> match pf with Some _ => match sbys with y :: _ => y = 0 | nil => False end | None => True end) ->
  NoDup (acc ++ sbrow_list t sbys pf) ->
  exists s' prev' pf' acc',
    tiles s tty t sbys prev pf = Ok (s', prev', pf') /\ prev' = lasto acc' /\
    acc' ++ match pf' with Some p => [p] | None => nil end = acc ++ sbrow_list t sbys pf /\
    (acc' <> nil -> exists b, seg (nxt s') h acc' b) /\ (sbys <> nil -> acc' <> nil) /\
    (forall x, ~ In x (acc ++ sbrow_list t sbys pf) -> nxt s' x = nxt s x) /\
    (forall x, info s' x = if (t <=? x) && (x <? t + Z.of_nat (length sbys)) then mkTask tty (nth (Z.to_nat (x - t)) sbys 0) else info s x) /\
    same_lists s s'.
Proof.
  induction sbys as [|y r IH]; intros s tty t prev pf acc h PV SG SE AE ND.
  - cbn. exists s, prev, pf, acc. split; auto. split; auto. split; auto. split; auto. split; [ tauto | ].
    split; auto. split; [ | unfold same_lists; tauto ]. intros x. replace ((t <=? x) && (x <? t + 0)) with false by lia. auto.
  - cbn [tiles sbrow_list] in *.
    set (s1 := set_info s t (mkTask tty y)) in *.
    (* one step, appending [t] to a nonempty or empty accumulated chain *)
    assert (STEP : forall acc1 s2 pf2,
      (acc1 <> nil -> exists b, seg (nxt s2) h acc1 b) -> (acc1 = nil -> h = Some t) -> (acc1 = nil -> match pf2 with Some _ => y = 0 | None => True end) ->
      NoDup (acc1 ++ t :: sbrow_list (t + 1) r pf2) ->
      info s2 = info s1 -> same_lists s s2 ->
      (forall x, ~ In x (acc ++ acc1) -> nxt s2 x = nxt s x) ->
      exists s' prev' pf' acc',
        tiles (link s2 (lasto acc1) t) tty (t + 1) r (Some t) pf2 = Ok (s', prev', pf') /\ prev' = lasto acc' /\
        acc' ++ match pf' with Some p => [p] | None => nil end = acc1 ++ t :: sbrow_list (t + 1) r pf2 /\
        (acc' <> nil -> exists b, seg (nxt s') h acc' b) /\ (y :: r <> nil -> acc' <> nil) /\
        (forall x, ~ In x (acc ++ acc1 ++ t :: sbrow_list (t + 1) r pf2) -> nxt s' x = nxt s x) /\
        (forall x, info s' x = if (t <=? x) && (x <? t + Z.of_nat (length (y :: r))) then mkTask tty (nth (Z.to_nat (x - t)) (y :: r) 0) else info s x) /\
        same_lists s s').
    { intros acc1 s2 pf2 G1 G2 G3 G4 G5 G6 G7.
      assert (ND1 : NoDup (acc1 ++ [t])).
      { replace (acc1 ++ t :: sbrow_list (t + 1) r pf2) with ((acc1 ++ [t]) ++ sbrow_list (t + 1) r pf2) in G4 by now rewrite <- app_assoc.
        eapply NoDup_app_l; eauto. }
      edestruct (IH (link s2 (lasto acc1) t) tty (t + 1) (Some t) pf2 (acc1 ++ [t]) h) as (s' & prev' & pf' & acc' & E & R1 & R2 & R3 & R4 & R5 & R6 & R7).
      - symmetry; apply lasto_app.
      - intros _. destruct (lasto acc1) as [p|] eqn:LA.
        + destruct G1 as (b & G1). { intros ->; discriminate. }
          destruct (seg_snoc acc1 (nxt s2) h b p t G1 LA ND1) as (b' & K). exists b'. exact K.
        + apply lasto_None in LA. subst acc1. cbn. exists (nxt s2 t). auto.
      - destruct acc1; discriminate.
      - destruct acc1; discriminate.
      - rewrite <- app_assoc. exact G4.
      - exists s', prev', pf', acc'. split; [ exact E | ]. split; auto.
        split; [ rewrite R2, <- app_assoc; reflexivity | ]. split; auto. split.
        { intros _ ->. cbn in R1.
          destruct r; [ cbn [tiles] in E; inversion E; subst; discriminate | ]. apply R4; auto; discriminate. }
        split; [ | split ].
        + intros x NI. rewrite R5.
          * unfold link. destruct (lasto acc1) as [p|] eqn:LA; cbn; [ rewrite set_nxt_other | ].
            -- apply G7. intros K. apply NI. rewrite app_assoc. apply in_or_app; auto.
            -- intros ->. apply NI. apply lasto_snoc in LA as (a0 & ->). apply in_or_app; right; apply in_or_app; left; apply in_or_app; cbn; auto.
            -- apply G7. intros K. apply NI. rewrite app_assoc. apply in_or_app; auto.
          * intros K. apply NI. apply in_or_app; right. now rewrite <- app_assoc in K.
        + intros x. rewrite R6.
          assert (IL : info (link s2 (lasto acc1) t) x = if x =? t then mkTask tty y else info s x).
          { unfold link. destruct (lasto acc1); cbn; rewrite G5; reflexivity. }
          rewrite IL. cbn [length]. rewrite Nat2Z.inj_succ. unfold Z.succ.
          destruct (x =? t) eqn:XT.
          * apply Z.eqb_eq in XT. subst x. replace ((t + 1 <=? t) && (t <? t + 1 + Z.of_nat (length r))) with false by lia.
            rewrite Z.leb_refl, (proj2 (Z.ltb_lt t (t + (Z.of_nat (length r) + 1)))) by (clear; lia). cbn [andb]. now rewrite Z.sub_diag.
          * destruct ((t + 1 <=? x) && (x <? t + 1 + Z.of_nat (length r))) eqn:C1.
            -- replace ((t <=? x) && (x <? t + (Z.of_nat (length r) + 1))) with true by (clear - C1 XT; lia).
               replace (Z.to_nat (x - t)) with (S (Z.to_nat (x - (t + 1)))) by (clear - C1; lia). reflexivity.
            -- replace ((t <=? x) && (x <? t + (Z.of_nat (length r) + 1))) with false by (clear - C1 XT; lia). reflexivity.
        + clear - G6 R7. unfold same_lists in *. unfold link in R7. destruct G6 as (A1 & A2 & A3 & A4 & A5 & A6).
          destruct (lasto acc1); cbn in R7; destruct R7 as (B1 & B2 & B3 & B4 & B5 & B6); repeat (apply conj); congruence. }
    assert (SL : same_lists s s1) by (unfold same_lists; cbn; tauto).
    destruct pf as [p|].
    + destruct (y =? 0) eqn:Y.
      * cbn [negb orb]. subst prev.
        edestruct (STEP acc s1 (Some p)) as (s' & prev' & pf' & acc' & R & Q); auto.
        -- exists s', prev', pf', acc'. split; auto. destruct Q as (Q1 & Q2 & Q3 & Q4 & Q5 & Q6). repeat (apply conj); auto; try apply Q6.
           intros x NI. apply Q5. intros K. apply NI. apply in_app_or in K as [K|K]; auto. apply in_or_app; auto.
      * cbn [negb orb]. assert (AN : acc <> nil). { intros ->. specialize (AE eq_refl). cbn in AE. lia. }
        destruct (lasto acc) as [a|] eqn:LA; [ | apply lasto_None in LA; contradiction ]. subst prev.
        cbn [link]. 
        destruct (SG AN) as (b & SG'). 
        destruct (seg_snoc acc (nxt s) h b a p SG' LA) as (b' & K).
        { replace (acc ++ p :: t :: sbrow_list (t + 1) r None) with ((acc ++ [p]) ++ t :: sbrow_list (t + 1) r None) in ND by now rewrite <- app_assoc.
          eapply NoDup_app_l; eauto. }
        edestruct (STEP (acc ++ [p]) (set_next s1 a (Some p)) None) as (s' & prev' & pf' & acc' & R & Q).
        -- intros _. exists b'. exact K.
        -- destruct acc; discriminate.
        -- auto.
        -- rewrite <- app_assoc. exact ND.
        -- reflexivity.
        -- unfold same_lists; cbn; tauto.
        -- intros x NI. cbn. rewrite set_nxt_other; auto. intros ->. apply NI. apply lasto_snoc in LA as (a0 & ->). apply in_or_app; left; apply in_or_app; cbn; auto.
        -- rewrite lasto_app in R. exists s', prev', pf', acc'. split; auto. rewrite <- !app_assoc in Q. cbn [app] in Q.
           destruct Q as (Q1 & Q2 & Q3 & Q4 & Q5 & Q6). repeat (apply conj); auto; try apply Q6.
           intros x NI. apply Q5. intros J. apply NI. apply in_app_or in J as [J|J]; auto. apply in_or_app; auto.
    + cbn [negb orb]. subst prev.
      edestruct (STEP acc s1 None) as (s' & prev' & pf' & acc' & R & Q); auto.
      exists s', prev', pf', acc'. split; auto. destruct Q as (Q1 & Q2 & Q3 & Q4 & Q5 & Q6). repeat (apply conj); auto; try apply Q6.
      intros x NI. apply Q5. intros K. apply NI. apply in_app_or in K as [K|K]; auto. apply in_or_app; auto.
Qed.
Lemma seg_close : forall acc n h b p, seg n h acc b -> lasto acc = Some p -> NoDup acc ->
  seg (set_nxt n p None) h acc None.
Proof.
  intros acc n h b p SG LA ND. apply lasto_snoc in LA as (a0 & ->).
  apply seg_app in SG as (m & S1 & E & S2). subst m. apply seg_app. exists (Some p). split.
  - eapply seg_ext; [ | exact S1 ]. intros x I. rewrite set_nxt_other; auto.
    intros ->. apply NoDup_remove_2 in ND. apply ND. apply in_or_app; auto.
  - cbn. rewrite set_nxt_same. auto.
Qed.
Lemma NoDup_app_r : forall (l r : list Z), NoDup (l ++ r) -> NoDup r.
Proof. induction l; cbn; intros; auto. inversion H; auto. Qed.
Lemma sbrow_in : forall sbys t x pf, (t <= x < t + Z.of_nat (length sbys)) -> In x (sbrow_list t sbys pf).
Proof.
  induction sbys as [|y r IH]; intros t x pf B; cbn [length] in B; [ cbn in B; lia | ].
  rewrite Nat2Z.inj_succ in B. unfold Z.succ in B. cbn [sbrow_list].
  destruct (Z.eq_dec t x) as [->|N].
  - destruct pf; cbn; auto. destruct (y =? 0); cbn; auto.
  - assert (K : forall pf', In x (sbrow_list (t + 1) r pf')) by (intros; apply IH; lia).
    destruct pf; cbn; auto. destruct (y =? 0); cbn; auto.
Qed.
Lemma sbrow_pf : forall sbys t p, In p (sbrow_list t sbys (Some p)).
Proof. induction sbys; cbn; intros; auto. destruct (a =? 0); cbn; auto. Qed.

Theorem create_sbrow_spec : forall s q p tty base sbys pf pty, holds s q p ->
  (exists r, sbys = 0 :: r) ->
  let new := sbrow_list base sbys (Some pf) in
  let i' := sbrow_info (info s) tty base sbys pf pty in
  NoDup ((q ++ p) ++ new) -> all_compat i' ((q ++ p) ++ new) ->
  exists s', create_sbrow s tty base sbys pf pty = Ok s' /\ holds s' q (p ++ new) /\ (forall x, info s' x = i' x) /\ flush s' = flush s.
Proof.
  intros s q p tty base sbys pf pty HO (r0 & SB) new i' ND AC. unfold create_sbrow.
  assert (NN : NoDup new) by (eapply NoDup_app_r; eauto).
  assert (DJ : forall x, In x (q ++ p) -> ~ In x new) by (intros x I J; eapply NoDup_app_disj; eauto).
  edestruct (tiles_spec sbys (set_info s pf (mkTask pty 0)) tty base None (Some pf) nil (Some base))
    as (s1 & prev1 & pf1 & acc1 & E & P1 & EQ & SG & AN & NX & IN & SL); auto.
  { tauto. }
  { intros _. subst sbys. reflexivity. }
  rewrite E. cbn [obind]. cbn [app] in EQ. fold new in EQ.
  assert (ACN : acc1 <> nil) by (apply AN; subst sbys; discriminate).
  destruct (SG ACN) as (b & SG1).
  destruct prev1 as [p0|]; [ | symmetry in P1; apply lasto_None in P1; contradiction ].
  set (last := match pf1 with Some p => p | None => p0 end).
  set (s2 := set_next match pf1 with Some p => set_next s1 p0 (Some p) | None => s1 end last None).
  assert (LN : lasto new = Some last).
  { rewrite <- EQ. destruct pf1; [ apply lasto_app | ]. rewrite app_nil_r. auto. }
  assert (SN : seg (nxt s2) (Some base) new None).
  { destruct pf1 as [pp|].
    - destruct (seg_snoc acc1 (nxt s1) (Some base) b p0 pp SG1 (eq_sym P1)) as (b' & K); [ now rewrite EQ | ].
      rewrite EQ in K. unfold s2. cbn. eapply seg_close; eauto.
    - rewrite app_nil_r in EQ. rewrite <- EQ in *. unfold s2. cbn. eapply seg_close; eauto. }
  assert (P0 : In p0 new). { rewrite <- EQ. symmetry in P1. apply lasto_snoc in P1 as (a0 & ->). apply in_or_app; left; apply in_or_app; cbn; auto. }
  assert (LI : In last new) by (apply lasto_snoc in LN as (a0 & ->); apply in_or_app; cbn; auto).
  assert (NX2 : forall x, ~ In x new -> nxt s2 x = nxt s x).
  { intros x NI. unfold s2. cbn. rewrite set_nxt_other by (intros ->; auto).
    transitivity (nxt s1 x); [ | apply NX; auto ].
    destruct pf1; cbn; auto. apply set_nxt_other. intros ->; auto. }
  assert (INF : forall x, info s2 x = i' x).
  { intros x. unfold s2. replace (info (set_next _ last None) x) with (info s1 x) by (destruct pf1; reflexivity).
    rewrite IN. reflexivity. }
  assert (SL2 : same_lists s s2).
  { unfold same_lists in *. unfold s2. destruct pf1; exact SL. }
  clearbody s2. clear E SG NX IN SL SG1 P1 AN.
  destruct SL2 as (L1 & L2 & L3 & L4 & L5 & L6).
  destruct HO as [HQ HT HP HPT HM HND SO CP].
  assert (IO : forall x, In x (q ++ p) -> info s x = info s2 x).
  { intros x I. rewrite INF. unfold i', sbrow_info.
    destruct ((base <=? x) && (x <? base + Z.of_nat (length sbys))) eqn:C.
    - exfalso. apply (DJ x I). apply sbrow_in. lia.
    - destruct (x =? pf) eqn:X; auto. apply Z.eqb_eq in X. subst x. exfalso. apply (DJ pf I). apply sbrow_pf. }
  assert (SO2 : sorted (info s2) q) by (eapply sorted_ext; [ | exact SO ]; intros; apply IO; apply in_or_app; auto).
  assert (CP2 : all_compat (info s2) (q ++ p ++ new)).
  { rewrite app_assoc. eapply all_compat_ext; [ | exact AC ]. intros; now rewrite INF. }
  assert (HQ2 : seg (nxt s2) (head s2) q None).
  { rewrite L1. eapply seg_ext; [ | exact HQ ]. intros x I. symmetry; apply NX2. apply DJ. apply in_or_app; auto. }
  assert (ND2 : NoDup (q ++ p ++ new)) by (rewrite app_assoc; auto).
  destruct (phead s2) as [h|] eqn:PH.
  - assert (PN : p <> nil). { intros ->. cbn in HP. congruence. }
    rewrite L4, (HPT PN). destruct (lasto p) as [l|] eqn:LP; [ | now apply lasto_None in LP ].
    eexists; split; [ reflexivity | ]. split; [ | cbn; auto ].
    assert (LInP : In l p) by (apply lasto_snoc in LP as (a0 & ->); apply in_or_app; cbn; auto).
    assert (LQ : forall x, In x q -> x <> l) by (intros x I ->; eapply NoDup_app_disj; [ exact HND | exact I | auto ]).
    assert (LNN : forall x, In x new -> x <> l) by (intros x I ->; apply (DJ l); auto; apply in_or_app; auto).
    constructor; cbn; auto.
    + eapply seg_ext; [ | exact HQ2 ]. intros. now rewrite set_nxt_other by auto.
    + congruence.
    + apply lasto_snoc in LP as (a0 & ->). apply seg_app in HP as (m & S1 & S2 & S3). subst m.
      rewrite <- app_assoc. apply seg_app. exists (Some l). split.
      * rewrite <- L3 in S1. eapply seg_ext; [ | exact S1 ]. intros x I.
        rewrite set_nxt_other. -- symmetry; apply NX2. apply DJ. apply in_or_app; right; apply in_or_app; auto.
        -- intros ->. apply NoDup_app_r in HND. apply NoDup_remove_2 in HND. apply HND. rewrite app_nil_r. auto.
      * cbn. split; auto. rewrite set_nxt_same. eapply seg_ext; [ | exact SN ]. intros x I. rewrite set_nxt_other; auto.
    + intros _. rewrite lasto_app2; auto. intros E; rewrite E in LN; discriminate.
    + discriminate.
  - assert (p = nil) by (destruct p; [ auto | destruct HP; congruence ]). subst p.
    eexists; split; [ reflexivity | ]. split; [ | cbn; auto ].
    constructor; cbn; auto. + congruence. + discriminate.
Qed.

(** * Histories *)
Inductive op : Type :=
  | Fields (t : Z) (v : task)                      (* the fields of a task that is not queued *)
  | Ins (t : Z) | Pend (t : Z) | Merge
  | Take (hint : option Z) (t : Z)
  | TakeRow (hint : option Z) (t : Z)
  | Sbrow (tty base : Z) (sbys : list Z) (pf pty : Z).
Definition exec (fuel : nat) (ar : arrays) (s : st) (o : op) : outcome st :=
  match o with
  | Fields t v => Ok (set_info s t v)
  | Ins t => insert_task fuel ar s t
  | Pend t => add_pending s t
  | Merge => merge_pending fuel ar s
  | Take h t => take fuel s h t
  | TakeRow h t => take_row fuel ar s h t
  | Sbrow tty base sbys pf pty => create_sbrow s tty base sbys pf pty
  end.
(** What each operation does to the set of tasks held by the two lists. *)
Definition effect (o : op) (m : list Z) : list Z :=
  match o with
  | Fields _ _ | Merge => m
  | Ins t | Pend t => t :: m
  | Take _ t => List.remove Z.eq_dec t m
  | TakeRow _ t => t + 1 :: List.remove Z.eq_dec t m
  | Sbrow _ base sbys pf _ => m ++ sbrow_list base sbys (Some pf)
  end.
(** A task is taken from the queue at a position at or after the hint. *)
Definition at_hint (s : st) (hint : option Z) (t : Z) : Prop :=
  exists l r, seg (nxt s) (head s) (l ++ t :: r) None /\ good_hint l hint.
Definition allowed (s : st) (m : list Z) (o : op) : Prop :=
  match o with
  | Fields t v => ~ In t m
  | Ins t | Pend t => ~ In t m /\ all_compat (info s) (t :: m)
  | Merge => True
  | Take h t => at_hint s h t
  | TakeRow h t => at_hint s h t /\ ~ In (t + 1) m /\
      all_compat (fun x => if x =? t + 1 then mkTask (ty (info s t)) (sby (info s t) + 1) else info s x) (t + 1 :: m)
  | Sbrow tty base sbys pf pty => (exists r, sbys = 0 :: r) /\ NoDup (m ++ sbrow_list base sbys (Some pf)) /\
      all_compat (sbrow_info (info s) tty base sbys pf pty) (m ++ sbrow_list base sbys (Some pf))
  end.
Definition enough (m : list Z) (fuel : nat) : Prop := (2 * length m < fuel)%nat.
Inductive run (ar : arrays) : st -> list Z -> Prop :=
  | run_init i n : run ar (mkSt i n None None None None false false) nil
  | run_step s m o fuel s' : run ar s m -> allowed s m o -> enough m fuel -> exec fuel ar s o = Ok s' -> run ar s' (effect o m).

Lemma seg_det : forall l n h l', seg n h l None -> seg n h l' None -> l = l'.
Proof.
  induction l; destruct l'; cbn; intros; auto.
  - destruct H0; congruence. - destruct H; congruence.
  - destruct H, H0. assert (a = z) by congruence. subst. f_equal. eauto.
Qed.
Lemma remove_mid : forall l (t : Z) r, NoDup (l ++ t :: r) -> List.remove Z.eq_dec t (l ++ t :: r) = l ++ r.
Proof.
  intros l t r ND.
  assert (NI : ~ In t (l ++ r)) by (now apply NoDup_remove_2 in ND).
  rewrite remove_app. cbn. destruct (Z.eq_dec t t); [ | contradiction ].
  rewrite !notin_remove; auto; intros I; apply NI; apply in_or_app; auto.
Qed.
Lemma remove_perm : forall (t : Z) m m', Permutation m m' -> Permutation (List.remove Z.eq_dec t m) (List.remove Z.eq_dec t m').
Proof.
  induction 1; cbn; auto.
  - destruct (Z.eq_dec t x); auto.
  - destruct (Z.eq_dec t x), (Z.eq_dec t y); auto. constructor.
  - etransitivity; eauto.
Qed.

Lemma step_ok : forall ar s m o fuel q p, holds s q p -> Permutation (q ++ p) m -> flush s = false -> allowed s m o -> enough m fuel ->
  exists s' q' p', exec fuel ar s o = Ok s' /\ holds s' q' p' /\ Permutation (q' ++ p') (effect o m) /\ flush s' = false.
Proof.
  intros ar s m o fuel q p HO PM FL AL EN. unfold enough in EN.
  assert (LM : length m = (length q + length p)%nat) by (rewrite <- (Permutation_length PM); apply app_length).
  assert (NIm : forall t, ~ In t m -> ~ In t (q ++ p)) by (intros t N I; apply N; eapply Permutation_in; eauto).
  destruct o; cbn [exec effect allowed] in *.
  - exists (set_info s t v), q, p. repeat (apply conj); auto using holds_info.
  - destruct AL as [NI AC].
    destruct (insert_spec fuel ar s q p t) as (s' & q' & E & HO' & P' & _ & F' & _); auto.
    + eapply all_compat_perm; [ | exact AC ]. constructor. now apply Permutation_sym.
    + lia.
    + exists s', q', p. split; auto. split; auto. split; auto.
      transitivity ((t :: q) ++ p); [ now apply Permutation_app_tail | ]. cbn. now constructor.
  - destruct AL as [NI AC].
    destruct (add_pending_spec s q p t) as (s' & E & HO' & _ & F'); auto.
    + eapply all_compat_perm; [ | exact AC ]. constructor. now apply Permutation_sym.
    + exists s', q, (p ++ [t]). split; auto. split; auto. split; [ | congruence ].
      rewrite app_assoc. transitivity (t :: q ++ p); [ symmetry; apply Permutation_cons_append | now constructor ].
  - destruct (merge_spec fuel ar s q p) as (s' & q' & E & HO' & P' & _ & F'); auto.
    + lia.
    + exists s', q', nil. rewrite app_nil_r. split; auto. split; auto. split; auto. etransitivity; eauto.
  - destruct AL as (l & r & SG & GH). pose proof (seg_det _ _ _ _ SG (h_q _ _ _ HO)). subst q.
    destruct (take_spec fuel s l t r p hint) as (s' & E & HO' & _ & F'); auto.
    + rewrite app_length in LM. cbn in LM. lia.
    + exists s', (l ++ r), p. split; auto. split; auto. split; [ | congruence ].
      rewrite <- (remove_perm t _ _ PM). rewrite <- !app_assoc. cbn. rewrite remove_mid; auto.
      pose proof (h_nodup _ _ _ HO). rewrite <- app_assoc in H. exact H.
  - destruct AL as ((l & r & SG & GH) & NI & AC). pose proof (seg_det _ _ _ _ SG (h_q _ _ _ HO)). subst q.
    destruct (take_row_spec fuel ar s l t r p hint) as (s' & q' & E & HO' & P' & _ & F'); auto.
    + eapply all_compat_perm; [ | exact AC ]. constructor. now apply Permutation_sym.
    + lia.
    + exists s', q', p. split; auto. split; auto. split; [ | auto ].
      transitivity ((t + 1 :: l ++ r) ++ p); [ now apply Permutation_app_tail | ]. cbn. constructor.
      rewrite <- (remove_perm t _ _ PM). rewrite <- !app_assoc. cbn. rewrite remove_mid; auto.
      pose proof (h_nodup _ _ _ HO). rewrite <- app_assoc in H. exact H.
  - destruct AL as (SB & ND & AC).
    assert (P2 : Permutation (m ++ sbrow_list base sbys (Some pf)) ((q ++ p) ++ sbrow_list base sbys (Some pf))).
    { apply Permutation_app_tail. now apply Permutation_sym. }
    destruct (create_sbrow_spec s q p tty base sbys pf pty HO SB) as (s' & E & HO' & _ & F').
    + eapply NoDup_perm; eauto.
    + eapply all_compat_perm; eauto.
    + exists s', q, (p ++ sbrow_list base sbys (Some pf)). split; auto. split; auto. split; [ | congruence ].
      rewrite app_assoc. now apply Permutation_sym.
Qed.
Theorem run_inv : forall ar s m, run ar s m -> exists q p, holds s q p /\ Permutation (q ++ p) m /\ flush s = false.
Proof.
  induction 1.
  - exists nil, nil. split; [ | auto ]. constructor; cbn; auto; try tauto; try constructor. all: cbn in *; tauto.
  - destruct IHrun as (q & p & HO & PM & FL).
    destruct (step_ok ar s m o fuel q p) as (s1 & q' & p' & E & R); auto.
    rewrite E in H2. inversion H2; subst. eauto.
Qed.
Theorem run_defined : forall ar s m o fuel, run ar s m -> allowed s m o -> enough m fuel -> exists s', exec fuel ar s o = Ok s'.
Proof.
  intros. destruct (run_inv _ _ _ H) as (q & p & HO & PM & FL).
  destruct (step_ok ar s m o fuel q p) as (s' & _ & _ & E & _); eauto.
Qed.

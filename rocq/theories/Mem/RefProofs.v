From Coq Require Import ZArith List Bool Lia.
From Verif Require Import Base.CInt Base.Lemmas Mem.Pool Mem.PoolProofs Mem.Ref.
Import ListNotations.
Open Scope Z_scope.
Open Scope outcome_scope.

Definition refs_of (x : nat) (t : thr) : Z := occ x (own t).
Definition pc_on (x : nat) (t : thr) : Z :=
  match at_ t with
  | Some (DRead r) | Some (DCall r _ _ _) | Some (DFree r) => b2z (Nat.eqb r x)
  | None => 0
  end.
Definition wf_pc (h : rheap) (lg : list nat) (p : dpc) : Prop :=
  match p with
  | DRead r => exists o, h r = Some o /\ r_cnt o = 0 /\ ~ In (r_id o) lg
  | DCall r k fr id => exists o, h r = Some o /\ r_cnt o = 0 /\ r_kind o = k /\ r_fr o = fr /\ r_id o = id /\ ~ In id lg
  | DFree r => exists o, h r = Some o /\ r_cnt o = 0 /\ r_kind o = KUser /\ In (r_id o) lg
  end.
Definition wf_thr (h : rheap) (lg : list nat) (t : thr) : Prop :=
  disc (own t) (todo t) = true /\ match at_ t with Some p => wf_pc h lg p | None => True end.

Record inv (s : st) : Prop := {
  i_live : forall x o, mem s x = Some o ->
    r_cnt o = sumf (refs_of x) (thrs s) /\ sumf (pc_on x) (thrs s) = b2z (r_cnt o =? 0)
    /\ r_fr o = is_user (r_kind o) /\ (r_id o < nxt s)%nat /\ (0 < r_cnt o -> ~ In (r_id o) (log s));
  i_dead : forall x, mem s x = None -> sumf (refs_of x) (thrs s) = 0 /\ sumf (pc_on x) (thrs s) = 0;
  i_thr : Forall (wf_thr (mem s) (log s)) (thrs s);
  i_ids : forall x y o o', mem s x = Some o -> mem s y = Some o' -> r_id o = r_id o' -> x = y;
  i_log : NoDup (log s) /\ forall i, In i (log s) -> (i < nxt s)%nat;
  i_all : forall i, (i < nxt s)%nat -> In i (log s) \/ exists x o, mem s x = Some o /\ r_id o = i }.

Lemma rset_same : forall h a o, rset h a o a = o.
Proof. intros. unfold rset. now rewrite Nat.eqb_refl. Qed.
Lemma rset_other : forall h a o x, x <> a -> rset h a o x = h x.
Proof. intros h a o x N. unfold rset. now rewrite (proj2 (Nat.eqb_neq x a) N). Qed.

Lemma refs_nonneg : forall x t, 0 <= refs_of x t. Proof. intros. apply occ_nonneg. Qed.
Lemma pc_nonneg : forall x t, 0 <= pc_on x t.
Proof. intros x t. unfold pc_on. destruct (at_ t) as [[]|]; try apply b2z_range; lia. Qed.
Lemma has_in : forall r l, has r l = true <-> In r l.
Proof.
  intros. unfold has. rewrite existsb_exists. split; [intros (x & I & E); apply Nat.eqb_eq in E; now subst|].
  intros I. exists r. split; [exact I|apply Nat.eqb_refl].
Qed.

Lemma sumf_zero : forall A (f : A -> Z) l, (forall a, In a l -> f a = 0) -> sumf f l = 0.
Proof. intros A f. induction l as [|a l IH]; intros H; cbn; [reflexivity|]. rewrite (H a), IH; [lia| |now left]. intros b I. apply H. now right. Qed.

Lemma init_inv : forall n, inv (init n).
Proof.
  intros n. split; cbn.
  - discriminate.
  - intros x _. split; apply sumf_zero; intros a I; apply repeat_spec in I; subst; reflexivity.
  - apply Forall_forall. intros a I. apply repeat_spec in I. subst. split; [reflexivity|exact Logic.I].
  - discriminate.
  - split; [constructor|intros i []].
  - intros i L. lia.
Qed.

Lemma upd_forall : forall A (P : A -> Prop) l i v, Forall P l -> P v -> Forall P (upd_nat l i v).
Proof.
  intros A P. induction l as [|a l IH]; intros [|i] v F V; cbn; auto; inversion F; subst; constructor; auto.
Qed.
Lemma upd_forall_weak : forall A (P Q : A -> Prop) l i v, (forall j a, nth_error l j = Some a -> j <> i -> P a -> Q a) ->
  Forall P l -> Q v -> Forall Q (upd_nat l i v).
Proof.
  intros A P Q. induction l as [|a l IH]; intros [|i] v H F V; cbn; auto; inversion F; subst; constructor; auto.
  - rewrite Forall_forall in H3 |- *. intros b I. apply In_nth_error in I. destruct I as (j & E).
    apply (H (S j) b); [exact E|lia|]. apply H3. eapply nth_error_In; eauto.
  - apply (H O a); [reflexivity|lia|exact H2].
  - apply IH; auto. intros j b E N. apply (H (S j) b); [exact E|lia].
Qed.
Lemma nth_forall : forall A (P : A -> Prop) l i a, Forall P l -> nth_error l i = Some a -> P a.
Proof. intros A P l i a F E. rewrite Forall_forall in F. apply F. eapply nth_error_In; eauto. Qed.

Lemma sum2_le : forall A (f : A -> Z) l i j a b, (forall a, 0 <= f a) -> nth_error l i = Some a -> nth_error l j = Some b -> i <> j ->
  f a + f b <= sumf f l.
Proof.
  intros A f. induction l as [|c l IH]; intros [|i] [|j] a b N Ea Eb D; cbn in *; try discriminate; [congruence| | |].
  - injection Ea as ->. pose proof (sumf_ge A f l j b N Eb). lia.
  - injection Eb as ->. pose proof (sumf_ge A f l i a N Ea). lia.
  - assert (i <> j) by congruence. pose proof (IH i j a b N Ea Eb H). pose proof (N c). lia.
Qed.

(** a thread whose place in dav1d_ref_dec is at [x] *)
Lemma wf_other : forall h h' lg lg' t x,
  pc_on x t = 0 -> (forall y, y <> x -> h' y = h y) ->
  (forall y o, y <> x -> h y = Some o -> (In (r_id o) lg' <-> In (r_id o) lg)) ->
  wf_thr h lg t -> wf_thr h' lg' t.
Proof.
  intros h h' lg lg' t x Z H L [D W]. split; [exact D|]. unfold pc_on in Z.
  destruct (at_ t) as [[r|r k fr id|r]|]; cbn [wf_pc] in *; [| | |exact I];
    (destruct (Nat.eqb_spec r x) as [E|N]; [discriminate Z|]).
  - destruct W as (o & E & C & NI). exists o. rewrite (H r N). repeat split; auto. rewrite (L r o N E). exact NI.
  - destruct W as (o & E & C & K & F & ID & NI). exists o. rewrite (H r N). repeat split; auto. subst id. rewrite (L r o N E). exact NI.
  - destruct W as (o & E & C & K & NI). exists o. rewrite (H r N). repeat split; auto. rewrite (L r o N E). exact NI.
Qed.

Lemma sumf_upd_refs : forall x l i t t', nth_error l i = Some t ->
  sumf (refs_of x) (upd_nat l i t') = sumf (refs_of x) l - occ x (own t) + occ x (own t').
Proof. intros. now rewrite (sumf_upd _ _ _ _ _ _ H). Qed.
Lemma sumf_upd_pc : forall x l i t t', nth_error l i = Some t ->
  sumf (pc_on x) (upd_nat l i t') = sumf (pc_on x) l - pc_on x t + pc_on x t'.
Proof. intros. now rewrite (sumf_upd _ _ _ _ _ _ H). Qed.

Lemma total_sum : forall s x, sumf (refs_of x) (thrs s) <= total s.
Proof.
  intros s x. unfold total. induction (thrs s) as [|t l IH]; cbn [sumf map concat]; [rewrite zlen_nil; lia|].
  rewrite zlen_app. unfold refs_of at 1. unfold occ. pose proof (count_occ_bound Nat.eq_dec x (own t)).
  unfold zlen at 1. lia.
Qed.

(** ** Every step keeps the invariant *)
Section STEP.
Variables (s : st) (i : nat) (t : thr).
Hypothesis (I : inv s) (E : nth_error (thrs s) i = Some t).

Lemma own_live : forall r, In r (own t) -> exists o, mem s r = Some o /\ 0 < r_cnt o /\ sumf (pc_on r) (thrs s) = 0.
Proof.
  intros r H. destruct (mem s r) as [o|] eqn:M.
  - exists o. destruct (i_live s I r o M) as (C & P & _). assert (0 < r_cnt o).
    { rewrite C. apply occ_in in H. pose proof (sumf_ge _ (refs_of r) _ i t (refs_nonneg r) E) as G. unfold refs_of at 1 in G. lia. }
    repeat split; auto. rewrite P. now rewrite (proj2 (Z.eqb_neq _ _)) by lia.
  - destruct (i_dead s I r M) as (C & _). apply occ_in in H.
    pose proof (sumf_ge _ (refs_of r) _ i t (refs_nonneg r) E) as G. unfold refs_of at 1 in G. lia.
Qed.
Lemma no_pc : forall r j t', sumf (pc_on r) (thrs s) = 0 -> nth_error (thrs s) j = Some t' -> pc_on r t' = 0.
Proof.
  intros r j t' Z J. pose proof (sumf_ge _ (pc_on r) _ j t' (pc_nonneg r) J). pose proof (pc_nonneg r t'). lia.
Qed.

Lemma act_ok : forall a l r, at_ t = None -> todo t = a :: l -> do_act s a = Some r -> exists h p, r = Ok (h, p) /\
  inv {| mem := h; thrs := put s i {| own := after1 (own t) a; todo := l; at_ := p |}; log := log s;
         nxt := match a with ANew _ _ _ _ => S (nxt s) | _ => nxt s end |}.
Proof.
  intros a l r A T D. pose proof (nth_forall _ _ _ _ _ (i_thr s I) E) as [DI _]. rewrite T in DI. cbn [disc] in DI.
  apply andb_prop in DI. destruct DI as [AL DI].
  assert (PT : forall x, pc_on x t = 0) by (intros x; unfold pc_on; now rewrite A).
  destruct a as [x k fr wr|x|x|x]; cbn [do_act allowed] in *.
  - (* ANew *)
    destruct (mem s x) eqn:M; [discriminate D|]. injection D as <-. eexists _, _. split; [reflexivity|].
    destruct (i_dead s I x M) as [H0 P0]. apply eqb_prop in AL.
    set (t' := {| own := after1 (own t) (ANew x k fr wr); todo := l; at_ := None |}).
    assert (HR : forall y, sumf (refs_of y) (put s i t') = sumf (refs_of y) (thrs s) + b2z (Nat.eqb x y)).
    { intros y. unfold put. rewrite (sumf_upd_refs _ _ _ _ _ E). cbn [own t' after1]. rewrite occ_cons. lia. }
    assert (HP : forall y, sumf (pc_on y) (put s i t') = sumf (pc_on y) (thrs s)).
    { intros y. unfold put. rewrite (sumf_upd_pc _ _ _ _ _ E), PT. cbn. lia. }
    split; cbn [mem thrs log nxt].
    + intros y o M'. rewrite HR, HP. destruct (Nat.eq_dec y x) as [->|N].
      * rewrite rset_same in M'. injection M' as <-. cbn. rewrite eqb_refl'. repeat split; auto; try lia.
        intros _ J. apply (proj2 (i_log s I)) in J. lia.
      * rewrite rset_other in M' by exact N. rewrite (eqb_neq' x y) by congruence.
        destruct (i_live s I y o M') as (C & P & F & L & G). repeat split; auto; lia.
    + intros y M'. rewrite HR, HP. destruct (Nat.eq_dec y x) as [->|N]; [rewrite rset_same in M'; discriminate M'|].
      rewrite rset_other in M' by exact N. rewrite (eqb_neq' x y) by congruence. destruct (i_dead s I y M'). lia.
    + unfold put. apply (upd_forall_weak _ (wf_thr (mem s) (log s))); [|exact (i_thr s I)|split; [exact DI|exact Logic.I]].
      intros j a J N. apply (wf_other _ _ _ _ _ x); [exact (no_pc x j a P0 J)| |reflexivity].
      intros y Ny. now apply rset_other.
    + intros y z o o'. destruct (Nat.eq_dec y x) as [->|Ny]; destruct (Nat.eq_dec z x) as [->|Nz]; auto;
        rewrite ?rset_same, ?rset_other by assumption; intros X Y ID.
      * injection X as <-. cbn in ID. destruct (i_live s I z o' Y) as (_ & _ & _ & L & _). lia.
      * injection Y as <-. cbn in ID. destruct (i_live s I y o X) as (_ & _ & _ & L & _). lia.
      * exact (i_ids s I y z o o' X Y ID).
    + destruct (i_log s I) as [ND L]. split; [exact ND|]. intros j J. apply L in J. lia.
    + intros j J. destruct (Nat.eq_dec j (nxt s)) as [->|N].
      * right. eexists x, _. rewrite rset_same. split; reflexivity.
      * destruct (i_all s I j ltac:(lia)) as [G|(y & o & G & Q)]; [now left|]. right. exists y, o.
        rewrite rset_other; [auto|]. intros ->. congruence.
  - (* AInc *)
    destruct (total s <? INT_MAX) eqn:TT; [|discriminate D]. apply Z.ltb_lt in TT. injection D as <-.
    apply has_in in AL. destruct (own_live x AL) as (o & M & C0 & P0). unfold get. rewrite M. cbn [obind].
    destruct (i_live s I x o M) as (C & P & F & L & G).
    pose proof (total_sum s x) as TS.
    assert (FI : fits_int (r_cnt o + 1) = true).
    { unfold fits_int. apply andb_true_intro. unfold INT_MIN, INT_MAX in *. split; apply Z.leb_le; lia. }
    rewrite FI. eexists _, _. split; [reflexivity|].
    set (t' := {| own := after1 (own t) (AInc x); todo := l; at_ := None |}).
    assert (HR : forall y, sumf (refs_of y) (put s i t') = sumf (refs_of y) (thrs s) + b2z (Nat.eqb x y)).
    { intros y. unfold put. rewrite (sumf_upd_refs _ _ _ _ _ E). cbn [own t' after1]. rewrite occ_cons. lia. }
    assert (HP : forall y, sumf (pc_on y) (put s i t') = sumf (pc_on y) (thrs s)).
    { intros y. unfold put. rewrite (sumf_upd_pc _ _ _ _ _ E), PT. cbn. lia. }
    split; cbn [mem thrs log nxt].
    + intros y o' M'. rewrite HR, HP. destruct (Nat.eq_dec y x) as [->|N].
      * rewrite rset_same in M'. injection M' as <-. cbn [with_cnt r_cnt r_kind r_fr r_id]. rewrite eqb_refl', P0.
        rewrite (proj2 (Z.eqb_neq _ _)) by lia. repeat split; auto; lia.
      * rewrite rset_other in M' by exact N. rewrite (eqb_neq' x y) by congruence.
        destruct (i_live s I y o' M') as (C' & P' & F' & L' & G'). repeat split; auto; lia.
    + intros y M'. rewrite HR, HP. destruct (Nat.eq_dec y x) as [->|N]; [rewrite rset_same in M'; discriminate M'|].
      rewrite rset_other in M' by exact N. rewrite (eqb_neq' x y) by congruence. destruct (i_dead s I y M'). lia.
    + unfold put. apply (upd_forall_weak _ (wf_thr (mem s) (log s))); [|exact (i_thr s I)|split; [exact DI|exact Logic.I]].
      intros j a J N. apply (wf_other _ _ _ _ _ x); [exact (no_pc x j a P0 J)| |reflexivity].
      intros y Ny. now apply rset_other.
    + intros y z a b. destruct (Nat.eq_dec y x) as [->|Ny]; destruct (Nat.eq_dec z x) as [->|Nz]; auto;
        rewrite ?rset_same, ?rset_other by assumption; intros X Y ID.
      * injection X as <-. exact (i_ids s I x z o b M Y ID).
      * injection Y as <-. exact (i_ids s I y x a o X M ID).
      * exact (i_ids s I y z a b X Y ID).
    + exact (i_log s I).
    + intros j J. destruct (i_all s I j J) as [Q|(y & o' & Q & R)]; [now left|]. right.
      destruct (Nat.eq_dec y x) as [->|N].
      * rewrite M in Q. injection Q as <-. eexists x, _. rewrite rset_same. split; [reflexivity|exact R].
      * exists y, o'. rewrite rset_other by exact N. auto.
  - (* ADec *)
    injection D as <-.
    apply has_in in AL. destruct (own_live x AL) as (o & M & C0 & P0). unfold get. rewrite M. cbn [obind].
    destruct (i_live s I x o M) as (C & P & F & L & G).
    eexists _, _. split; [reflexivity|].
    set (p := if r_cnt o =? 1 then Some (DRead x) else None).
    set (t' := {| own := after1 (own t) (ADec x); todo := l; at_ := p |}).
    assert (HR : forall y, sumf (refs_of y) (put s i t') = sumf (refs_of y) (thrs s) - b2z (Nat.eqb x y)).
    { intros y. unfold put. rewrite (sumf_upd_refs _ _ _ _ _ E). cbn [own t' after1]. rewrite remove1_occ by exact AL. lia. }
    assert (HP : forall y, sumf (pc_on y) (put s i t') = sumf (pc_on y) (thrs s) + b2z (Nat.eqb x y) * b2z (r_cnt o =? 1)).
    { intros y. unfold put. rewrite (sumf_upd_pc _ _ _ _ _ E), PT. unfold pc_on at 2. cbn [at_ t']. unfold p.
      destruct (r_cnt o =? 1); cbn [b2z]; lia. }
    split; cbn [mem thrs log nxt].
    + intros y o' M'. rewrite HR, HP. destruct (Nat.eq_dec y x) as [->|N].
      * rewrite rset_same in M'. injection M' as <-. cbn [with_cnt r_cnt r_kind r_fr r_id]. rewrite eqb_refl', P0.
        split; [lia|]. split; [|split; [exact F|split; [exact L|intros _; apply G; lia]]].
        destruct (Z.eqb_spec (r_cnt o) 1); destruct (Z.eqb_spec (r_cnt o - 1) 0); cbn [b2z]; lia.
      * rewrite rset_other in M' by exact N. rewrite (eqb_neq' x y) by congruence.
        destruct (i_live s I y o' M') as (C' & P' & F' & L' & G'). repeat split; auto; lia.
    + intros y M'. rewrite HR, HP. destruct (Nat.eq_dec y x) as [->|N]; [rewrite rset_same in M'; discriminate M'|].
      rewrite rset_other in M' by exact N. rewrite (eqb_neq' x y) by congruence. destruct (i_dead s I y M'). lia.
    + unfold put. apply (upd_forall_weak _ (wf_thr (mem s) (log s))); [|exact (i_thr s I)|].
      * intros j a J N. apply (wf_other _ _ _ _ _ x); [exact (no_pc x j a P0 J)| |reflexivity].
        intros y Ny. now apply rset_other.
      * split; [exact DI|]. cbn [at_ t']. unfold p. destruct (Z.eqb_spec (r_cnt o) 1) as [Q|Q]; [|exact Logic.I].
        cbn [wf_pc]. rewrite rset_same. eexists. split; [reflexivity|]. cbn. split; [lia|]. apply G. lia.
    + intros y z a b. destruct (Nat.eq_dec y x) as [->|Ny]; destruct (Nat.eq_dec z x) as [->|Nz]; auto;
        rewrite ?rset_same, ?rset_other by assumption; intros X Y ID.
      * injection X as <-. exact (i_ids s I x z o b M Y ID).
      * injection Y as <-. exact (i_ids s I y x a o X M ID).
      * exact (i_ids s I y z a b X Y ID).
    + exact (i_log s I).
    + intros j J. destruct (i_all s I j J) as [Q|(y & o' & Q & R)]; [now left|]. right.
      destruct (Nat.eq_dec y x) as [->|N].
      * rewrite M in Q. injection Q as <-. eexists x, _. rewrite rset_same. split; [reflexivity|exact R].
      * exists y, o'. rewrite rset_other by exact N. auto.
  - (* ARead *)
    injection D as <-. apply has_in in AL. destruct (own_live x AL) as (o & M & C0 & P0). unfold get. rewrite M. cbn [obind].
    eexists _, _. split; [reflexivity|].
    set (t' := {| own := after1 (own t) (ARead x); todo := l; at_ := None |}).
    assert (HR : forall y, sumf (refs_of y) (put s i t') = sumf (refs_of y) (thrs s)).
    { intros y. unfold put. rewrite (sumf_upd_refs _ _ _ _ _ E). cbn [own t' after1]. lia. }
    assert (HP : forall y, sumf (pc_on y) (put s i t') = sumf (pc_on y) (thrs s)).
    { intros y. unfold put. rewrite (sumf_upd_pc _ _ _ _ _ E), PT. cbn. lia. }
    split; cbn [mem thrs log nxt].
    + intros y o' M'. rewrite HR, HP. exact (i_live s I y o' M').
    + intros y M'. rewrite HR, HP. exact (i_dead s I y M').
    + unfold put. apply upd_forall; [exact (i_thr s I)|]. split; [exact DI|exact Logic.I].
    + exact (i_ids s I).
    + exact (i_log s I).
    + exact (i_all s I).
Qed.

Lemma dec_ok : forall p, at_ t = Some p -> exists h p' lg, do_dec (mem s) (log s) p = Ok (h, p', lg) /\
  inv {| mem := h; thrs := put s i {| own := own t; todo := todo t; at_ := p' |}; log := lg; nxt := nxt s |}.
Proof.
  intros p A. pose proof (nth_forall _ _ _ _ _ (i_thr s I) E) as [DI W]. rewrite A in W.
  (* the object and the facts about it *)
  assert (X : exists x o, pc_on x t = 1 /\ mem s x = Some o /\ r_cnt o = 0).
  { unfold pc_on. rewrite A. destruct p as [r|r k fr id|r]; cbn [wf_pc] in W; destruct W as (o & M & C & _);
      exists r, o; rewrite eqb_refl'; auto. }
  assert (OTH : forall x o, pc_on x t = 1 -> mem s x = Some o -> r_cnt o = 0 -> sumf (pc_on x) (thrs s) = 1
     /\ sumf (refs_of x) (thrs s) = 0 /\ forall j a, nth_error (thrs s) j = Some a -> j <> i -> pc_on x a = 0).
  { intros x o P M C. destruct (i_live s I x o M) as (C' & P' & _). rewrite C in P'. cbn in P'.
    split; [exact P'|]. split; [lia|]. intros j a J N.
    pose proof (sum2_le _ (pc_on x) _ i j t a (pc_nonneg x) E J ltac:(congruence)). pose proof (pc_nonneg x a). lia. }
  assert (HR : forall p' y, sumf (refs_of y) (put s i {| own := own t; todo := todo t; at_ := p' |}) = sumf (refs_of y) (thrs s)).
  { intros p' y. unfold put. rewrite (sumf_upd_refs _ _ _ _ _ E). cbn [own]. lia. }
  assert (HP : forall p' y, sumf (pc_on y) (put s i {| own := own t; todo := todo t; at_ := p' |})
     = sumf (pc_on y) (thrs s) - pc_on y t + pc_on y {| own := own t; todo := todo t; at_ := p' |}).
  { intros p' y. unfold put. now rewrite (sumf_upd_pc _ _ _ _ _ E). }
  destruct p as [x|x k fr id|x]; cbn [wf_pc do_dec] in *.
  - destruct W as (o & M & C & NI). unfold get. rewrite M. cbn [obind]. eexists _, _, _. split; [reflexivity|].
    assert (PX : forall y, pc_on y t = b2z (Nat.eqb x y)) by (intros y; unfold pc_on; now rewrite A).
    split; cbn [mem thrs log nxt].
    + intros y o' M'. rewrite HR, HP, PX. unfold pc_on at 2. cbn [at_]. destruct (i_live s I y o' M') as (C' & P' & R').
      split; [exact C'|]. split; [lia|exact R'].
    + intros y M'. rewrite HR, HP, PX. unfold pc_on at 2. cbn [at_]. destruct (i_dead s I y M'). lia.
    + unfold put. apply upd_forall; [exact (i_thr s I)|]. split; [exact DI|]. cbn [at_ wf_pc]. exists o. repeat split; auto.
    + exact (i_ids s I).
    + exact (i_log s I).
    + exact (i_all s I).
  - destruct W as (o & M & C & K & F & ID & NI).
    assert (PX : forall y, pc_on y t = b2z (Nat.eqb x y)) by (intros y; unfold pc_on; now rewrite A).
    destruct (OTH x o) as (P1 & H0 & NP); [rewrite PX; apply eqb_refl'|exact M|exact C|].
    destruct (i_live s I x o M) as (_ & _ & FR & LT & _). rewrite K in FR. rewrite F in FR.
    assert (LG : NoDup (id :: log s) /\ forall j, In j (id :: log s) -> (j < nxt s)%nat).
    { destruct (i_log s I) as [ND B]. split; [now constructor|]. intros j [<-|J]; [now rewrite <- ID|now apply B]. }
    assert (IDN : forall y o', y <> x -> mem s y = Some o' -> (In (r_id o') (id :: log s) <-> In (r_id o') (log s))).
    { intros y o' N M'. split; [|now right]. intros [Q|Q]; [|exact Q]. exfalso. apply N. apply (i_ids s I y x o' o M' M). congruence. }
    destruct (is_user k) eqn:U.
    + (* the user's callback; the object is freed later *)
      destruct k; try discriminate U. subst fr. cbn [obind]. rewrite FR. eexists _, _, _. split; [reflexivity|].
      split; cbn [mem thrs log nxt].
      * intros y o' M'. rewrite HR, HP, PX. unfold pc_on at 2. cbn [at_]. destruct (i_live s I y o' M') as (C' & P' & F' & L' & G').
        repeat match goal with |- _ /\ _ => split end; auto; try lia. intros CP [Q|Q]; [|now apply G'].
        assert (y = x) by (apply (i_ids s I y x o' o M' M); congruence). subst y. rewrite M in M'. injection M' as <-. lia.
      * intros y M'. rewrite HR, HP, PX. unfold pc_on at 2. cbn [at_]. destruct (i_dead s I y M'). lia.
      * unfold put. apply (upd_forall_weak _ (wf_thr (mem s) (log s))); [|exact (i_thr s I)|].
        -- intros j a J N. apply (wf_other _ _ _ _ _ x); [exact (NP j a J N)|auto|exact IDN].
        -- split; [exact DI|]. cbn [at_ wf_pc]. exists o. repeat split; auto. left. auto.
      * exact (i_ids s I).
      * exact LG.
      * intros j J. destruct (i_all s I j J) as [Q|Q]; [left; now right|now right].
    + (* the callback frees the object *)
      assert (D : (let! h := match k with KUser => Ok (mem s) | _ => let! _ := get (mem s) x in Ok (rset (mem s) x None) end in
                   Ok (h, if fr then Some (DFree x) else None, id :: log s)) = Ok (rset (mem s) x None, None, id :: log s)).
      { subst fr. rewrite FR. unfold get. rewrite M. destruct k; [reflexivity|reflexivity|discriminate U]. }
      rewrite D. eexists _, _, _. split; [reflexivity|].
      split; cbn [mem thrs log nxt].
      * intros y o' M'. rewrite HR, HP, PX. unfold pc_on at 2. cbn [at_]. destruct (Nat.eq_dec y x) as [->|N].
        { rewrite rset_same in M'. discriminate M'. }
        rewrite rset_other in M' by exact N. rewrite (eqb_neq' x y) by congruence.
        destruct (i_live s I y o' M') as (C' & P' & F' & L' & G').
        repeat match goal with |- _ /\ _ => split end; auto; try lia. intros CP. rewrite (IDN y o' N M'). now apply G'.
      * intros y M'. rewrite HR, HP, PX. unfold pc_on at 2. cbn [at_]. destruct (Nat.eq_dec y x) as [->|N].
        { rewrite eqb_refl'. lia. }
        rewrite rset_other in M' by exact N. rewrite (eqb_neq' x y) by congruence. destruct (i_dead s I y M'). lia.
      * unfold put. apply (upd_forall_weak _ (wf_thr (mem s) (log s))); [|exact (i_thr s I)|].
        -- intros j a J N. apply (wf_other _ _ _ _ _ x); [exact (NP j a J N)| |exact IDN].
           intros y Ny. now apply rset_other.
        -- split; [exact DI|exact Logic.I].
      * intros y z a b. destruct (Nat.eq_dec y x) as [->|Ny]; destruct (Nat.eq_dec z x) as [->|Nz]; auto;
          rewrite ?rset_same, ?rset_other by assumption; intros Q Y IDE; try discriminate.
        exact (i_ids s I y z a b Q Y IDE).
      * exact LG.
      * intros j J. destruct (i_all s I j J) as [Q|(y & o' & Q & R)]; [left; now right|].
        destruct (Nat.eq_dec y x) as [->|N].
        -- left. left. rewrite M in Q. injection Q as <-. congruence.
        -- right. exists y, o'. rewrite rset_other by exact N. auto.
  - destruct W as (o & M & C & K & NI).
    assert (PX : forall y, pc_on y t = b2z (Nat.eqb x y)) by (intros y; unfold pc_on; now rewrite A).
    destruct (OTH x o) as (P1 & H0 & NP); [rewrite PX; apply eqb_refl'|exact M|exact C|].
    unfold get. rewrite M. cbn [obind]. eexists _, _, _. split; [reflexivity|].
    split; cbn [mem thrs log nxt].
    + intros y o' M'. rewrite HR, HP, PX. unfold pc_on at 2. cbn [at_]. destruct (Nat.eq_dec y x) as [->|N].
      { rewrite rset_same in M'. discriminate M'. }
      rewrite rset_other in M' by exact N. rewrite (eqb_neq' x y) by congruence.
      destruct (i_live s I y o' M') as (C' & P' & R'). split; [exact C'|]. split; [lia|exact R'].
    + intros y M'. rewrite HR, HP, PX. unfold pc_on at 2. cbn [at_]. destruct (Nat.eq_dec y x) as [->|N].
      { rewrite eqb_refl'. lia. }
      rewrite rset_other in M' by exact N. rewrite (eqb_neq' x y) by congruence. destruct (i_dead s I y M'). lia.
    + unfold put. apply (upd_forall_weak _ (wf_thr (mem s) (log s))); [|exact (i_thr s I)|].
      * intros j a J N. apply (wf_other _ _ _ _ _ x); [exact (NP j a J N)| |reflexivity].
        intros y Ny. now apply rset_other.
      * split; [exact DI|exact Logic.I].
    + intros y z a b. destruct (Nat.eq_dec y x) as [->|Ny]; destruct (Nat.eq_dec z x) as [->|Nz]; auto;
        rewrite ?rset_same, ?rset_other by assumption; intros Q Y IDE; try discriminate.
      exact (i_ids s I y z a b Q Y IDE).
    + exact (i_log s I).
    + intros j J. destruct (i_all s I j J) as [Q|(y & o' & Q & R)]; [now left|].
      destruct (Nat.eq_dec y x) as [->|N].
      * left. rewrite M in Q. injection Q as <-. now rewrite <- R.
      * right. exists y, o'. rewrite rset_other by exact N. auto.
Qed.
End STEP.

Lemma upd_nth_other : forall A (l : list A) i j v, i <> j -> nth_error (upd_nat l i v) j = nth_error l j.
Proof. intros A. induction l as [|a l IH]; intros [|i] [|j] v N; cbn; auto; congruence. Qed.

Lemma exec_ok : forall s l o, inv s -> exec s l = Some o -> exists s', o = Ok s' /\ inv s'.
Proof.
  intros s [i acts|i|i j r] o I X; cbn [exec] in X.
  - destruct (nth_error (thrs s) i) as [[ow [|] [|]]|] eqn:E; try discriminate X.
    destruct (disc ow acts) eqn:D; [|discriminate X]. injection X as <-. eexists. split; [reflexivity|].
    assert (HR : forall y, sumf (refs_of y) (put s i {| own := ow; todo := acts; at_ := None |}) = sumf (refs_of y) (thrs s)).
    { intros y. unfold put. rewrite (sumf_upd_refs _ _ _ _ _ E). cbn [own]. lia. }
    assert (HP : forall y, sumf (pc_on y) (put s i {| own := ow; todo := acts; at_ := None |}) = sumf (pc_on y) (thrs s)).
    { intros y. unfold put. rewrite (sumf_upd_pc _ _ _ _ _ E). cbn. lia. }
    split; cbn [mem thrs log nxt].
    + intros y o' M'. rewrite HR, HP. exact (i_live s I y o' M').
    + intros y M'. rewrite HR, HP. exact (i_dead s I y M').
    + unfold put. apply upd_forall; [exact (i_thr s I)|]. split; [exact D|exact Logic.I].
    + exact (i_ids s I).
    + exact (i_log s I).
    + exact (i_all s I).
  - destruct (nth_error (thrs s) i) as [t|] eqn:E; [|discriminate X].
    destruct (at_ t) as [p|] eqn:A.
    + destruct (dec_ok s i t I E p A) as (h & p' & lg & D & I'). rewrite D in X. injection X as <-. eexists. split; [reflexivity|exact I'].
    + destruct (todo t) as [|a l] eqn:T; [discriminate X|]. destruct (do_act s a) as [r|] eqn:D; [|discriminate X].
      destruct (act_ok s i t I E a l r A T D) as (h & p & -> & I'). injection X as <-. eexists. split; [reflexivity|exact I'].
  - destruct (nth_error (thrs s) i) as [[o1 [|] [|]]|] eqn:E; try discriminate X.
    destruct (nth_error (thrs s) j) as [[o2 [|] [|]]|] eqn:E2; try discriminate X.
    destruct (has r o1 && negb (Nat.eqb i j)) eqn:Q; [|discriminate X]. apply andb_prop in Q. destruct Q as [Q N].
    apply has_in in Q. apply negb_true_iff, Nat.eqb_neq in N. injection X as <-. eexists. split; [reflexivity|].
    set (t1 := {| own := remove1 r o1; todo := []; at_ := None |}). set (t2 := {| own := r :: o2; todo := []; at_ := None |}).
    assert (E2' : nth_error (put s i t1) j = Some {| own := o2; todo := []; at_ := None |}).
    { unfold put. rewrite upd_nth_other by exact N. exact E2. }
    assert (HR : forall y, sumf (refs_of y) (upd_nat (put s i t1) j t2) = sumf (refs_of y) (thrs s)).
    { intros y. rewrite (sumf_upd_refs _ _ _ _ _ E2'). unfold put. rewrite (sumf_upd_refs _ _ _ _ _ E). cbn [own t1 t2].
      rewrite remove1_occ by exact Q. rewrite occ_cons. lia. }
    assert (HP : forall y, sumf (pc_on y) (upd_nat (put s i t1) j t2) = sumf (pc_on y) (thrs s)).
    { intros y. rewrite (sumf_upd_pc _ _ _ _ _ E2'). unfold put. rewrite (sumf_upd_pc _ _ _ _ _ E). cbn. lia. }
    split; cbn [mem thrs log nxt].
    + intros y o' M'. rewrite HR, HP. exact (i_live s I y o' M').
    + intros y M'. rewrite HR, HP. exact (i_dead s I y M').
    + apply upd_forall; [apply upd_forall; [exact (i_thr s I)|]|]; (split; [reflexivity|exact Logic.I]).
    + exact (i_ids s I).
    + exact (i_log s I).
    + exact (i_all s I).
Qed.

Lemma runs_ok : forall s ls o, runs s ls o -> inv s -> exists s', o = Ok s' /\ inv s'.
Proof.
  induction 1; intros I.
  - now exists s.
  - destruct (exec_ok _ _ _ I H) as (s' & D & _). discriminate D.
  - destruct (exec_ok _ _ _ I H) as (s1 & D & I1). injection D as <-. now apply IHruns.
Qed.

(** ** Consequences *)
Definition refs (s : st) (x : nat) : Z := sumf (refs_of x) (thrs s).

(** while there is a reference the object is live and its callback did not run *)
Lemma referenced : forall s x, inv s -> 0 < refs s x ->
  exists o, mem s x = Some o /\ r_cnt o = refs s x /\ ~ In (r_id o) (log s).
Proof.
  intros s x I R. destruct (mem s x) as [o|] eqn:M.
  - destruct (i_live s I x o M) as (C & P & F & L & G). exists o. repeat split; auto. apply G. unfold refs in R. lia.
  - destruct (i_dead s I x M) as [H _]. unfold refs in R. lia.
Qed.
(** an object without references is being released by exactly one thread *)
Lemma unreferenced : forall s x o, inv s -> mem s x = Some o -> refs s x = 0 -> sumf (pc_on x) (thrs s) = 1.
Proof.
  intros s x o I M R. destruct (i_live s I x o M) as (C & P & _). unfold refs in R. rewrite P, C, R. reflexivity.
Qed.
Lemma all_done : forall s, inv s -> Forall (fun t => own t = [] /\ at_ t = None) (thrs s) ->
  (forall x, mem s x = None) /\ NoDup (log s) /\ forall i, In i (log s) <-> (i < nxt s)%nat.
Proof.
  intros s I F. rewrite Forall_forall in F.
  assert (N : forall x, mem s x = None).
  { intros x. destruct (mem s x) as [o|] eqn:M; [|reflexivity]. exfalso.
    destruct (i_live s I x o M) as (C & P & _). rewrite (sumf_zero _ (refs_of x)) in C.
    - rewrite C in P. rewrite (sumf_zero _ (pc_on x)) in P; [discriminate P|].
      intros t J. destruct (F t J) as [_ A]. unfold pc_on. now rewrite A.
    - intros t J. destruct (F t J) as [A _]. unfold refs_of. now rewrite A. }
  split; [exact N|]. destruct (i_log s I) as [ND L]. split; [exact ND|]. intros i. split; [apply L|].
  intros J. destruct (i_all s I i J) as [Q|(x & o & Q & _)]; [exact Q|]. rewrite N in Q. discriminate Q.
Qed.
(** is_writable: nobody else has a reference *)
Lemma writable_alone : forall s i t r, inv s -> nth_error (thrs s) i = Some t -> In r (own t) ->
  exists b, is_writable (mem s) r = Ok b /\
  (b = true -> occ r (own t) = 1 /\ forall j t', nth_error (thrs s) j = Some t' -> j <> i -> ~ In r (own t')).
Proof.
  intros s i t r I E H. destruct (own_live s i t I E r H) as (o & M & C & _). unfold is_writable, get. rewrite M. cbn [obind].
  eexists. split; [reflexivity|]. intros B. apply andb_prop in B. destruct B as [B _]. apply Z.eqb_eq in B.
  destruct (i_live s I r o M) as (C' & _). apply occ_in in H.
  pose proof (sumf_ge _ (refs_of r) _ i t (refs_nonneg r) E) as G. unfold refs_of at 1 in G.
  split; [lia|]. intros j t' J N IN. apply occ_in in IN.
  pose proof (sum2_le _ (refs_of r) _ i j t t' (refs_nonneg r) E J ltac:(congruence)) as G2. unfold refs_of at 1 2 in G2. lia.
Qed.
(** the log only grows, by one callback at a time *)
Lemma log_grows : forall s l s', exec s l = Some (Ok s') -> log s' = log s \/ exists i, log s' = i :: log s.
Proof.
  intros s [i acts|i|i j r] s' X; cbn [exec] in X.
  - destruct (nth_error (thrs s) i) as [[ow [|] [|]]|]; try discriminate X. destruct (disc ow acts); [|discriminate X].
    injection X as <-. now left.
  - destruct (nth_error (thrs s) i) as [t|]; [|discriminate X]. destruct (at_ t) as [p|].
    + destruct (do_dec (mem s) (log s) p) as [[[h p'] lg]|] eqn:D; [|discriminate X]. injection X as <-. cbn [log].
      destruct p as [r|r k fr id|r]; cbn [do_dec] in D.
      * destruct (get (mem s) r); [|discriminate D]. injection D as <- <- <-. now left.
      * destruct (match k with KUser => _ | _ => _ end); [|discriminate D]. injection D as <- <- <-. right. now exists id.
      * destruct (get (mem s) r); [|discriminate D]. injection D as <- <- <-. now left.
    + destruct (todo t); [discriminate X|]. destruct (do_act s a) as [[[h p]|]|]; try discriminate X. injection X as <-. now left.
  - destruct (nth_error (thrs s) i) as [[o1 [|] [|]]|]; try discriminate X.
    destruct (nth_error (thrs s) j) as [[o2 [|] [|]]|]; try discriminate X.
    destruct (has r o1 && negb (Nat.eqb i j)); [|discriminate X]. injection X as <-. now left.
Qed.

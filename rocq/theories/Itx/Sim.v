(** Relating two interpretations of the same straight-line code. *)
From Coq Require Import ZArith List Bool Lia FMapPositive.
From Verif.Base Require Import CInt Lemmas.
From Verif.Itx Require Import Lang.
Import ListNotations.
Open Scope Z_scope.
Open Scope outcome_scope.

Lemma obind_inv : forall A B (m : outcome A) (f : A -> outcome B) b,
  obind m f = Ok b -> exists a, m = Ok a /\ f a = Ok b.
Proof. intros A B [a|] f b H; [exists a; auto | discriminate]. Qed.

Lemma upd_nat_nth_same : forall A (l : list A) i v d, (i < length l)%nat -> nth i (upd_nat l i v) d = v.
Proof. induction l; intros [|i] v d H; cbn in *; try lia; auto. apply IHl; lia. Qed.

Lemma Forall2_len : forall A B (R : A -> B -> Prop) l1 l2, Forall2 R l1 l2 -> length l1 = length l2.
Proof. induction 1; cbn; auto. Qed.

Section Sim.
Variables D1 D2 : dom.
Variable RS : dS D1 -> dS D2 -> Prop.
Variable RV : dS D1 -> dS D2 -> dV D1 -> dV D2 -> Prop.

Definition keeps s1 s2 s1' s2' := RS s1' s2' /\ forall x y, RV s1 s2 x y -> RV s1' s2' x y.

Definition sim (m1 : outcome (dS D1 * dV D1)) (m2 : outcome (dS D2 * dV D2)) s1 s2 :=
  forall s1' v1, m1 = Ok (s1', v1) ->
  exists s2' v2, m2 = Ok (s2', v2) /\ keeps s1 s2 s1' s2' /\ RV s1' s2' v1 v2.

Hypothesis simK : forall s1 s2 z, RS s1 s2 -> sim (dK D1 s1 z) (dK D2 s2 z) s1 s2.
Hypothesis simAdd : forall s1 s2 a1 b1 a2 b2, RS s1 s2 -> RV s1 s2 a1 a2 -> RV s1 s2 b1 b2 ->
  sim (dAdd D1 s1 a1 b1) (dAdd D2 s2 a2 b2) s1 s2.
Hypothesis simSub : forall s1 s2 a1 b1 a2 b2, RS s1 s2 -> RV s1 s2 a1 a2 -> RV s1 s2 b1 b2 ->
  sim (dSub D1 s1 a1 b1) (dSub D2 s2 a2 b2) s1 s2.
Hypothesis simMul : forall s1 s2 a1 b1 a2 b2, RS s1 s2 -> RV s1 s2 a1 a2 -> RV s1 s2 b1 b2 ->
  sim (dMul D1 s1 a1 b1) (dMul D2 s2 a2 b2) s1 s2.
Hypothesis simShr : forall s1 s2 a1 a2 n, RS s1 s2 -> RV s1 s2 a1 a2 ->
  sim (dShr D1 s1 a1 n) (dShr D2 s2 a2 n) s1 s2.
Hypothesis simNeg : forall s1 s2 a1 a2, RS s1 s2 -> RV s1 s2 a1 a2 ->
  sim (dNeg D1 s1 a1) (dNeg D2 s2 a2) s1 s2.
Hypothesis simClip : forall s1 s2 a1 a2, RS s1 s2 -> RV s1 s2 a1 a2 ->
  sim (dClip D1 s1 a1) (dClip D2 s2 a2) s1 s2.

Definition ro s1 s2 (o1 : option (dV D1)) (o2 : option (dV D2)) :=
  match o1 with None => o2 = None | Some v1 => exists v2, o2 = Some v2 /\ RV s1 s2 v1 v2 end.

Definition rloc s1 s2 (l1 : PositiveMap.t (dV D1)) (l2 : PositiveMap.t (dV D2)) :=
  forall x, ro s1 s2 (PositiveMap.find x l1) (PositiveMap.find x l2).
Definition rarr s1 s2 := Forall2 (ro s1 s2).

Lemma ro_keeps : forall s1 s2 s1' s2' a b, keeps s1 s2 s1' s2' -> ro s1 s2 a b -> ro s1' s2' a b.
Proof. intros s1 s2 s1' s2' [v|] b [_ K] H; cbn in *; auto. destruct H as (v2 & E & R). eauto. Qed.
Lemma rloc_keeps : forall s1 s2 s1' s2' a b, keeps s1 s2 s1' s2' -> rloc s1 s2 a b -> rloc s1' s2' a b.
Proof. intros s1 s2 s1' s2' a b K H x. eapply ro_keeps; eauto. Qed.
Lemma rarr_keeps : forall s1 s2 s1' s2' a b, keeps s1 s2 s1' s2' -> rarr s1 s2 a b -> rarr s1' s2' a b.
Proof. intros s1 s2 s1' s2' a b K H. induction H; constructor; auto. eapply ro_keeps; eauto. Qed.
Lemma keeps_refl : forall s1 s2, RS s1 s2 -> keeps s1 s2 s1 s2.
Proof. split; auto. Qed.
Lemma keeps_trans : forall a b c d e f, keeps a b c d -> keeps c d e f -> keeps a b e f.
Proof. intros a b c d e f [H1 H2] [H3 H4]. split; auto. Qed.

Lemma rd_init_sim : forall s1 s2 a1 a2 k v1, rarr s1 s2 a1 a2 -> rd_init a1 k = Ok v1 ->
  exists v2, rd_init a2 k = Ok v2 /\ RV s1 s2 v1 v2.
Proof.
  intros s1 s2 a1 a2 k v1 R H. unfold rd_init in *. apply obind_inv in H as (o & H & E).
  unfold rd_at in *. destruct (k <? 0); [discriminate|].
  destruct (nth_error a1 (Z.to_nat k)) as [o1|] eqn:N; [|discriminate]. injection H as <-.
  destruct o1 as [w1|]; [|discriminate]. injection E as ->.
  remember (Z.to_nat k) as n. clear Heqn. revert n N. induction R; intros [|n] N; cbn in *; try discriminate.
  - injection N as ->. destruct H as (v2 & -> & Q). exists v2. auto.
  - apply IHR; auto.
Qed.

Lemma eval_sim : forall e loc1 loc2 a1 a2 rb rm s1 s2, RS s1 s2 -> rloc s1 s2 loc1 loc2 ->
  rarr s1 s2 a1 a2 -> sim (eval D1 loc1 a1 rb rm s1 e) (eval D2 loc2 a2 rb rm s2 e) s1 s2.
Proof.
  induction e; intros loc1 loc2 a1 a2 rb rm s1 s2 RSs RL RA; cbn [eval].
  - intros s1' v1 H. specialize (RL x). destruct (PositiveMap.find x loc1) as [w|]; [|discriminate].
    injection H as <- <-. destruct RL as (v2 & -> & Q). exists s2, v2. auto using keeps_refl.
  - intros s1' v1 H. apply obind_inv in H as (w & H & E). injection E as <- <-.
    destruct (rd_init_sim _ _ _ _ _ _ RA H) as (v2 & -> & Q). exists s2, v2. cbn. auto using keeps_refl.
  - auto.
  - intros s1' v1 H. apply obind_inv in H as ([t1 x1] & H1 & H). apply obind_inv in H as ([u1 y1] & H2 & H).
    destruct (IHe1 _ _ _ _ rb rm _ _ RSs RL RA _ _ H1) as (t2 & x2 & -> & K1 & V1). cbn [obind].
    destruct (IHe2 _ _ _ _ rb rm t1 t2 (proj1 K1) (rloc_keeps _ _ _ _ _ _ K1 RL) (rarr_keeps _ _ _ _ _ _ K1 RA) _ _ H2)
      as (u2 & y2 & -> & K2 & V2). cbn [obind].
    destruct (simAdd _ _ _ _ _ _ (proj1 K2) (proj2 K2 _ _ V1) V2 _ _ H) as (w2 & z2 & -> & K3 & V3).
    exists w2, z2. eauto using keeps_trans.
  - intros s1' v1 H. apply obind_inv in H as ([t1 x1] & H1 & H). apply obind_inv in H as ([u1 y1] & H2 & H).
    destruct (IHe1 _ _ _ _ rb rm _ _ RSs RL RA _ _ H1) as (t2 & x2 & -> & K1 & V1). cbn [obind].
    destruct (IHe2 _ _ _ _ rb rm t1 t2 (proj1 K1) (rloc_keeps _ _ _ _ _ _ K1 RL) (rarr_keeps _ _ _ _ _ _ K1 RA) _ _ H2)
      as (u2 & y2 & -> & K2 & V2). cbn [obind].
    destruct (simSub _ _ _ _ _ _ (proj1 K2) (proj2 K2 _ _ V1) V2 _ _ H) as (w2 & z2 & -> & K3 & V3).
    exists w2, z2. eauto using keeps_trans.
  - intros s1' v1 H. apply obind_inv in H as ([t1 x1] & H1 & H). apply obind_inv in H as ([u1 y1] & H2 & H).
    destruct (IHe1 _ _ _ _ rb rm _ _ RSs RL RA _ _ H1) as (t2 & x2 & -> & K1 & V1). cbn [obind].
    destruct (IHe2 _ _ _ _ rb rm t1 t2 (proj1 K1) (rloc_keeps _ _ _ _ _ _ K1 RL) (rarr_keeps _ _ _ _ _ _ K1 RA) _ _ H2)
      as (u2 & y2 & -> & K2 & V2). cbn [obind].
    destruct (simMul _ _ _ _ _ _ (proj1 K2) (proj2 K2 _ _ V1) V2 _ _ H) as (w2 & z2 & -> & K3 & V3).
    exists w2, z2. eauto using keeps_trans.
  - intros s1' v1 H. apply obind_inv in H as ([t1 x1] & H1 & H).
    destruct (IHe _ _ _ _ rb rm _ _ RSs RL RA _ _ H1) as (t2 & x2 & -> & K1 & V1). cbn [obind].
    destruct (simShr _ _ _ _ n (proj1 K1) V1 _ _ H) as (w2 & z2 & -> & K3 & V3).
    exists w2, z2. eauto using keeps_trans.
  - intros s1' v1 H. apply obind_inv in H as ([t1 x1] & H1 & H).
    destruct (IHe _ _ _ _ rb rm _ _ RSs RL RA _ _ H1) as (t2 & x2 & -> & K1 & V1). cbn [obind].
    destruct (simNeg _ _ _ _ (proj1 K1) V1 _ _ H) as (w2 & z2 & -> & K3 & V3).
    exists w2, z2. eauto using keeps_trans.
  - intros s1' v1 H. apply obind_inv in H as ([t1 x1] & H1 & H).
    destruct (IHe _ _ _ _ rb rm _ _ RSs RL RA _ _ H1) as (t2 & x2 & -> & K1 & V1). cbn [obind].
    destruct (simClip _ _ _ _ (proj1 K1) V1 _ _ H) as (w2 & z2 & -> & K3 & V3).
    exists w2, z2. eauto using keeps_trans.
Qed.

Lemma Forall2_upd : forall A B (R : A -> B -> Prop) l1 l2 i v1 v2, Forall2 R l1 l2 -> R v1 v2 ->
  Forall2 R (upd_nat l1 i v1) (upd_nat l2 i v2).
Proof.
  intros A B R l1 l2 i v1 v2 H. revert i. induction H; intros [|i] V; cbn; constructor; auto.
Qed.

Lemma wr_at_sim : forall s1 s2 a1 a2 k v1 v2 a1', rarr s1 s2 a1 a2 -> RV s1 s2 v1 v2 ->
  wr_at a1 k (Some v1) = Ok a1' ->
  exists a2', wr_at a2 k (Some v2) = Ok a2' /\ rarr s1 s2 a1' a2'.
Proof.
  intros s1 s2 a1 a2 k v1 v2 a1' R V H. unfold wr_at in *.
  rewrite <- (Forall2_len _ _ _ _ _ R).
  destruct ((0 <=? k) && (k <? Z.of_nat (length a1))); [|discriminate]. injection H as <-.
  eexists. split; [reflexivity|]. apply Forall2_upd; auto. cbn. eauto.
Qed.

Lemma exec_sim : forall l rb rm wb wm loc1 loc2 a1 a2 s1 s2 s1' a1', RS s1 s2 -> rloc s1 s2 loc1 loc2 ->
  rarr s1 s2 a1 a2 -> exec D1 rb rm wb wm l loc1 a1 s1 = Ok (s1', a1') ->
  exists s2' a2', exec D2 rb rm wb wm l loc2 a2 s2 = Ok (s2', a2') /\ keeps s1 s2 s1' s2' /\ rarr s1' s2' a1' a2'.
Proof.
  induction l as [|[x e|k e] l IH]; intros rb rm wb wm loc1 loc2 a1 a2 s1 s2 s1' a1' RSs RL RA H; cbn [exec] in *.
  - injection H as <- <-. exists s2, a2. auto using keeps_refl.
  - apply obind_inv in H as ([t1 v1] & H1 & H).
    destruct (eval_sim _ _ _ _ _ _ _ _ _ RSs RL RA _ _ H1) as (t2 & v2 & -> & K1 & V1). cbn [obind].
    assert (RL' : rloc t1 t2 (PositiveMap.add x v1 loc1) (PositiveMap.add x v2 loc2)).
    { intros y. destruct (Pos.eq_dec y x) as [->|NE].
      - rewrite !PositiveMap.gss. cbn. eauto.
      - rewrite !PositiveMap.gso by auto. apply (rloc_keeps _ _ _ _ _ _ K1 RL). }
    destruct (IH rb rm wb wm _ (PositiveMap.add x v2 loc2) _ a2 _ t2 _ _ (proj1 K1) RL'
                 (rarr_keeps _ _ _ _ _ _ K1 RA) H) as (s2' & a2' & E & K2 & R2).
    exists s2', a2'. eauto using keeps_trans.
  - apply obind_inv in H as ([t1 v1] & H1 & H). apply obind_inv in H as (b1 & H2 & H).
    destruct (eval_sim _ _ _ _ _ _ _ _ _ RSs RL RA _ _ H1) as (t2 & v2 & -> & K1 & V1). cbn [obind].
    destruct (wr_at_sim _ _ _ _ _ _ _ _ (rarr_keeps _ _ _ _ _ _ K1 RA) V1 H2) as (b2 & -> & RB). cbn [obind].
    destruct (IH rb rm wb wm _ loc2 _ b2 _ t2 _ _ (proj1 K1) (rloc_keeps _ _ _ _ _ _ K1 RL) RB H) as (s2' & a2' & E & K2 & R2).
    exists s2', a2'. eauto using keeps_trans.
Qed.

Theorem run_sim : forall fn a1 a2 s1 s2 s1' a1', RS s1 s2 -> rarr s1 s2 a1 a2 ->
  run D1 fn a1 s1 = Ok (s1', a1') ->
  exists s2' a2', run D2 fn a2 s2 = Ok (s2', a2') /\ keeps s1 s2 s1' s2' /\ rarr s1' s2' a1' a2'.
Proof.
  induction fn as [|b fn IH]; intros a1 a2 s1 s2 s1' a1' RSs RA H; cbn [run] in *.
  - injection H as <- <-. exists s2, a2. auto using keeps_refl.
  - apply obind_inv in H as ([t1 b1] & H1 & H).
    assert (RL : rloc s1 s2 (PositiveMap.empty (dV D1)) (PositiveMap.empty (dV D2)))
      by (intros x; rewrite !PositiveMap.gempty; reflexivity).
    destruct (exec_sim _ _ _ _ _ _ (PositiveMap.empty _) _ a2 _ s2 _ _ RSs RL RA H1) as (t2 & b2 & -> & K1 & R1). cbn [obind].
    destruct (IH _ _ _ _ _ _ (proj1 K1) R1 H) as (s2' & a2' & E & K2 & R2).
    exists s2', a2'. eauto using keeps_trans.
Qed.
End Sim.

(** When dav1d_get_picture asks for more data. *)
From Coq Require Import ZArith List Bool Lia.
From Verif Require Import Base.CInt Obu.SeqModel Obu.FrameModel Dec.State Dec.Submit Dec.ObuModel
  Dec.LibModel Dec.Inv Dec.Step Dec.OutSpec Dec.Micro Dec.Api Dec.Trace Dec.Fifo Dec.Session Dec.Runs.
Import ListNotations.
Open Scope Z_scope.

(** The answer is not the error of a frame, of the parser or of the film grain. *)
Definition no_error (e : list ev) : Prop :=
  errs e = [] /\ takes e = [] /\ forall b m sid, ~ In (EvParse b m EAGAIN_ sid) e.
(** Nothing unread, and no picture held back by the choice among layers. *)
Definition exhausted (s : settings) (d : dec) : Prop :=
  d_in d = None /\ d_out d = None /\ (top s d = 0 \/ d_cache d = None).

Lemma image_takes : forall o s d r p d1, output_image o s d = Ok (r, p, d1) -> takes (take_ev s d) <> [].
Proof. intros o s d r p d1 H. unfold output_image in H. unfold take_ev. destruct (source s d); [discriminate|discriminate]. Qed.
Lemma not_ready : forall s d d1, output_picture_ready s true d = (false, d1) -> d_out d = None -> d1 = d /\ (top s d = 0 \/ d_cache d = None).
Proof.
  intros s d d1 H EO. unfold output_picture_ready in H. destruct (negb _); [discriminate|]. rewrite EO, top_one in H.
  destruct (Z.eqb_spec (top s d) 0) as [E|N]; cbn [negb is_none] in H.
  - injection H as <-. auto.
  - destruct (d_cache d); [discriminate|]. injection H as <-. auto.
Qed.

Section Drain.
Variables (o : oracle) (s : settings).
Lemma end_again : forall d evs p d1 e, drain_end o s d evs = Ok (EAGAIN_, p, d1, e) -> takes e = [] -> d_out d = None ->
  d1 = d /\ (top s d = 0 \/ d_cache d = None).
Proof.
  intros d evs p d1 e E T EO. unfold drain_end in E. destruct (output_picture_ready s true d) as [rdy d2] eqn:ER.
  destruct rdy.
  - destruct (output_image o s d2) as [[[? ?] ?]|] eqn:EI; [|discriminate]. cbn [obind] in E. injection E as -> <- <- <-.
    rewrite takes_app in T. apply app_eq_nil in T. destruct T as (_ & T). apply image_takes in EI. contradiction.
  - injection E as <- <- <-. apply (not_ready _ _ _ ER EO).
Qed.
(** Slots that were left idle, then frames in flight, then slots that were emptied. *)
Definition quiet_fc (f : fctx) : Prop := fc_out f = None /\ fc_ret f = 0 /\ fc_err f = false.
Definition done_fc (f : fctx) : Prop := fc_out f = None /\ fc_ret f = 0.
Definition queue (d : dec) (a b c : list fctx) : Prop :=
  rot (d_fc d) (d_next d) = a ++ b ++ c /\ Forall quiet_fc a /\ Forall (fun f => fc_out f <> None) b /\ Forall done_fc c.
Lemma queue_empty : forall d c, queue d [] [] c -> Forall empty_fc (d_fc d).
Proof.
  intros d c (R & _ & _ & H). cbn [app] in R. apply (Forall_rot _ _ _ (d_next d)). rewrite R.
  eapply Forall_impl; [|exact H]. intros f (A & _). exact A.
Qed.
Lemma next_queue : forall d f l, live_inv s d -> rot (d_fc d) (d_next d) = f :: l ->
  nth (d_next d) (d_fc d) fctx0 = f /\ forall g x, rot (upd_nth (d_fc d) (d_next d) g) (d_next (w_next (ring_next s d) x)) = l ++ [g].
Proof.
  intros d f l (I & _) R. pose proof (inv_next _ _ I) as HN. rewrite (rot_cons _ _ _ fctx0 HN) in R.
  remember (skipn (S (d_next d)) (d_fc d) ++ firstn (d_next d) (d_fc d)) as l0 eqn:L0. injection R as R1 R2. subst l0.
  split; [auto|]. intros g x. dsimp. rewrite (ring_next_after s d (inv_fc _ _ I)), rot_upd by auto. rewrite R2. reflexivity.
Qed.
Lemma drain_again : forall n dr d evs p d1 e a b c, s_n_fc s <> 1 -> live_inv s d -> op_ok s d -> d_in d = None -> d_out d = None -> d_cached_error d = 0 ->
  queue d a b c -> (length a + length b <= n)%nat -> (dr = true -> a = []) ->
  drain_loop n o s dr d evs = Ok (EAGAIN_, p, d1, e) -> errs e = [] -> takes e = [] ->
  d_in d1 = None /\ d_out d1 = None /\ (top s d1 = 0 \/ d_cache d1 = None) /\ Forall empty_fc (d_fc d1).
Proof.
  intros n. induction n as [|n IH]; intros dr d evs p d1 e a b c NF LI OP IN EO EC Q LN DR E ER TK; cbn [drain_loop] in E.
  - destruct a; [|cbn in LN; lia]. destruct b; [|cbn in LN; lia]. destruct (end_again _ _ _ _ _ E TK EO) as (-> & T).
    split; [auto|]. split; [auto|]. split; [auto|]. eapply queue_empty; eauto.
  - pose proof LI as (I & J). pose proof (inv_next _ _ I) as HN. pose proof (inv_fc _ _ I) as HL.
    replace (d_next d <? length (d_fc d))%nat with true in E by (symmetry; apply Nat.ltb_lt; exact HN).
    cbv zeta in E. destruct Q as (R & QA & QB & QC). pose proof (inv_pending _ _ I) as (P1 & P2).
    assert (SAME : forall f, nth (d_next d) (d_fc d) fctx0 = f -> upd_nth (d_fc d) (d_next d) f = d_fc d) by (intros f Hf; eapply upd_self; eauto).
    assert (RT0 : forall f, nth (d_next d) (d_fc d) fctx0 = f -> fc_out f = None -> fc_ret f = 0 ->
       live_inv s (w_next (ring_next s d) d)).
    { intros f F1 F2 F3. assert (RT : ring_take s d = Ok (w_next (ring_next s d) d, [])).
      { unfold ring_take. replace (d_next d <? length (d_fc d))%nat with true by (symmetry; apply Nat.ltb_lt; exact HN).
        cbv zeta. rewrite F1, F2, F3. reflexivity. }
      apply (ring_facts s d _ [] LI OP EO EC RT). }
    destruct a as [|f a].
    + destruct b as [|f b].
      * destruct c as [|f c]; [exfalso; apply (f_equal (@length _)) in R; rewrite length_rot in R; cbn in R; lia|].
        cbn [app] in R. destruct (next_queue d f c LI R) as (N1 & N2). rewrite N1 in E.
        destruct (Forall_inv QC) as (C1 & C2). pose proof (Forall_inv_tail QC) as QC2.
        destruct (_ && dr).
        { destruct (end_again _ _ _ _ _ E TK EO) as (-> & T). split; [auto|]. split; [auto|]. split; [auto|].
          apply (queue_empty d (f :: c)). unfold queue. auto. }
        rewrite C1, C2 in E. cbn [Z.eqb negb] in E.
        refine (IH _ _ _ _ _ _ [] [] (c ++ [f]) NF (RT0 f N1 C1 C2) OP IN EO EC _ _ _ E ER TK).
        -- unfold queue. dsimp. specialize (N2 f d). rewrite (SAME f N1) in N2. dsimp. rewrite N2. split; [reflexivity|].
           split; [auto|]. split; [auto|]. apply Forall_app. split; auto. constructor; [split; auto|auto].
        -- cbn. lia.
        -- auto.
      * cbn [app] in R. destruct (next_queue d f (b ++ c) LI R) as (N1 & N2). rewrite N1 in E.
        pose proof (Forall_inv QB) as B1. pose proof (Forall_inv_tail QB) as QB2. cbv beta in B1. destruct (fc_out f) as [q|] eqn:EF; [|contradiction]. clear B1.
        cbn [is_none negb orb andb] in E. destruct (Z.eqb_spec (fc_ret f) 0) as [E0|N0]; cbn [negb] in E.
        2:{ injection E as _ _ _ <-. rewrite errs_app in ER. apply app_eq_nil in ER. destruct ER. discriminate. }
        destruct (pop_pic s d q f LI EO (eq_sym N1) E0 EF evs) as (d3 & e3 & PP & RT). cbv zeta in PP. rewrite PP in E. cbn [obind] in E.
        destruct (ring_facts s d d3 e3 LI OP EO EC RT) as (LI3 & OP3 & IN3 & _ & _ & CE3). rewrite N1, E0 in CE3.
        destruct (ring_take_fc s d d3 e3 I EO EC RT) as (G1 & G2 & _). rewrite N1 in G1.
        destruct (output_picture_ready s false d3) as [rdy d4] eqn:EY.
        pose proof (opr_inv _ _ _ _ _ EY LI3) as LI4. destruct (opr_ok _ _ _ _ _ EY) as (Q1 & _ & Q3).
        destruct rdy.
        { destruct (output_image o s d4) as [[[? ?] ?]|] eqn:EI; [|discriminate]. cbn [obind] in E. injection E as -> <- <- <-.
          rewrite takes_app in TK. apply app_eq_nil in TK. destruct TK as (_ & T). apply image_takes in EI. contradiction. }
        destruct (Q3 eq_refl) as (Q4 & Q5 & _).
        assert (K4 : d_in d4 = None /\ op_ok s d4 /\ d_cached_error d4 = 0 /\ d_fc d4 = d_fc d3 /\ d_next d4 = d_next d3).
        { destruct Q1 as [->|(x & _ & _ & _ & ->)]; (split; [dsimp; congruence|]; split; [exact OP3|]; auto). }
        destruct K4 as (K1 & K2 & K3 & K5 & K6).
        refine (IH _ _ _ _ _ _ [] b (c ++ [mkFctx 0 (fc_err f) None]) NF LI4 K2 K1 Q5 K3 _ _ _ E ER TK).
        -- unfold queue. rewrite K5, K6, G1, G2. specialize (N2 (mkFctx 0 (fc_err f) None) d). dsimp. rewrite N2. cbn [app].
           rewrite app_assoc. split; [reflexivity|]. split; [auto|]. split; [auto|]. apply Forall_app. split; auto. constructor; [split; reflexivity|auto].
        -- cbn in LN |- *. lia.
        -- auto.
    + cbn [app] in R. destruct (next_queue d f (a ++ b ++ c) LI R) as (N1 & N2). rewrite N1 in E.
      destruct (Forall_inv QA) as (A1 & A2 & A3). pose proof (Forall_inv_tail QA) as QA2.
      destruct dr; [specialize (DR eq_refl); discriminate|]. rewrite A1, A2, A3 in E. cbn [is_none negb orb andb Z.eqb] in E.
      refine (IH _ _ _ _ _ _ a b (c ++ [f]) NF (RT0 f N1 A1 A2) OP IN EO EC _ _ _ E ER TK).
      * unfold queue. dsimp. specialize (N2 f d). rewrite (SAME f N1) in N2. dsimp. rewrite N2. rewrite !app_assoc. split; [reflexivity|].
        split; [auto|]. split; [auto|]. apply Forall_app. split; auto. constructor; [split; auto|auto].
      * cbn in LN. lia.
      * discriminate.
Qed.
(** Without knowing how the slots are used. *)
Lemma drain_top : forall n dr d evs p d1 e, s_n_fc s <> 1 -> live_inv s d -> op_ok s d -> d_in d = None -> d_out d = None -> d_cached_error d = 0 ->
  drain_loop n o s dr d evs = Ok (EAGAIN_, p, d1, e) -> errs e = [] -> takes e = [] ->
  d_in d1 = None /\ d_out d1 = None /\ (top s d1 = 0 \/ d_cache d1 = None).
Proof.
  intros n. induction n as [|n IH]; intros dr d evs p d1 e NF LI OP IN EO EC E ER TK; cbn [drain_loop] in E.
  - destruct (end_again _ _ _ _ _ E TK EO) as (-> & T). auto.
  - pose proof LI as (I & J). pose proof (inv_next _ _ I) as HN.
    replace (d_next d <? length (d_fc d))%nat with true in E by (symmetry; apply Nat.ltb_lt; exact HN).
    cbv zeta in E. remember (nth (d_next d) (d_fc d) fctx0) as f eqn:Ef.
    destruct (_ && dr); [destruct (end_again _ _ _ _ _ E TK EO) as (-> & T); auto|].
    destruct (Z.eqb_spec (fc_ret f) 0) as [E0|N0]; cbn [negb] in E.
    2:{ injection E as _ _ _ <-. rewrite errs_app in ER. apply app_eq_nil in ER. destruct ER. discriminate. }
    destruct (fc_out f) as [q|] eqn:EF.
    + destruct (pop_pic s d q f LI EO Ef E0 EF evs) as (d3 & e3 & PP & RT). cbv zeta in PP. rewrite PP in E. cbn [obind] in E.
      destruct (ring_facts s d d3 e3 LI OP EO EC RT) as (LI3 & OP3 & IN3 & _ & _ & CE3). rewrite <- Ef, E0 in CE3.
      destruct (output_picture_ready s false d3) as [rdy d4] eqn:EY.
      pose proof (opr_inv _ _ _ _ _ EY LI3) as LI4. destruct (opr_ok _ _ _ _ _ EY) as (Q1 & _ & Q3).
      destruct rdy.
      { destruct (output_image o s d4) as [[[? ?] ?]|] eqn:EI; [|discriminate]. cbn [obind] in E. injection E as -> <- <- <-.
        rewrite takes_app in TK. apply app_eq_nil in TK. destruct TK as (_ & T). apply image_takes in EI. contradiction. }
      destruct (Q3 eq_refl) as (Q4 & Q5 & _).
      assert (K4 : d_in d4 = None /\ op_ok s d4 /\ d_cached_error d4 = 0).
      { destruct Q1 as [->|(x & _ & _ & _ & ->)]; (split; [dsimp; congruence|]; split; [exact OP3|]; auto). }
      destruct K4 as (K1 & K2 & K3). refine (IH _ _ _ _ _ _ NF LI4 K2 K1 Q5 K3 E ER TK).
    + assert (RT : ring_take s d = Ok (w_next (ring_next s d) d, [])).
      { unfold ring_take. replace (d_next d <? length (d_fc d))%nat with true by (symmetry; apply Nat.ltb_lt; exact HN).
        cbv zeta. rewrite <- Ef, E0, EF. reflexivity. }
      destruct (ring_facts s d _ [] LI OP EO EC RT) as (LI3 & _). refine (IH _ _ _ _ _ _ NF LI3 OP IN EO EC E ER TK).
Qed.
End Drain.

Section Get.
Variables (o : oracle) (s : settings).
Hypothesis (NF : 1 <= s_n_fc s).
Lemma parse_again : forall r e, r = EAGAIN_ -> last_parse r e -> (forall b m sid, ~ In (EvParse b m EAGAIN_ sid) e) -> False.
Proof.
  intros r e -> L H. destruct L as (pre & b & m & sid & post & -> & _); [reflexivity|]. apply (H b m sid).
  apply in_or_app. right. left. reflexivity.
Qed.
(** All input has been read and no picture is ready. *)
Theorem get_again : forall d p d1 e, live o s d -> get_picture o s d = Ok (EAGAIN_, p, d1, e) -> no_error e ->
  d_in d1 = None /\ d_out d1 = None /\
  (s_n_fc s = 1 \/ d_drain d = true -> top s d1 = 0 \/ d_cache d1 = None) /\
  (s_n_fc s <> 1 -> d_drain d = true ->
   (forall r d2 e2, gen_picture o s (w_drain true d) = Ok (r, d2, e2) -> (forall x, In x e2 -> In x e) -> exists a b c, queue d2 a b c) ->
   Forall empty_fc (d_fc d1)).
Proof.
  intros d p d1 e L E (ER & TK & NP). destruct (live_ok o s d NF L) as (LI & OP). pose proof LI as (I & J).
  destruct (inv_pending _ _ I) as (P1 & P2). unfold get_picture in E. cbv zeta in E.
  destruct (gen_ok o s (w_drain true d)) as (r & d2 & e2 & X1 & XS & XP & XL & X2 & X3 & X4 & X5 & X6 & X7).
  { split; [|exact J]. apply (inv_eq s d _ I); auto. }
  { exact OP. }
  rewrite X1 in E. cbn [obind] in E.
  assert (SUB : forall x, In x e2 -> In x e).
  { clear X6 X7. intros x H. destruct (r <? 0); [injection E as _ _ _ <-; auto|].
    destruct (negb _); [injection E as _ _ _ <-; apply in_or_app; auto|].
    set (e3 := if (s_n_fc s =? 1) && is_none (d_out d2) then e2 ++ [EvCut] else e2) in *.
    assert (H3 : In x e3) by (subst e3; destruct (_ && _); auto; apply in_or_app; auto).
    clearbody e3. destruct (output_picture_ready _ _ d2) as [[] d3].
    - destruct (output_image o s d3) as [[[? ?] ?]|]; [|discriminate]. cbn [obind] in E. injection E as _ _ _ <-. apply in_or_app; auto.
    - destruct (_ && _); [|injection E as _ _ <-; auto].
      destruct (drain_picture o s d3) as [[[[? ?] ?] ?]|]; [|discriminate]. cbn [obind] in E. injection E as _ _ _ <-. apply in_or_app; auto. }
  destruct (Z.ltb_spec r 0) as [LT|GE].
  { injection E as -> _ <- <-. exfalso. eapply (parse_again EAGAIN_ e2); [reflexivity|exact XL|]. intros b m sid H. apply (NP b m sid), SUB, H. }
  destruct (Z.eqb_spec (d_cached_error d2) 0) as [CE|CE]; cbn [negb] in E.
  2:{ injection E as _ _ _ <-. rewrite errs_app in ER. apply app_eq_nil in ER. destruct ER. discriminate. }
  assert (IN2 : fst (output_picture_ready s (s_n_fc s =? 1) d2) = false -> d_in d2 = None).
  { intros Y. destruct (d_in d2) as [x|]; auto. assert (N : Some x <> None) by discriminate. specialize (X6 N). revert X6 Y.
    unfold output_picture_ready. rewrite CE. cbn [Z.eqb negb]. destruct (one_layer s d2); [destruct (d_out d2); destruct (d_cache d2); try destruct (_ || _)|];
      cbn [fst]; intros A B; congruence. }
  destruct (output_picture_ready s (s_n_fc s =? 1) d2) as [rdy d3] eqn:EY. cbn [fst] in IN2.
  set (e3 := if (s_n_fc s =? 1) && is_none (d_out d2) then e2 ++ [EvCut] else e2) in *. clearbody e3.
  destruct (opr_ok _ _ _ _ _ EY) as (Q1 & _ & Q3). destruct rdy.
  { destruct (output_image o s d3) as [[[? ?] ?]|] eqn:EI; [|discriminate]. cbn [obind] in E. injection E as -> <- <- <-.
    rewrite takes_app in TK. apply app_eq_nil in TK. destruct TK as (_ & T). apply image_takes in EI. contradiction. }
  specialize (IN2 eq_refl). destruct (Q3 eq_refl) as (Q4 & Q5 & _).
  assert (K3 : d_in d3 = None /\ op_ok s d3 /\ d_cached_error d3 = 0 /\ d_fc d3 = d_fc d2 /\ d_next d3 = d_next d2).
  { destruct Q1 as [->|(x & _ & _ & _ & ->)]; auto. }
  destruct K3 as (K1 & K2 & K4 & K5 & K6).
  destruct (Z.eqb_spec (s_n_fc s) 1) as [N1|N1]; cbn [negb andb] in E.
  - injection E as _ <- _. split; [auto|]. split; [auto|]. split; [|contradiction]. intros _.
    assert (EO : d_out d2 = None).
    { destruct X7 as [X7|X7]; auto. exfalso. revert X7 EY. unfold output_picture_ready. rewrite CE. cbn [Z.eqb negb].
      destruct (one_layer s d2); [destruct (d_out d2); destruct (d_cache d2); try destruct (_ || _)|]; intros A B; congruence. }
    destruct (not_ready _ _ _ EY EO) as (-> & T). exact T.
  - destruct (d_drain d) eqn:ED.
    + unfold drain_picture in E. destruct (drain_loop _ o s false d3 []) as [[[[r4 p4] d4] e4]|] eqn:EL; [|discriminate]. cbn [obind] in E.
      injection E as -> <- <- <-. rewrite takes_app in TK. apply app_eq_nil in TK. destruct TK as (_ & TK).
      rewrite errs_app in ER. apply app_eq_nil in ER. destruct ER as (_ & ER).
      pose proof (opr_inv _ _ _ _ _ EY X2) as LI3.
      destruct (drain_top _ _ _ _ _ _ _ _ _ N1 LI3 K2 K1 Q5 K4 EL ER TK) as (T1 & T2 & T3).
      split; [auto|]. split; [auto|]. split; [auto|]. intros _ _ HQ. destruct (HQ _ _ _ X1 SUB) as (a & b & c & (Q & QA & QB & QC)).
      assert (QD : queue d3 a b c) by (unfold queue; rewrite K5, K6; auto).
      refine (proj2 (proj2 (proj2 (drain_again _ _ _ _ _ _ _ _ _ a b c N1 LI3 K2 K1 Q5 K4 QD _ _ EL ER TK)))).
      * apply (f_equal (@length _)) in Q. rewrite length_rot, !app_length in Q. destruct X2 as (I2 & _). pose proof (inv_fc _ _ I2). lia.
      * discriminate.
    + injection E as _ <- _. split; [auto|]. split; [auto|]. split; [|discriminate]. intros [X|X]; [contradiction|discriminate].
Qed.
End Get.

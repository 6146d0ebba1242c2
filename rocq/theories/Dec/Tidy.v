(** A caller that only drains at the end gets everything. *)
From Coq Require Import ZArith List Bool Lia.
From Verif Require Import Base.CInt Obu.SeqModel Obu.FrameModel Dec.State Dec.Submit Dec.ObuModel
  Dec.LibModel Dec.Inv Dec.Step Dec.OutSpec Dec.Micro Dec.Parse Dec.Api Dec.Trace Dec.Fifo Dec.Session Dec.Runs Dec.Again.
Import ListNotations.
Open Scope Z_scope.

Definition no_refuse (e : list ev) : Prop := forall h r, ~ In (EvRefuse h r) e.
Lemma no_refuse_app : forall a b, no_refuse (a ++ b) -> no_refuse a /\ no_refuse b.
Proof. intros a b H. split; intros h r X; apply (H h r), in_or_app; auto. Qed.
(** No slot was emptied by draining. *)
Definition tidy (d : dec) : Prop := exists a b, queue d a b [].
Definition orderly (d : dec) : Prop := tidy d \/ d_in d = None /\ exists a b c, queue d a b c.
Lemma tidy_eq : forall d d1, d_fc d1 = d_fc d -> d_next d1 = d_next d -> tidy d -> tidy d1.
Proof. intros d d1 E1 E2 (a & b & H). exists a, b. unfold queue. rewrite E1, E2. exact H. Qed.

Section T.
Variables (o : oracle) (s : settings).
Hypothesis (NF : s_n_fc s <> 1).
Lemma parse_tidy : forall buf m d r d1 e, dec_inv s d -> d_out d = None -> d_cached_error d = 0 -> Forall is_byte buf -> 0 < zlen buf ->
  parse_obus o s buf m d = Ok (r, d1, e) -> no_refuse e -> tidy d -> tidy d1.
Proof.
  intros buf m d r d1 e I EO EC HB HL E NR T.
  destruct (parse_round o s buf m d r d1 e I EO EC NF HB HL E) as [((N1 & N2 & _) & _)|(g & (R1 & R2 & _) & (_ & G) & _)].
  - eapply tidy_eq; eauto.
  - assert (FG : fc_out g <> None) by (intros Y; destruct (G Y) as (h & x & H); exact (NR h x H)).
    destruct T as (a & b & (Q & QA & QB & _)). rewrite app_nil_r in Q. pose proof (inv_next _ _ I) as HN.
    assert (RR : rot (d_fc d1) (d_next d1) = tl (a ++ b) ++ [g]).
    { rewrite R1, R2, ring_next_after by apply (inv_fc _ _ I). rewrite rot_upd by auto. f_equal.
      rewrite <- Q, (rot_cons _ _ _ fctx0 HN). reflexivity. }
    destruct a as [|f a].
    + exists [], (tl b ++ [g]). unfold queue. rewrite RR, app_nil_r. split; [reflexivity|]. split; [auto|]. split; [|auto].
      apply Forall_app. split; [|auto]. destruct b; [auto|]. apply (Forall_inv_tail QB).
    + exists a, (b ++ [g]). unfold queue. rewrite RR, app_nil_r. cbn [app tl]. rewrite app_assoc. split; [reflexivity|].
      split; [apply (Forall_inv_tail QA)|]. split; [|auto]. apply Forall_app. auto.
Qed.
Lemma opr_same : forall b d r d1, output_picture_ready s b d = (r, d1) -> d_fc d1 = d_fc d /\ d_next d1 = d_next d /\ d_in d1 = d_in d.
Proof. intros b d r d1 H. destruct (opr_ok _ _ _ _ _ H) as ([->|(p & _ & _ & _ & ->)] & _); auto. Qed.
Lemma gen_loop_tidy : forall fuel d evs r d1 e, live_inv s d -> op_ok s d -> d_out d = None -> d_cached_error d = 0 ->
  gen_loop fuel o s d evs = Ok (r, d1, e) -> no_refuse e -> tidy d -> tidy d1 /\ no_refuse evs.
Proof.
  intros fuel. induction fuel as [|fuel IH]; intros d evs r d1 e (I & J) OP EO EC E NR T; cbn [gen_loop] in E.
  - destruct (d_in d) as [[buf m]|]; [discriminate|]. injection E as _ <- <-. auto.
  - destruct (d_in d) as [[buf m]|] eqn:EI; [|injection E as _ <- <-; auto].
    destruct (J buf m EI) as (HB & HL).
    destruct (parse_obus_ok o s buf m d I EO HB HL) as (r2 & d2 & e2 & X & I2 & _ & RR & OO).
    destruct (parse_keeps o s buf m d r2 d2 e2 I EO HB HL X) as (K1 & K2 & K3 & K4). specialize (K1 OP).
    rewrite X in E. cbn [obind] in E.
    set (evs2 := evs ++ EvParse buf m r2 (d_max_sid d2) :: e2) in *.
    destruct (if r2 <? 0 then _ else _) as [d3|] eqn:ED; [|discriminate]. cbn [obind] in E.
    assert (K : d3 = w_in (rest r2 buf m) d2 /\ live_inv s d3).
    { destruct (inv_pending _ _ I2) as (P1 & P2). unfold rest.
      assert (IW : forall nin, dec_inv s (w_in nin d2)) by (intros nin; apply (inv_eq s d2 _ I2); auto).
      destruct (Z.ltb_spec r2 0) as [LT|GE]; cbn [orb].
      - injection ED as <-. split; [reflexivity|]. split; [apply IW|intros b m' Y; discriminate].
      - destruct RR as [RR|RR]; [lia|]. replace (r2 <=? zlen buf) with true in ED by lia. injection ED as <-. split; [reflexivity|].
        destruct (Z.eqb_spec r2 (zlen buf)) as [EQ|NE].
        + split; [apply IW|intros b m' Y; discriminate].
        + destruct (firstn_skipn_bytes buf r2 HB ltac:(lia)) as (S1 & S2 & S3).
          split; [apply IW|intros b m' Y; dsimp; injection Y as <- <-; auto]. }
    destruct K as (K5 & LI3).
    assert (T3 : no_refuse e2 -> tidy d3).
    { intros N2. apply (tidy_eq d2); [subst d3; reflexivity|subst d3; reflexivity|]. apply (parse_tidy buf m d r2 d2 e2); auto. }
    assert (OP3 : op_ok s d3) by (subst d3; exact K1). clear ED K5.
    destruct (output_picture_ready s false d3) as [rdy d4] eqn:ER. destruct (opr_same _ _ _ _ ER) as (S1 & S2 & S3).
    destruct (opr_ok _ _ _ _ _ ER) as (Q1 & Q2 & Q3). pose proof (opr_inv _ _ _ _ _ ER LI3) as LI4.
    assert (FIN : no_refuse evs2 -> tidy d4 /\ no_refuse evs).
    { intros N. apply no_refuse_app in N. destruct N as (N1 & N2). split; auto. apply (tidy_eq d3); auto. apply T3.
      intros h x Y. apply (N2 h x). right. exact Y. }
    destruct rdy; [injection E as _ <- <-; auto|]. destruct (r2 <? 0); [injection E as _ <- <-; auto|].
    destruct (Q3 eq_refl) as (Q4 & Q5 & _).
    assert (OP4 : op_ok s d4 /\ d_cached_error d4 = 0) by (destruct Q1 as [->|(p & _ & _ & _ & ->)]; auto).
    destruct OP4 as (OP4 & CE4).
    assert (AA : no_refuse evs2).
    { clearbody evs2. clear - E NR. revert d4 evs2 E. induction fuel as [|fuel IH]; intros d evs E; cbn [gen_loop] in E.
      - destruct (d_in d) as [[? ?]|]; [discriminate|]. injection E as _ _ <-. auto.
      - destruct (d_in d) as [[b m]|]; [|injection E as _ _ <-; auto].
        destruct (parse_obus o s b m d) as [[[r2 d2] e2]|]; [|discriminate]. cbn [obind] in E.
        destruct (if r2 <? 0 then _ else _) as [d3|]; [|discriminate]. cbn [obind] in E.
        destruct (output_picture_ready s false d3) as [rdy d4].
        destruct rdy; [injection E as _ _ <-; apply no_refuse_app in NR; apply NR|].
        destruct (r2 <? 0); [injection E as _ _ <-; apply no_refuse_app in NR; apply NR|].
        specialize (IH _ _ E). apply no_refuse_app in IH. apply IH. }
    destruct (FIN AA) as (F1 & F2). split; [|exact F2].
    apply (IH d4 evs2 r d1 e LI4 OP4 Q5 CE4 E NR F1).
Qed.
Lemma gen_tidy : forall d r d1 e, live_inv s d -> op_ok s d -> gen_picture o s d = Ok (r, d1, e) -> no_refuse e ->
  (tidy d -> tidy d1) /\ (d_in d = None -> d_in d1 = None /\ d_fc d1 = d_fc d /\ d_next d1 = d_next d).
Proof.
  intros d r d1 e LI OP E NR. unfold gen_picture in E. destruct (output_picture_ready s false d) as [rdy d2] eqn:ER.
  destruct (opr_same _ _ _ _ ER) as (S1 & S2 & S3). pose proof (opr_inv _ _ _ _ _ ER LI) as LI2. destruct (opr_ok _ _ _ _ _ ER) as (Q1 & Q2 & Q3).
  destruct rdy.
  - injection E as _ <- _. split; [apply tidy_eq; auto|]. intros IN. rewrite S3. auto.
  - destruct (Q3 eq_refl) as (Q4 & Q5 & _).
    assert (OP4 : op_ok s d2 /\ d_cached_error d2 = 0) by (destruct Q1 as [->|(p & _ & _ & _ & ->)]; auto).
    destruct OP4 as (OP4 & CE4). split.
    + intros T. eapply gen_loop_tidy; eauto. apply (tidy_eq d); auto.
    + intros IN. rewrite S3, IN in E. cbn [gen_loop] in E. rewrite S3, IN in E. injection E as _ <- _. rewrite S3. auto.
Qed.
(** Draining. *)
Lemma image_same : forall d r p d1, output_image o s d = Ok (r, p, d1) -> d_fc d1 = d_fc d /\ d_next d1 = d_next d.
Proof.
  intros d r p d1 H. unfold output_image in H. destruct (source s d); [|discriminate]. destruct (if _ || _ then _ else _). injection H as _ _ <-.
  destruct (one_layer s d); auto.
Qed.
Lemma end_same : forall d evs r p d1 e, drain_end o s d evs = Ok (r, p, d1, e) -> d_fc d1 = d_fc d /\ d_next d1 = d_next d.
Proof.
  intros d evs r p d1 e H. unfold drain_end in H. destruct (output_picture_ready s true d) as [rdy d2] eqn:ER.
  destruct (opr_same _ _ _ _ ER) as (S1 & S2 & _). destruct rdy; [|injection H as _ _ <- _; auto].
  destruct (output_image o s d2) as [[[r2 p2] d3]|] eqn:EI; [|discriminate]. cbn [obind] in H. injection H as _ _ <- _.
  destruct (image_same _ _ _ _ EI). split; congruence.
Qed.
Lemma queue_eq : forall d d1 a b c, d_fc d1 = d_fc d -> d_next d1 = d_next d -> queue d a b c -> queue d1 a b c.
Proof. intros d d1 a b c E1 E2 H. unfold queue. rewrite E1, E2. exact H. Qed.
(** The head goes to the end. *)
Lemma queue_pop : forall d d1 g a b c, live_inv s d -> queue d a b c -> done_fc g -> (a <> [] -> g = nth (d_next d) (d_fc d) fctx0) ->
  d_fc d1 = upd_nth (d_fc d) (d_next d) g -> d_next d1 = ring_next s d -> exists a b c, queue d1 a b c.
Proof.
  intros d d1 g a b c LI (R & QA & QB & QC) G GA F1 F2.
  assert (RR : rot (d_fc d1) (d_next d1) = tl (a ++ b ++ c) ++ [g]).
  { destruct LI as (I & _). pose proof (inv_next _ _ I) as HN. rewrite F1, F2, ring_next_after by apply (inv_fc _ _ I). rewrite rot_upd by auto. f_equal.
    rewrite <- R, (rot_cons _ _ _ fctx0 HN). reflexivity. }
  assert (QG : Forall done_fc [g]) by auto. unfold queue. rewrite RR. destruct a as [|f a].
  - destruct b as [|f b].
    + exists [], [], (tl c ++ [g]). cbn [app]. split; [reflexivity|]. split; [auto|]. split; [auto|]. apply Forall_app. split; auto.
      destruct c; [auto|]. apply (Forall_inv_tail QC).
    + exists [], b, (c ++ [g]). cbn [app tl]. rewrite app_assoc. split; [reflexivity|]. split; [auto|]. split; [apply (Forall_inv_tail QB)|].
      apply Forall_app. auto.
  - exists a, b, (c ++ [g]). cbn [app tl]. rewrite !app_assoc. split; [reflexivity|]. split; [apply (Forall_inv_tail QA)|]. split; [auto|].
    apply Forall_app. auto.
Qed.
Lemma drain_queue : forall n dr d evs r p d1 e a b c, live_inv s d -> op_ok s d -> d_in d = None -> d_out d = None -> d_cached_error d = 0 ->
  queue d a b c -> drain_loop n o s dr d evs = Ok (r, p, d1, e) -> exists a b c, queue d1 a b c.
Proof.
  intros n. induction n as [|n IH]; intros dr d evs r p d1 e a b c LI OP IN EO EC Q E; cbn [drain_loop] in E.
  - destruct (end_same _ _ _ _ _ _ E). exists a, b, c. eapply queue_eq; eauto.
  - pose proof LI as (I & J). pose proof (inv_next _ _ I) as HN.
    replace (d_next d <? length (d_fc d))%nat with true in E by (symmetry; apply Nat.ltb_lt; exact HN).
    cbv zeta in E. remember (nth (d_next d) (d_fc d) fctx0) as f eqn:Ef.
    destruct (_ && dr); [destruct (end_same _ _ _ _ _ _ E); exists a, b, c; eapply queue_eq; eauto|].
    assert (HD : forall x l, a = x :: l -> f = x).
    { intros x l ->. destruct Q as (R & _). rewrite (rot_cons _ _ _ fctx0 HN), <- Ef in R. injection R; auto. }
    assert (HA : a <> [] -> quiet_fc f).
    { intros NA. destruct a as [|x a]; [contradiction|]. rewrite (HD x a eq_refl). destruct Q as (_ & QA & _). apply (Forall_inv QA). }
    assert (QP : forall d2, d_fc d2 = upd_nth (d_fc d) (d_next d) (mkFctx 0 (fc_err f) None) -> d_next d2 = ring_next s d ->
       exists a b c, queue d2 a b c).
    { intros d2 F1 F2. apply (queue_pop d d2 (mkFctx 0 (fc_err f) None) a b c); auto; [split; reflexivity|].
      intros NA. destruct (HA NA) as (A1 & A2 & A3). rewrite <- Ef. destruct f as [x y z]. cbn in *. subst. reflexivity. }
    destruct (Z.eqb_spec (fc_ret f) 0) as [E0|N0]; cbn [negb] in E.
    2:{ injection E as _ _ <- _. apply QP; reflexivity. }
    destruct (fc_out f) as [q|] eqn:EF.
    + destruct (pop_pic s d q f LI EO Ef E0 EF evs) as (d3 & e3 & PP & RT). cbv zeta in PP. rewrite PP in E. cbn [obind] in E.
      destruct (ring_facts s d d3 e3 LI OP EO EC RT) as (LI3 & OP3 & IN3 & _ & _ & CE3). rewrite <- Ef, E0 in CE3.
      destruct (ring_take_fc s d d3 e3 I EO EC RT) as (G1 & G2 & _). rewrite <- Ef in G1.
      destruct (QP d3 G1 G2) as (a3 & b3 & c3 & Q3').
      destruct (output_picture_ready s false d3) as [rdy d4] eqn:EY. destruct (opr_same _ _ _ _ EY) as (S1 & S2 & S3).
      pose proof (opr_inv _ _ _ _ _ EY LI3) as LI4. destruct (opr_ok _ _ _ _ _ EY) as (Q1 & _ & Q3).
      destruct rdy.
      { destruct (output_image o s d4) as [[[? ?] ?]|] eqn:EI; [|discriminate]. cbn [obind] in E. injection E as _ _ <- _.
        destruct (image_same _ _ _ _ EI). exists a3, b3, c3. eapply queue_eq; [| |exact Q3']; congruence. }
      destruct (Q3 eq_refl) as (Q4 & Q5 & _).
      assert (K4 : op_ok s d4 /\ d_cached_error d4 = 0) by (destruct Q1 as [->|(x & _ & _ & _ & ->)]; auto).
      destruct K4 as (K2 & K3). refine (IH _ _ _ _ _ _ _ a3 b3 c3 LI4 K2 _ Q5 K3 _ E); [congruence|eapply queue_eq; [| |exact Q3']; auto].
    + assert (RT : ring_take s d = Ok (w_next (ring_next s d) d, [])).
      { unfold ring_take. replace (d_next d <? length (d_fc d))%nat with true by (symmetry; apply Nat.ltb_lt; exact HN).
        cbv zeta. rewrite <- Ef, E0, EF. reflexivity. }
      destruct (ring_facts s d _ [] LI OP EO EC RT) as (LI3 & _).
      destruct (QP (w_next (ring_next s d) d)) as (a3 & b3 & c3 & Q3'); [|reflexivity|].
      { symmetry. apply upd_self with (d := fctx0); [exact HN|]. change (nth (d_next d) (d_fc d) fctx0 = mkFctx 0 (fc_err f) None). rewrite <- Ef. destruct f as [x y z]. cbn in *. subst. reflexivity. }
      refine (IH _ _ _ _ _ _ _ a3 b3 c3 LI3 OP IN EO EC Q3' E).
Qed.

(** ** Calls *)
Lemma send_tidy : forall pkt d r t d1 e, live_inv s d -> op_ok s d -> call_ok (Send pkt) -> send_data o s pkt d = Ok (r, t, d1, e) -> no_refuse e ->
  tidy d -> tidy d1.
Proof.
  intros pkt d r t d1 e LI OP HC ES NR T. unfold send_data in ES.
  destruct (match pkt with Some _ => _ | None => _ end) eqn:EZ; [injection ES as <- <- <- <-; auto|].
  set (dd := match pkt with Some _ => w_drain false d | None => d end) in *.
  assert (SD : d_fc dd = d_fc d /\ d_next dd = d_next d) by (subst dd; destruct pkt; auto). destruct SD as (D1 & D2).
  destruct (d_in dd) eqn:EI; [injection ES as <- <- <- <-; apply (tidy_eq d); auto|].
  assert (L2 : live_inv s (w_in pkt dd) /\ op_ok s (w_in pkt dd)).
  { destruct LI as (I & J). destruct (inv_pending _ _ I) as (P1 & P2). subst dd. split; [split|].
    - destruct pkt; apply (inv_eq s d _ I); auto.
    - intros buf m Y. dsimp. subst pkt. split; [exact HC|]. assert (0 <= zlen buf) by (unfold zlen; lia). lia.
    - destruct pkt; exact OP. }
  destruct L2 as (L2 & O2). destruct (gen_picture o s (w_in pkt dd)) as [[[r3 d3] e3]|] eqn:EG; [|discriminate].
  cbn [obind] in ES. injection ES as <- <- <- <-. apply no_refuse_app in NR. destruct NR as (_ & NR).
  destruct (gen_tidy _ _ _ _ L2 O2 EG NR) as (G & _). apply G. apply (tidy_eq d); auto.
Qed.
Lemma get_tidy : forall d r p d1 e, live_inv s d -> op_ok s d -> get_picture o s d = Ok (r, p, d1, e) -> no_refuse e ->
  (tidy d -> d_drain d = false -> tidy d1) /\ (orderly d -> orderly d1).
Proof.
  intros d r p d1 e LI OP ES NR. unfold get_picture in ES. cbv zeta in ES.
  assert (L2 : live_inv s (w_drain true d)).
  { destruct LI as (I & J). destruct (inv_pending _ _ I) as (P1 & P2). split; [|exact J]. apply (inv_eq s d _ I); auto. }
  destruct (gen_ok o s _ L2 OP) as (r3 & d3 & e3 & X1 & XS & X3 & XL & LI3 & OP3 & X5 & X6 & X7 & X8).
  rewrite X1 in ES. cbn [obind] in ES.
  assert (FIN : no_refuse e3 -> (tidy d -> tidy d3) /\ (orderly d -> tidy d3 \/ d_in d3 = None /\ exists a b c, queue d3 a b c)).
  { intros N. destruct (gen_tidy _ _ _ _ L2 OP X1 N) as (G1 & G2). assert (T : tidy d -> tidy d3) by (intros T; apply G1, (tidy_eq d); auto).
    split; [exact T|]. intros [H|(H1 & a & b & c & H2)]; [auto|]. right. destruct (G2 H1) as (K1 & K2 & K3). split; [exact K1|].
    exists a, b, c. eapply queue_eq; [| |exact H2]; [rewrite K2|rewrite K3]; reflexivity. }
  assert (MV : forall d4, d_fc d4 = d_fc d3 -> d_next d4 = d_next d3 -> d_in d4 = d_in d3 ->
     (tidy d -> tidy d3) /\ (orderly d -> tidy d3 \/ d_in d3 = None /\ exists a b c, queue d3 a b c) ->
     (tidy d -> d_drain d = false -> tidy d4) /\ (orderly d -> orderly d4)).
  { intros d4 M1 M2 M3 (F1 & F2). split; [intros T _; apply (tidy_eq d3); auto|]. intros T. destruct (F2 T) as [H|(H1 & a & b & c & H2)].
    - left. apply (tidy_eq d3); auto.
    - right. split; [congruence|]. exists a, b, c. eapply queue_eq; eauto. }
  destruct (r3 <? 0); [injection ES as <- <- <- <-; apply MV; auto|].
  destruct (Z.eqb_spec (d_cached_error d3) 0) as [CE|CE]; cbn [negb] in ES.
  2:{ injection ES as <- <- <- <-. apply no_refuse_app in NR. apply MV; auto. apply FIN, NR. }
  destruct (Z.eqb_spec (s_n_fc s) 1) as [N1|N1]; [contradiction|]. cbn [andb negb] in ES.
  destruct (output_picture_ready s false d3) as [rdy d4] eqn:ER. destruct (opr_same _ _ _ _ ER) as (S1 & S2 & S3).
  destruct (opr_ok _ _ _ _ _ ER) as (Q1 & Q2 & Q3). pose proof (opr_inv _ _ _ _ _ ER LI3) as LI4. destruct rdy.
  { destruct (output_image o s d4) as [[[r5 p5] d5]|] eqn:EI; [|discriminate]. cbn [obind] in ES. injection ES as <- <- <- <-.
    apply no_refuse_app in NR. destruct (image_same _ _ _ _ EI) as (I1 & I2). apply MV; try congruence; [|apply FIN, NR].
    revert EI. unfold output_image. destruct (source s d4); [|discriminate]. destruct (if _ || _ then _ else _). intros EI. injection EI as _ _ <-.
    destruct (one_layer s d4); exact S3. }
  destruct (d_drain d) eqn:ED.
  - destruct (drain_picture o s d4) as [[[[r5 p5] d5] e5]|] eqn:EP; [|discriminate]. cbn [obind] in ES. injection ES as <- <- <- <-.
    apply no_refuse_app in NR. destruct (FIN (proj1 NR)) as (F1 & F2). split; [discriminate|]. intros T.
    destruct (Q3 eq_refl) as (Q4 & Q5 & _).
    assert (K4 : op_ok s d4 /\ d_cached_error d4 = 0) by (destruct Q1 as [->|(x & _ & _ & _ & ->)]; auto).
    destruct K4 as (K2 & K3).
    assert (IN : d_in d3 = None).
    { destruct (d_in d3) as [x|] eqn:EI; auto. assert (N2 : Some x <> None) by discriminate. specialize (X7 N2). rewrite X7 in ER. discriminate. }
    assert (QQ : exists a b c, queue d4 a b c).
    { destruct (F2 T) as [(a & b & H)|(_ & a & b & c & H)]; [exists a, b, []|exists a, b, c]; eapply queue_eq; eauto. }
    destruct QQ as (a & b & c & QQ). right. unfold drain_picture in EP.
    assert (IN4 : d_in d4 = None) by congruence. split; [|eapply drain_queue; eauto].
    destruct (drain_ok o s (Z.to_nat (s_n_fc s)) false d4 [] NF IN4 LI4 K2 Q5 K3) as (r6 & p6 & d6 & e6 & Y & _ & _ & _ & _ & Y2 & _).
    rewrite EP in Y. injection Y as _ _ <- _. congruence.
  - injection ES as <- <- <- <-. apply MV; auto.
Qed.
(** A caller that drains finds everything. *)
Theorem get_empty : forall d p d1 e, 1 <= s_n_fc s -> live o s d -> orderly d -> d_drain d = true ->
  get_picture o s d = Ok (EAGAIN_, p, d1, e) -> no_error e -> no_refuse e -> Forall empty_fc (d_fc d1).
Proof.
  intros d p d1 e N1 L OD DR E NE NR. destruct (live_ok o s d N1 L) as (LI & OP).
  destruct (get_again o s N1 d p d1 e L E NE) as (_ & _ & _ & G). apply G; auto. intros r d2 e2 EG SUB.
  assert (L2 : live_inv s (w_drain true d)).
  { destruct LI as (I & J). destruct (inv_pending _ _ I) as (P1 & P2). split; [|exact J]. apply (inv_eq s d _ I); auto. }
  destruct (gen_tidy _ _ _ _ L2 OP EG) as (G1 & G2). { intros h x Y. apply (NR h x), SUB, Y. }
  destruct OD as [T|(IN & a & b & c & Q)].
  - destruct G1 as (a & b & Q); [apply (tidy_eq d); auto|]. exists a, b, []. exact Q.
  - destruct (G2 IN) as (_ & K1 & K2). exists a, b, c. eapply queue_eq; [| |exact Q]; auto.
Qed.
End T.

(** ** The drain flag *)
Section Flag.
Variables (o : oracle) (s : settings).
Lemma opr_flag : forall b d r d1, output_picture_ready s b d = (r, d1) -> d_drain d1 = d_drain d.
Proof. intros b d r d1 H. destruct (opr_ok _ _ _ _ _ H) as ([->|(p & _ & _ & _ & ->)] & _); reflexivity. Qed.
Lemma image_flag : forall d r p d1, output_image o s d = Ok (r, p, d1) -> d_drain d1 = d_drain d.
Proof.
  intros d r p d1 H. unfold output_image in H. destruct (source s d); [|discriminate]. destruct (if _ || _ then _ else _). injection H as _ _ <-.
  destruct (one_layer s d); reflexivity.
Qed.
Lemma gen_flag : forall d r d1 e, live_inv s d -> op_ok s d -> gen_picture o s d = Ok (r, d1, e) -> d_drain d1 = d_drain d.
Proof.
  assert (LP : forall fuel d evs r d1 e, live_inv s d -> op_ok s d -> d_out d = None -> d_cached_error d = 0 ->
    gen_loop fuel o s d evs = Ok (r, d1, e) -> d_drain d1 = d_drain d).
  { intros fuel. induction fuel as [|fuel IH]; intros d evs r d1 e (I & J) OP EO EC E; cbn [gen_loop] in E.
    - destruct (d_in d) as [[buf m]|]; [discriminate|]. injection E as _ <- <-. auto.
    - destruct (d_in d) as [[buf m]|] eqn:EI; [|injection E as _ <- <-; auto].
      destruct (J buf m EI) as (HB & HL).
      destruct (parse_obus_ok o s buf m d I EO HB HL) as (r2 & d2 & e2 & X & I2 & _ & RR & OO).
      destruct (parse_keeps o s buf m d r2 d2 e2 I EO HB HL X) as (K1 & K2 & K3 & K4). specialize (K1 OP).
      rewrite X in E. cbn [obind] in E. set (evs2 := evs ++ _) in E.
      destruct (if r2 <? 0 then _ else _) as [d3|] eqn:ED; [|discriminate]. cbn [obind] in E.
      assert (K : d_drain d3 = d_drain d2 /\ op_ok s d3 /\ live_inv s d3).
      { destruct (inv_pending _ _ I2) as (P1 & P2).
        assert (IW : forall nin, dec_inv s (w_in nin d2)) by (intros nin; apply (inv_eq s d2 _ I2); auto).
        destruct (Z.ltb_spec r2 0) as [LT|GE].
        - injection ED as <-. split; [reflexivity|]. split; [exact K1|]. split; [apply IW|intros b m' Y; discriminate].
        - destruct RR as [RR|RR]; [lia|]. replace (r2 <=? zlen buf) with true in ED by lia. injection ED as <-. split; [reflexivity|].
          split; [exact K1|]. destruct (Z.eqb_spec r2 (zlen buf)) as [EQ|NE].
          + split; [apply IW|intros b m' Y; discriminate].
          + destruct (firstn_skipn_bytes buf r2 HB ltac:(lia)) as (S1 & S2 & S3).
            split; [apply IW|intros b m' Y; dsimp; injection Y as <- <-; auto]. }
      destruct K as (D3 & OP3 & LI3). clear ED.
      destruct (output_picture_ready s false d3) as [rdy d4] eqn:ER. pose proof (opr_flag _ _ _ _ ER) as D4.
      destruct (opr_ok _ _ _ _ _ ER) as (Q1 & Q2 & Q3). pose proof (opr_inv _ _ _ _ _ ER LI3) as LI4.
      destruct rdy; [injection E as _ <- <-; congruence|]. destruct (r2 <? 0); [injection E as _ <- <-; congruence|].
      destruct (Q3 eq_refl) as (Q4 & Q5 & _).
      assert (OP4 : op_ok s d4 /\ d_cached_error d4 = 0) by (destruct Q1 as [->|(p & _ & _ & _ & ->)]; auto).
      destruct OP4 as (OP4 & CE4). rewrite (IH _ _ _ _ _ LI4 OP4 Q5 CE4 E). congruence. }
  intros d r d1 e LI OP E. unfold gen_picture in E. destruct (output_picture_ready s false d) as [rdy d2] eqn:ER.
  pose proof (opr_flag _ _ _ _ ER) as D2. pose proof (opr_inv _ _ _ _ _ ER LI) as LI2. destruct (opr_ok _ _ _ _ _ ER) as (Q1 & Q2 & Q3).
  destruct rdy; [injection E as _ <- _; auto|]. destruct (Q3 eq_refl) as (Q4 & Q5 & _).
  assert (OP4 : op_ok s d2 /\ d_cached_error d2 = 0) by (destruct Q1 as [->|(p & _ & _ & _ & ->)]; auto).
  destruct OP4 as (OP4 & CE4). rewrite (LP _ _ _ _ _ _ LI2 OP4 Q5 CE4 E). exact D2.
Qed.
Lemma send_drain : forall buf m d r t d1 e, live_inv s d -> op_ok s d -> Forall is_byte buf -> buf <> [] ->
  send_data o s (Some (buf, m)) d = Ok (r, t, d1, e) -> d_drain d1 = false.
Proof.
  intros buf m d r t d1 e LI OP HB NB ES. unfold send_data in ES.
  destruct (Z.eqb_spec (zlen buf) 0) as [Z0|Z0]; [destruct buf; [contradiction|unfold zlen in Z0; cbn in Z0; lia]|].
  change (d_in (w_drain false d)) with (d_in d) in ES. destruct (d_in d) eqn:EI; [injection ES as _ _ <- _; reflexivity|].
  destruct (gen_picture _ _ _) as [[[r3 d3] e3]|] eqn:EG; [|discriminate]. cbn [obind] in ES. injection ES as _ _ <- _.
  apply gen_flag in EG; [exact EG| |exact OP]. destruct LI as (I & J). destruct (inv_pending _ _ I) as (P1 & P2). split.
  - apply (inv_eq s d _ I); auto.
  - intros b m' Y. dsimp. injection Y as <- <-. split; auto. assert (0 <= zlen buf) by (unfold zlen; lia). lia.
Qed.
Lemma end_flag : forall d evs r p d1 e, drain_end o s d evs = Ok (r, p, d1, e) -> d_drain d1 = d_drain d.
Proof.
  intros d evs r p d1 e H. unfold drain_end in H. destruct (output_picture_ready s true d) as [rdy d2] eqn:ER. apply opr_flag in ER.
  destruct rdy; [|injection H as _ _ <- _; auto].
  destruct (output_image o s d2) as [[[r2 p2] d3]|] eqn:EI; [|discriminate]. cbn [obind] in H. injection H as _ _ <- _.
  apply image_flag in EI. congruence.
Qed.
Lemma drain_flag : forall n dr d evs r p d1 e, drain_loop n o s dr d evs = Ok (r, p, d1, e) -> d_drain d1 = d_drain d.
Proof.
  intros n. induction n as [|n IH]; intros dr d evs r p d1 e E; cbn [drain_loop] in E; [eapply end_flag; eauto|].
  destruct (_ <? _)%nat; [|discriminate]. cbv zeta in E. destruct (_ && dr); [eapply end_flag; eauto|].
  destruct (negb _); [injection E as _ _ <- _; reflexivity|].
  destruct (fc_out _) as [q|]; [|rewrite (IH _ _ _ _ _ _ _ E); reflexivity].
  set (f := nth _ _ _) in *.
  destruct (if _ && _ then _ else _) as [[d2 evs2]|] eqn:EP; [|discriminate]. cbn [obind] in E.
  assert (D2 : d_drain d2 = d_drain d).
  { clear E. revert EP. unfold put_out. dsimp. destruct (_ && _); [|intros EP; injection EP as <- _; reflexivity].
    destruct (is_none _); cbn [obind]; [|discriminate]. intros EP; injection EP as <- _; reflexivity. }
  destruct (output_picture_ready s false d2) as [rdy d3] eqn:ER. apply opr_flag in ER. destruct rdy.
  - destruct (output_image o s d3) as [[[? ?] ?]|] eqn:EI; [|discriminate]. cbn [obind] in E. injection E as _ _ <- _.
    apply image_flag in EI. congruence.
  - rewrite (IH _ _ _ _ _ _ _ E). congruence.
Qed.
Lemma get_flag : forall d r p d1 e, live_inv s d -> op_ok s d -> get_picture o s d = Ok (r, p, d1, e) -> d_drain d1 = true.
Proof.
  intros d r p d1 e LI OP ES. unfold get_picture in ES. cbv zeta in ES.
  destruct (gen_picture o s (w_drain true d)) as [[[r3 d3] e3]|] eqn:EG; [|discriminate]. cbn [obind] in ES.
  apply gen_flag in EG; [| |exact OP].
  2:{ destruct LI as (I & J). destruct (inv_pending _ _ I) as (P1 & P2). split; [|exact J]. apply (inv_eq s d _ I); auto. }
  change (d_drain (w_drain true d)) with true in EG.
  destruct (r3 <? 0); [injection ES as _ _ <- _; auto|]. destruct (negb _); [injection ES as _ _ <- _; auto|].
  set (e4 := if _ && _ then _ else _) in ES. clearbody e4.
  destruct (output_picture_ready _ _ d3) as [rdy d4] eqn:ER. apply opr_flag in ER. destruct rdy.
  - destruct (output_image o s d4) as [[[? ?] ?]|] eqn:EI; [|discriminate]. cbn [obind] in ES. injection ES as _ _ <- _.
    apply image_flag in EI. congruence.
  - destruct (_ && _); [|injection ES as _ _ <- _; congruence].
    destruct (drain_picture o s d4) as [[[[? ?] ?] ?]|] eqn:ED; [|discriminate]. cbn [obind] in ES. injection ES as _ _ <- _.
    unfold drain_picture in ED. apply drain_flag in ED. congruence.
Qed.
End Flag.

(** Callers that ask for one picture after each packet, and drain at the end. *)
Inductive paced : bool -> list call -> Prop :=
| paced_nil : forall b, paced b []
| paced_send : forall b buf m l, paced true l -> buf <> [] -> paced b (Send (Some (buf, m)) :: l)
| paced_get : forall l, paced false l -> paced true (Get :: l).
Definition all_quiet (s : settings) (d : dec) : Prop := Forall quiet_fc (d_fc d).
Lemma quiet_tidy : forall s d, all_quiet s d -> tidy d.
Proof.
  intros s d H. exists (rot (d_fc d) (d_next d)), []. unfold queue. rewrite !app_nil_r. split; [reflexivity|].
  split; [apply Forall_rot, H|auto].
Qed.
Section Paced.
Variables (o : oracle) (s : settings).
Hypothesis (NF : 1 < s_n_fc s).
Lemma paced_tidy : forall l b d rs d1 e, paced b l -> (b = true -> d_drain d = false) -> live o s d -> Forall call_ok l ->
  calls o s l d = Ok (rs, d1, e) -> no_refuse e -> tidy d -> tidy d1.
Proof.
  assert (N1 : s_n_fc s <> 1) by lia. assert (N2 : 1 <= s_n_fc s) by lia.
  induction l as [|c l IH]; intros b d rs d1 e P DR L HC E NR T; cbn [calls] in E.
  - injection E as _ <- _. exact T.
  - destruct (api o s c d) as [[[r d2] e2]|] eqn:EA; [|discriminate].
    destruct (calls o s l d2) as [[[rs2 d3] e3]|] eqn:EC; [|discriminate]. injection E as _ <- <-.
    apply no_refuse_app in NR. destruct NR as (R1 & R2). pose proof (Forall_inv HC) as H1. pose proof (Forall_inv_tail HC) as H2.
    pose proof (live_api _ _ _ _ _ _ _ L H1 EA) as L2. destruct (live_ok o s d N2 L) as (LI & OP).
    inversion P as [|b' buf m l' P' NB|l' P']; subst; cbn [api] in EA.
    + destruct (send_data o s (Some (buf, m)) d) as [[[[r0 t] d0] e0]|] eqn:ES; [|discriminate]. cbn [obind] in EA. injection EA as <- <- <-.
      eapply IH; [exact P'| |exact L2|exact H2|exact EC|exact R2|eapply send_tidy; eauto].
      intros _. eapply send_drain; eauto.
    + destruct (get_picture o s d) as [[[[r0 t] d0] e0]|] eqn:ES; [|discriminate]. cbn [obind] in EA. injection EA as <- <- <-.
      eapply IH; [exact P'|discriminate|exact L2|exact H2|exact EC|exact R2|].
      apply (get_tidy o s N1 _ _ _ _ _ LI OP ES R1); auto.
Qed.
(** ... and then ask until there is nothing left. *)
Lemma gets_orderly : forall n d rs d1 e, live o s d -> calls o s (repeat Get n) d = Ok (rs, d1, e) -> no_refuse e -> orderly d -> orderly d1.
Proof.
  assert (N1 : s_n_fc s <> 1) by lia. assert (N2 : 1 <= s_n_fc s) by lia.
  induction n as [|n IH]; intros d rs d1 e L E NR OD; cbn [repeat calls] in E; [injection E as _ <- _; auto|].
  destruct (api o s Get d) as [[[r d2] e2]|] eqn:EA; [|discriminate].
  destruct (calls o s (repeat Get n) d2) as [[[rs2 d3] e3]|] eqn:EC; [|discriminate]. injection E as _ <- <-.
  apply no_refuse_app in NR. destruct NR as (R1 & R2).
  pose proof (live_api _ _ Get _ _ _ _ L Logic.I EA) as L2. destruct (live_ok o s d N2 L) as (LI & OP).
  eapply IH; [exact L2|exact EC|exact R2|]. cbn [api] in EA.
  destruct (get_picture o s d) as [[[[r0 t] d0] e0]|] eqn:ES; [|discriminate]. cbn [obind] in EA. injection EA as <- <- <-.
  apply (get_tidy o s N1 _ _ _ _ _ LI OP ES R1); auto.
Qed.
Lemma calls_app : forall l1 l2 d, calls o s (l1 ++ l2) d =
  match calls o s l1 d with
  | Ok (rs1, d1, e1) => match calls o s l2 d1 with Ok (rs2, d2, e2) => Ok (rs1 ++ rs2, d2, e1 ++ e2) | Undef => Undef end
  | Undef => Undef
  end.
Proof.
  induction l1 as [|c l1 IH]; intros l2 d; cbn [app calls].
  - destruct (calls o s l2 d) as [[[? ?] ?]|]; reflexivity.
  - destruct (api o s c d) as [[[r d1] e1]|]; [|reflexivity]. rewrite IH. destruct (calls o s l1 d1) as [[[rs2 d2] e2]|]; [|reflexivity].
    destruct (calls o s l2 d2) as [[[rs3 d3] e3]|]; [|reflexivity]. rewrite app_assoc. reflexivity.
Qed.
Theorem paced_empty : forall l n d rs d1 e p d2 e2, live o s d -> d_drain d = false -> all_quiet s d -> paced true l -> Forall call_ok l ->
  calls o s (l ++ repeat Get (S n)) d = Ok (rs, d1, e) -> get_picture o s d1 = Ok (EAGAIN_, p, d2, e2) ->
  no_refuse (e ++ e2) -> no_error e2 -> Forall empty_fc (d_fc d2).
Proof.
  intros l n d rs d1 e p d2 e2 L DR AQ P HC E EG NR NE. assert (N1 : s_n_fc s <> 1) by lia. assert (N2 : 1 <= s_n_fc s) by lia.
  apply no_refuse_app in NR. destruct NR as (NR & NR2).
  rewrite calls_app in E. destruct (calls o s l d) as [[[rs3 d3] e3]|] eqn:E3; [|discriminate].
  destruct (calls o s (repeat Get (S n)) d3) as [[[rs4 d4] e4]|] eqn:E4; [|discriminate]. injection E as _ <- <-.
  apply no_refuse_app in NR. destruct NR as (R1 & R2).
  pose proof (calls_live _ _ _ _ _ _ _ L HC E3) as L3.
  assert (T3 : tidy d3) by (eapply paced_tidy; eauto; eapply quiet_tidy; eauto).
  assert (HG : Forall call_ok (repeat Get (S n))) by (apply Forall_forall; intros c X; apply repeat_spec in X; subst c; exact Logic.I).
  pose proof (calls_live _ _ _ _ _ _ _ L3 HG E4) as L4.
  assert (O4 : orderly d4) by exact (gets_orderly _ _ _ _ _ L3 E4 R2 (or_introl T3)).
  eapply get_empty; eauto.
  clear - E4 L3 N2. revert d3 rs4 e4 L3 E4. induction n as [|n IH]; intros d3 rs4 e4 L3 E4.
  - cbn [repeat calls] in E4. destruct (api o s Get d3) as [[[r d2] e2]|] eqn:EA; [|discriminate]. injection E4 as _ <- _.
    cbn [api] in EA. destruct (get_picture o s d3) as [[[[r0 t] d0] e0]|] eqn:ES; [|discriminate]. cbn [obind] in EA. injection EA as _ <- _.
    destruct (live_ok o s d3 N2 L3) as (LI & OP). eapply get_flag; eauto.
  - change (repeat Get (S (S n))) with (Get :: repeat Get (S n)) in E4. cbn [calls] in E4.
    destruct (api o s Get d3) as [[[r d2] e2]|] eqn:EA; [|discriminate].
    destruct (calls o s (repeat Get (S n)) d2) as [[[rs2 d5] e5]|] eqn:EC; [|discriminate]. injection E4 as _ <- _.
    eapply IH; [|exact EC]. eapply live_api; [exact L3| |exact EA]. exact Logic.I.
Qed.
End Paced.

(** Decoders that cannot get past a frame that was to be shown again. *)
From Coq Require Import ZArith List Bool Lia.
From Verif Require Import Base.CInt Base.Lemmas GetBits.Model GetBits.Sim Obu.SeqModel Obu.ObuSpec Obu.FrameModel Obu.FrameHist Obu.FrameKey Dec.State Dec.Submit Dec.ObuModel Dec.LibModel
  Dec.Front Dec.Wf Dec.Inv Dec.Step Dec.OutSpec Dec.RecoverSpec Dec.Agree Dec.SubmitProofs Dec.Parse Dec.Micro Dec.Recover Dec.Api Dec.Trace Dec.Session Dec.Rejoin.
Import ListNotations.
Open Scope Z_scope.
Local Open Scope outcome_scope.

(** A picture that cannot be shown. *)
Definition refused (s : settings) (x : slot) : Prop :=
  match r_pic x with
  | None => True
  | Some p => dft_drops_shown s (frame_type (f_pre (tp_hdr p))) = false /\
              (has_data p = false \/ s_strict s = true /\ z2b (tp_showable p) = false)
  end.
(** The header of a frame to be shown again is left over. *)
Definition stuck (s : settings) (d : dec) : Prop :=
  exists h, d_fhdr d = Some h /\ show_existing_frame h = 1 /\ refused s (slot_at d (existing_frame_idx h)).

Section Stuck.
Variables (o : oracle) (s : settings).
Lemma zero_unstuck : forall d, dec_inv s d -> d_n_tiles d = 0 -> (forall h, d_fhdr d = Some h -> show_existing_frame h = 0) -> unstuck d.
Proof.
  intros d I N H. unfold unstuck. destruct (d_fhdr d) as [h|] eqn:EH; [|exact Logic.I]. specialize (H h eq_refl). split; [exact H|].
  destruct (inv_hdr _ _ I h EH) as (q & ES & _).
  destruct (pending_facts s q h d I ES EH H) as (W & _). destruct W as (_ & _ & _ & T & _). destruct T as (_ & _ & _ & _ & T1 & T2 & _). nia.
Qed.
Definition sw_rest (x : sw) : Prop := match x with SwGo _ => False | _ => True end.
Lemma tile_rest : forall m c d x, dec_inv s (sw_dec x) -> tile_group m c d = Ok x -> sw_rest x ->
  (unstuck d -> unstuck (sw_dec x)) /\ (stuck s d -> stuck s (sw_dec x)).
Proof.
  intros m c d x I E R. unfold tile_group in E. destruct (d_fhdr d) as [h|] eqn:EH; [|injection E as <-; auto].
  destruct (exec _ c) as [[r c1]|]; [|discriminate]. cbn [obind] in E. destruct r as [[st en]|]; [|discriminate].
  destruct (gb_align c1) as [c2|]; [|discriminate]. cbn [obind] in E.
  destruct (gb_err c2); [injection E as <-; auto|]. destruct (_ || _); [|injection E as <-; contradiction].
  injection E as <-. cbn [sw_dec] in *. split.
  - intros U. apply zero_unstuck; [exact I|reflexivity|]. dsimp. intros h' X. rewrite X in EH. injection EH as <-.
    unfold unstuck in U. rewrite X in U. apply U.
  - intros (h' & S1 & S2 & S3). exists h'. auto.
Qed.
Lemma sw_pend : forall type tid sid m c d x, dec_inv s d -> dec_inv s (sw_dec x) -> obu_switch s type tid sid m c d = Ok x -> sw_rest x ->
  (unstuck d -> unstuck (sw_dec x)) /\ (stuck s d -> unstuck (sw_dec x) \/ stuck s (sw_dec x)).
Proof.
  intros type tid sid m c d x I I2 E R. unfold obu_switch in E.
  destruct (type =? OBU_SEQ_HDR).
  { destruct (exec _ c) as [[r c1]|]; [|discriminate]. cbn [obind] in E. injection E as <-. destruct r; [contradiction|]. auto. }
  destruct (_ && negb _); [injection E as <-; contradiction|].
  destruct (_ || _ || _).
  { unfold frame_header in E. destruct (d_seq d) as [q|]; [|injection E as <-; auto].
    destruct (exec _ c) as [[r c1]|]; [|discriminate]. cbn [obind] in E. destruct r as [h|]; [|injection E as <-; cbn; auto].
    cbv zeta in E. destruct (if type =? OBU_FRAME then _ else _) as [[ok c2]|]; [|discriminate]. cbn [obind] in E.
    destruct (negb ok); [injection E as <-; cbn; auto|]. destruct (_ && _); [injection E as <-; cbn; auto|].
    destruct (negb _); [injection E as <-; contradiction|]. destruct (z2b _) eqn:Z; [injection E as <-; cbn; auto|].
    destruct (gb_align c2) as [c3|]; [|discriminate]. cbn [obind] in E.
    assert (S0 : show_existing_frame h = 0) by (unfold z2b in Z; lia).
    assert (U : unstuck (sw_dec x)); [|auto].
    unfold tile_group in E. dsimp. destruct (exec _ c3) as [[r c4]|]; [|discriminate]. cbn [obind] in E. destruct r as [[st en]|]; [|discriminate].
    destruct (gb_align c4) as [c5|]; [|discriminate]. cbn [obind] in E.
    destruct (gb_err c5); [|destruct (_ || _); [|injection E as <-; contradiction]];
      injection E as <-; (apply zero_unstuck; [exact I2|reflexivity|]; dsimp; intros h' X; injection X as <-; exact S0). }
  destruct (type =? OBU_TILE_GRP); [destruct (tile_rest _ _ _ _ I2 E R); auto|].
  destruct (type =? OBU_METADATA).
  { unfold metadata in E. destruct (exec _ c) as [[r c1]|]; [|discriminate]. cbn [obind] in E. destruct r as [t|]; [|discriminate].
    destruct (gb_err c1); [injection E as <-; auto|].
    destruct (t =? _). { destruct (exec _ c1) as [[r c2]|]; [|discriminate]. cbn [obind] in E. injection E as <-. destruct r; [contradiction|auto]. }
    destruct (t =? _). { destruct (exec _ c1) as [[r c2]|]; [|discriminate]. cbn [obind] in E. injection E as <-. destruct r; [contradiction|auto]. }
    destruct (t =? _); [|injection E as <-; contradiction].
    destruct (parse_itut c1); [|discriminate]. cbn [obind] in E. injection E as <-. contradiction. }
  destruct (_ =? _); injection E as <-; contradiction.
Qed.
Lemma after_pend : forall n m d r d' e, dec_inv s d -> d_out d = None -> 1 <= n -> after_switch o s n m d = Ok (r, d', e) ->
  unstuck d' \/ stuck s d' /\ r = EINVAL_ /\ work e = [].
Proof.
  intros n m d r d' e I EO Hn E. unfold after_switch in E.
  destruct (d_fhdr d) as [h|] eqn:EH.
  2:{ left. assert (d' = d) as -> by (destruct (d_seq d); injection E; congruence). unfold unstuck. rewrite EH. exact Logic.I. }
  destruct (inv_hdr _ _ I h EH) as (q & ES & _). rewrite ES in E.
  destruct (show_hdr s d q h I ES EH) as [S0|(S1 & _)].
  - rewrite S0 in E. change (z2b 0) with false in E. cbv iota in E.
    destruct (Z.eqb_spec (d_n_tiles d) (t_cols (f_tiling h) * t_rows (f_tiling h))) as [EN|NN].
    + left. unfold frame_complete in E. destruct (dft_drops s h); [injection E as _ <- _; exact Logic.I|].
      destruct (pending_facts s q h d I ES EH S0) as (W & _ & _ & CH & _).
      assert (ET : d_tiles d <> []).
      { intros X. rewrite X in CH. rewrite EN in CH.
        destruct W as (_ & _ & _ & T & _). destruct T as (_ & _ & _ & _ & T1 & T2 & _). cbn in CH. nia. }
      assert (HE : is_none (hd_error (d_tiles d)) = false) by (destruct (d_tiles d); [contradiction|reflexivity]). rewrite HE in E.
      destruct (submit_ok o s q h m d I ES EH S0 ET EO) as (r1 & d2 & e2 & X & I2 & F2 & _).
      rewrite X in E. cbn [obind] in E. destruct (r1 <? 0).
      * injection E as _ <- _. unfold unstuck. rewrite F2. exact Logic.I.
      * destruct (is_none _); [|discriminate]. injection E as _ <- _. exact Logic.I.
    + injection E as _ <- _. left. unfold unstuck. rewrite EH. auto.
  - rewrite S1 in E. change (z2b 1) with true in E. cbv iota in E. unfold show_existing in E.
    assert (ER : refused s (slot_at d (existing_frame_idx h)) -> Ok (EINVAL_, w_err_props m d, []) = Ok (r, d', e) ->
      unstuck d' \/ stuck s d' /\ r = EINVAL_ /\ work e = []).
    { intros RF X. injection X as <- <- <-. right. split; [|auto]. exists h. auto. }
    destruct (r_pic (slot_at d (existing_frame_idx h))) as [p|] eqn:EP.
    2:{ apply ER; [unfold refused; rewrite EP; exact Logic.I|exact E]. }
    destruct (dft_drops_shown s _) eqn:DD; [injection E as _ <- _; left; exact Logic.I|].
    destruct (has_data p) eqn:HD; cbn [negb] in E.
    2:{ apply ER; [unfold refused; rewrite EP; auto|exact E]. }
    destruct (s_strict s && negb (z2b (tp_showable p))) eqn:SS.
    { apply andb_prop in SS. destruct SS as (SS1 & SS2). destruct (z2b (tp_showable p)) eqn:ZS; [discriminate|].
      apply ER; [unfold refused; rewrite EP; auto|exact E]. }
    left. destruct (s_n_fc s =? 1).
    + destruct (put_out _ d) as [d1|]; [|discriminate]. cbn [obind] in E. injection E as _ <- _. exact Logic.I.
    + destruct (ring_take s d) as [[d1 e1]|]; [|discriminate]. cbn [obind] in E. injection E as _ <- _. exact Logic.I.
Qed.
Lemma stuck_not : forall d, stuck s d -> unstuck d -> False.
Proof. intros d (h & H1 & H2 & _) U. unfold unstuck in U. rewrite H1 in U. lia. Qed.
Theorem parse_pend : forall buf m d r d' e, dec_inv s d -> d_out d = None -> Forall is_byte buf -> 0 < zlen buf ->
  parse_obus o s buf m d = Ok (r, d', e) -> unstuck d \/ stuck s d ->
  unstuck d' \/ stuck s d' /\ (stuck s d \/ r = EINVAL_ /\ work e = []).
Proof.
  intros buf m d r d' e I EO HB HL E US. unfold parse_obus in E.
  destruct (obu_open_ok (s_strict s) buf HB HL) as (x & X & Y). rewrite X in E. cbn [obind] in E.
  destruct x as [[[[[type ext] tid] sid] c]|].
  2:{ injection E as _ <- _. destruct US as [US|US]; [left; exact US|right; split; [|left; exact US]]. destruct US as (h & U). exists h. exact U. }
  destruct Y as (h & start & stop & N & ST & -> & -> & -> & -> & R1 & R2 & R3 & R4 & R5 & R6 & GE & AP).
  destruct (layer_dropped _ _ _ _ _).
  { injection E as _ <- _. tauto. }
  assert (ZS : zlen (firstn (Z.to_nat stop) buf) = stop) by (apply zlen_firstn; lia).
  destruct (obu_switch_ok s (obu_type h) (temporal_id h) (spatial_id h) m (firstn (Z.to_nat stop) buf) start c d I AP ltac:(lia) ltac:(lia) ltac:(lia))
    as (x & X1 & X2). rewrite X1 in E. cbn [obind] in E.
  destruct (switch_inv s (obu_type h) (temporal_id h) (spatial_id h) m (firstn (Z.to_nat stop) buf) start d x I ltac:(lia) ltac:(lia) ltac:(lia) X2)
    as (I1 & Q & _ & RT).
  assert (O1 : d_out (sw_dec x) = None) by (rewrite <- EO; apply Q).
  assert (P : sw_rest x -> unstuck (sw_dec x) \/ stuck s (sw_dec x) /\ stuck s d).
  { intros R. destruct (sw_pend _ _ _ _ _ _ _ I I1 X1 R) as (P1 & P2). destruct US as [US|US]; [auto|]. destruct (P2 US); auto. }
  destruct x as [d1|d1|r1 d1]; cbn [sw_dec] in *.
  - rewrite GE in E. assert (SP : 1 <= stop) by lia. destruct (after_pend _ _ _ _ _ _ I1 O1 SP E) as [A|(A & B & C)]; auto 6.
  - injection E as _ <- _. destruct (P Logic.I) as [A|(A & B)]; [left; exact A|right; split; [|auto]]. destruct A as (h' & A). exists h'. exact A.
  - injection E as _ <- _. destruct (P Logic.I) as [A|(A & B)]; auto.
Qed.
Lemma refused_agree : forall a b i, map bare_slot (d_refs a) = map bare_slot (d_refs b) -> refused s (slot_at a i) -> refused s (slot_at b i).
Proof.
  intros a b i E R. unfold slot_at in *.
  assert (B : bare_slot (nth (Z.to_nat i) (d_refs a) slot0) = bare_slot (nth (Z.to_nat i) (d_refs b) slot0)).
  { rewrite <- !(map_nth bare_slot). rewrite E. reflexivity. }
  unfold refused in *. destruct (nth (Z.to_nat i) (d_refs a) slot0) as [pa ca sa ma]. destruct (nth (Z.to_nat i) (d_refs b) slot0) as [pb cb sb mb].
  cbn [r_pic] in *. assert (B2 : option_map bare pa = option_map bare pb) by (apply (f_equal r_pic) in B; exact B).
  destruct pa as [p|], pb as [p2|]; try discriminate; [|exact Logic.I]. cbn [option_map] in B2. apply some_inj in B2.
  pose proof (f_equal tp_hdr B2) as B3. pose proof (f_equal tp_buf B2) as B4. pose proof (f_equal tp_showable B2) as B5. cbn [bare tp_hdr tp_buf tp_showable] in *.
  unfold has_data in *. rewrite <- B3, <- B4, <- B5. exact R.
Qed.
Lemma stuck_agree : forall a b, agree a b -> stuck s a -> stuck s b.
Proof.
  intros a b (_ & _ & _ & H & _ & _ & R & _) (h & S1 & S2 & S3). exists h. split; [congruence|]. split; [auto|]. eapply refused_agree; eauto.
Qed.
(** Every decoder is in one of the two states, and enters the second one only with an
    error. *)
Lemma steps_pend : forall d e d', steps o s d e d' -> unstuck d \/ stuck s d -> unstuck d' \/ stuck s d'.
Proof.
  intros d e d' H. induction H as [d|d e d1 e2 d2 M S IH]; intros U; [exact U|]. apply IH. clear IH S.
  assert (A : agree d d1 -> unstuck d1 \/ stuck s d1).
  { intros A. destruct U as [U|U]; [left; eapply unstuck_agree; eauto|right; eapply stuck_agree; eauto]. }
  destruct M as [d a b c|d buf m DI HB HL|b d d1 CE OR|b d r p d1 CE CR OR OI|d buf m r d1 e I HB HL DI DO DC E|d CE|d d1 e I DO DC NN RT|d].
  - apply A. unfold agree; dsimp; auto 10.
  - apply A. unfold agree; dsimp; auto 10.
  - apply A. exact (ready_core s _ _ _ _ OR).
  - apply A. exact (image_core o s _ _ _ _ OI).
  - destruct (parse_pend _ _ _ _ _ _ I DO HB HL E U) as [P|(P & _)]; [left; exact P|right]. destruct P as (h & P). exists h. exact P.
  - apply A. unfold agree; dsimp; auto 10.
  - apply A. destruct (ring_core s _ _ _ RT) as (B & _). exact B.
  - left. unfold flush, unstuck. cbv zeta. destruct (s_n_fc s =? 1); exact Logic.I.
Qed.
Theorem live_pend : forall d, 1 <= s_n_fc s -> live o s d -> unstuck d \/ stuck s d.
Proof.
  intros d NF L. induction L as [|c d r d' e L IH HC E|buf m d r d' e L IH EO HB HL E].
  - left. exact Logic.I.
  - destruct (live_ok o s d NF L) as (LI & OP).
    destruct (calls_steps o s [c] d LI OP ltac:(auto)) as (rs & d1 & e1 & X & _ & _ & S & _).
    cbn [calls] in X. rewrite E in X. injection X as _ -> _. eapply steps_pend; eauto.
  - destruct (live_ok o s d NF L) as ((I & _) & _). destruct (parse_pend _ _ _ _ _ _ I EO HB HL E IH) as [P|(P & _)]; auto.
Qed.

(** * Nothing is decoded any more *)
Lemma stuck_td : forall buf m d r d' e, stuck s d -> dec_inv s d -> Forall is_byte buf -> 0 < zlen buf -> first_type buf OBU_TD ->
  parse_obus o s buf m d = Ok (r, d', e) -> r = EINVAL_ /\ e = [] /\ stuck s d'.
Proof.
  intros buf m d r d' e (h & S1 & S2 & S3) I HB HL (h0 & a & b & N & T) E. unfold parse_obus in *.
  destruct (obu_open_ok (s_strict s) buf HB HL) as (x & X & Y). rewrite X in *. cbn [obind] in *.
  destruct x as [[[[[ty ext] tid] sid] c]|].
  2:{ unfold obu_error in *. injection E as <- <- <-. split; [auto|]. split; [auto|]. exists h. auto. }
  destruct Y as (h' & st & sp & N' & _ & -> & _). rewrite N in N'. injection N' as <- <- <-. rewrite T in *.
  assert (LD : forall i, layer_dropped i OBU_TD ext tid sid = false) by reflexivity. rewrite !LD in *.
  unfold obu_switch in *. cbn [Z.eqb OBU_SEQ_HDR OBU_TD OBU_REDUNDANT_FRAME_HDR OBU_FRAME OBU_FRAME_HDR OBU_TILE_GRP OBU_METADATA Pos.eqb andb orb obind] in *.
  destruct (inv_hdr _ _ I h S1) as (q & ES & _). unfold after_switch in E. dsimp. rewrite S1, ES, S2 in E. change (z2b 1) with true in E. cbv iota in E.
  unfold show_existing in E. change (slot_at (w_frame_flags (Z.lor (d_frame_flags d) PF_NEW_TEMPORAL_UNIT) d)) with (slot_at d) in E.
  assert (ER : forall d1, d_fhdr d1 = d_fhdr d -> d_refs d1 = d_refs d -> Ok (EINVAL_, w_err_props m d1, []) = Ok (r, d', e) -> r = EINVAL_ /\ e = [] /\ stuck s d').
  { intros d1 F1 F2 Z. injection Z as <- <- <-. split; [auto|]. split; [auto|]. exists h. dsimp. split; [congruence|]. split; [auto|].
    unfold slot_at in *. dsimp. rewrite F2. exact S3. }
  unfold refused in S3. destruct (r_pic (slot_at d (existing_frame_idx h))) as [p|] eqn:EP; [|exact (ER (w_frame_flags _ d) eq_refl eq_refl E)].
  destruct S3 as (DD & S3). rewrite DD in E. destruct (has_data p); cbn [negb] in E; [|exact (ER (w_frame_flags _ d) eq_refl eq_refl E)].
  destruct S3 as [S3|(S3 & S4)]; [discriminate|]. rewrite S3, S4 in E. exact (ER (w_frame_flags _ d) eq_refl eq_refl E).
Qed.
Definition rejected (p : list Z * props) : entry := mkEntry (fst p) (snd p) EINVAL_ [].
Theorem prun_stuck : forall t d d' pk, stuck s d -> prun o s d t d' -> chain None pk t -> Forall (fun p => first_type (fst p) OBU_TD) pk ->
  t = map rejected pk /\ stuck s d'.
Proof.
  induction t as [|x t IH]; intros d d' pk S P C H.
  - destruct C as (_ & ->). inversion P as [? ? A|]; subst. split; [reflexivity|]. eapply stuck_agree; eauto.
  - destruct C as [(C & _)|(_ & pk' & -> & C)]; [discriminate|].
    inversion P as [|? b1 buf1 m1 r1 c1 e1 ? ? A1 I1 HB1 HL1 E1 Q1]; subst. cbn [en_buf en_props en_ret] in *.
    pose proof (Forall_inv H) as H1. cbn [fst] in H1.
    destruct (stuck_td _ _ _ _ _ _ (stuck_agree _ _ A1 S) I1 HB1 HL1 H1 E1) as (-> & -> & S2).
    destruct (IH _ _ _ S2 Q1 C (Forall_inv_tail H)) as (-> & S3). split; [reflexivity|exact S3].
Qed.
End Stuck.

(** * Sessions *)
Section Sessions.
Variables (o : oracle) (s : settings).
Hypothesis BL : blind o.
Hypothesis NF : 1 <= s_n_fc s.
(** A session without flushes that starts and ends between packets. *)
Lemma session_run : forall l d rs d' e, live_inv s d -> op_ok s d -> Forall call_ok l -> ~ In Flush l -> calls o s l d = Ok (rs, d', e) ->
  d_in d = None -> d_in d' = None -> prun o s d (trail e) d' /\ chain None (packets e) (trail e).
Proof.
  intros l d rs d' e LI OP HC HF E D1 D2. destruct (calls_steps o s l d LI OP HC) as (rs' & d1 & e' & X & (_ & _ & S & _ & N)).
  rewrite E in X. injection X as <- <- <-. specialize (N HF). split; [exact (proj1 (steps_prun o s _ _ _ S N))|].
  apply feed_chain; [|exact N]. pose proof (steps_feed _ _ _ _ _ S) as F. rewrite D1, D2 in F. exact F.
Qed.
Theorem rejoin : forall l1 l2 d1 d2 rs1 rs2 a1 a2 e1 e2, live_inv s d1 -> op_ok s d1 -> live_inv s d2 -> op_ok s d2 ->
  unstuck d1 -> unstuck d2 -> d_jobs d1 = d_jobs d2 -> Forall call_ok l1 -> Forall call_ok l2 -> ~ In Flush l1 -> ~ In Flush l2 ->
  calls o s l1 d1 = Ok (rs1, a1, e1) -> calls o s l2 d2 = Ok (rs2, a2, e2) ->
  d_in d1 = None -> d_in a1 = None -> d_in d2 = None -> d_in a2 = None -> packets e1 = packets e2 -> sequence_start s (trail e2) ->
  trail e1 = trail e2 /\ agree a1 a2.
Proof.
  intros l1 l2 d1 d2 rs1 rs2 a1 a2 e1 e2 LI1 OP1 LI2 OP2 U1 U2 J HC1 HC2 HF1 HF2 E1 E2 D1 D2 D3 D4 PK SS.
  destruct (session_run _ _ _ _ _ LI1 OP1 HC1 HF1 E1 D1 D2) as (P1 & C1). destruct (session_run _ _ _ _ _ LI2 OP2 HC2 HF2 E2 D3 D4) as (P2 & C2).
  rewrite PK in C1. destruct (prun_start o s BL _ _ _ _ _ _ _ U2 U1 (eq_sym J) SS P2 P1 C2 C1) as (A & B). split; [congruence|apply agree_sym; exact B].
Qed.
Theorem stuck_session : forall l d rs d' e, live o s d -> stuck s d -> Forall call_ok l -> ~ In Flush l -> calls o s l d = Ok (rs, d', e) ->
  d_in d = None -> d_in d' = None -> Forall (fun p => first_type (fst p) OBU_TD) (packets e) ->
  trail e = map rejected (packets e) /\ stuck s d'.
Proof.
  intros l d rs d' e L S HC HF E D1 D2 H. destruct (live_ok o s d NF L) as (LI & OP).
  destruct (session_run _ _ _ _ _ LI OP HC HF E D1 D2) as (P & C). exact (prun_stuck o s _ _ _ _ S P C H).
Qed.
(** A new decoder, with its buffers numbered from [k] on. *)
Definition dec_from (k : Z) : dec := w_jobs k (dec0 s).
Lemma from_live : forall k, live_inv s (dec_from k) /\ op_ok s (dec_from k).
Proof.
  intros k. destruct (live_ok o s _ NF (live_start o s)) as ((I & J) & OP). split; [split|exact OP]; [|exact J].
  eapply inv_eq; [exact I|reflexivity..| |]; intros p X; discriminate.
Qed.
Theorem restart : forall l1 l2 d rs1 rs2 a1 a2 e1 e2, live o s d ->
  unstuck d -> Forall call_ok l1 -> Forall call_ok l2 -> ~ In Flush l1 -> ~ In Flush l2 ->
  calls o s l1 d = Ok (rs1, a1, e1) -> calls o s l2 (dec_from (d_jobs d)) = Ok (rs2, a2, e2) ->
  d_in d = None -> d_in a1 = None -> d_in a2 = None -> packets e1 = packets e2 -> sequence_start s (trail e2) ->
  trail e1 = trail e2 /\ agree a1 a2.
Proof.
  intros l1 l2 d rs1 rs2 a1 a2 e1 e2 L U HC1 HC2 HF1 HF2 E1 E2 D1 D2 D3 PK SS. destruct (live_ok o s d NF L) as (LI & OP).
  destruct (from_live (d_jobs d)) as (LI2 & OP2).
  exact (rejoin l1 l2 d (dec_from (d_jobs d)) rs1 rs2 a1 a2 e1 e2 LI OP LI2 OP2 U Logic.I eq_refl HC1 HC2 HF1 HF2 E1 E2 D1 D2 eq_refl D3 PK SS).
Qed.
End Sessions.

(** Frame header sections: the parser implements the syntax tables
    (quantizer, segmentation, deltas, filters, film grain). *)
From Coq Require Import ZArith List Bool Lia.
From Verif Require Import Base.CInt Base.Lemmas Base.Finite GetBits.Model GetBits.Spec GetBits.Abstract
  GetBits.Proofs GetBits.SpecProg GetBits.Sim GetBits.VarLen GetBits.Reads Obu.SimTac Obu.SeqModel Obu.SeqRel
  Obu.FrameModel Obu.FrameRel.
Import ListNotations.
Open Scope Z_scope.

Ltac flag x := assert (x = 0 \/ x = 1) as [-> | ->] by lia; cbn [z2b Z.eqb Pos.eqb negb andb orb].
Ltac conj := repeat match goal with |- _ /\ _ => split end.
Ltac sbitr := eapply sim_weaken; [apply sim_bit with (N := 1); lia | lia | unfold eqr; cbv beta; intros; lia].
Ltac sbitsr k := eapply sim_weaken; [eapply sim_f with (N := k); lia | lia | unfold eqr; cbv beta; intros; lia].

(** Reading a signed field. *)
Lemma sim_sub : forall n N, 0 < n <= 32 -> n <= N -> sim N (sbits n) (su n) (eqr (- 2 ^ (n - 1)) (2 ^ (n - 1) - 1)).
Proof.
  intros. eapply sim_weaken; [apply sim_su with (N := N); auto|lia|]. unfold eqr. cbv beta. intros; lia.
Qed.

Ltac asso := repeat apply sbind_assoc_sim.

(** Dereferencing a reference slot. *)
Lemma slots_nth : forall refs srefs i, slots_rel refs srefs -> 0 <= i <= 7 ->
  match nth_error refs (Z.to_nat i), nth (Z.to_nat i) srefs None with
  | Some (Some h), Some r => slot_rel h r /\ slot_wf h
  | Some None, None => True
  | _, _ => False
  end.
Proof.
  intros refs srefs i (HL & HR) Hi.
  assert (Hn : (Z.to_nat i < 8)%nat) by lia. rewrite <- HL in Hn. clear HL Hi.
  revert Hn. generalize (Z.to_nat i). induction HR; intros n Hn; cbn [length] in Hn; [lia|].
  destruct n; cbn [nth_error nth].
  - destruct x, y; auto; tauto.
  - apply IHHR. lia.
Qed.
Lemma sim_slot : forall refs srefs i N, slots_rel refs srefs -> 0 <= i <= 7 -> 0 <= N ->
  sim N (get_ref refs i) (F.slot srefs i)
    (fun h r => slot_rel h r /\ slot_wf h /\ nth (Z.to_nat i) srefs None = Some r).
Proof.
  intros refs srefs i N HR Hi HN. pose proof (slots_nth refs srefs i HR Hi) as H.
  unfold get_ref, F.slot, rd_at. replace (i <? 0) with false by lia.
  destruct (nth_error refs (Z.to_nat i)) as [[h|]|]; destruct (nth (Z.to_nat i) srefs None) as [r|]; try tauto;
    cbn [lift rbind].
  - apply sim_ret; auto. tauto.
  - apply sim_fail. auto.
Qed.

(** * Quantizer *)
Lemma sim_delta_q : forall N, 8 <= N -> sim N (opt_sbits 7) F.read_delta_q (eqr (-64) 63).
Proof.
  intros N HN. unfold opt_sbits, F.read_delta_q. rd1 b. flag b.
  - sret. split; [auto|lia].
  - apply sim_sub with (n := 7); lia.
Qed.
Ltac rdq x := eapply sim_bind with (N1 := 8);
  [apply sim_delta_q; lia | let H := fresh "H" x in intros x ? [<- H]; cbv beta | lia].

Lemma sim_quant : forall sh ss N, seq_rel sh ss -> seq_wf sh -> 64 <= N ->
  sim N (parse_quant sh) (F.quantization_params ss) (fun q s => quant_rel q s /\ quant_wf q).
Proof.
  intros sh ss N HR HW HN. unfold parse_quant, F.quantization_params.
  assert (HC : color_rel (sh_color sh) (S.color_ ss)) by apply HR.
  assert (HCW : color_wf (profile sh) (sh_color sh)) by apply HW.
  destruct HC as (_ & Em & _ & _ & _ & _ & _ & _ & _ & _ & _ & Es).
  destruct HCW as (_ & Wm & _ & _ & Ws & _). rewrite <- Em, <- Es.
  set (mono := monochrome (sh_color sh)) in *. set (sep := separate_uv_delta_q (sh_color sh)) in *.
  clearbody mono sep. clear Em Es HR HW.
  rdn y 8. rdq ydc.
  bnd 33 (fun (x y : Z * Z * Z * Z) => x = y /\ let '(a, b, c, d) := x in
     -64 <= a <= 63 /\ -64 <= b <= 63 /\ -64 <= c <= 63 /\ -64 <= d <= 63).
  { flag mono.
    - bnd 1 (eqr 0 1). { flag sep; [sret; split; lia|sbitr]. }
      intros df ? [<- Hdf]. rdq udc. rdq uac. flag df.
      + sret. split; [auto|lia].
      + rdq vdc. rdq vac. sret. split; [auto|lia].
    - sret. split; [auto|lia]. }
  intros [[[udc uac] vdc] vac] ? (<- & Hu). cbv beta iota in Hu. rd1 q.
  bnd 12 (fun (x y : Z * Z * Z) => x = y /\ let '(a, b, c) := x in
     0 <= a <= 15 /\ 0 <= b <= 15 /\ 0 <= c <= 15).
  { flag q.
    - sret. split; [auto|lia].
    - rdn a 4. rdn b 4. bnd 4 (eqr 0 15). { flag sep; [sret; split; lia|sbitsr 4]. }
      intros c ? [<- Hc]. sret. split; [auto|lia]. }
  intros [[a b] c] ? (<- & Hq2). cbv beta iota in Hq2. sret. unfold quant_rel, quant_wf. cbn. conj; auto; lia.
Qed.

(** * Delta q, delta lf *)
Lemma sim_delta : forall y ibc N, 0 <= y -> 0 <= ibc <= 1 -> 8 <= N ->
  sim N (parse_delta y ibc) (F.delta_section y ibc) (fun d s => delta_rel d s /\ delta_wf d).
Proof.
  intros y ibc N Hy Hi HN. unfold parse_delta, F.delta_section.
  bnd 1 (eqr 0 1).
  { rewrite z2b_pos by lia. destruct (0 <? y); [sbitr|sret; split; lia]. }
  intros qp ? [<- Hqp]. flag qp.
  - apply sim_let. apply sim_let. apply sim_let. apply sim_let. apply sim_bind_ret_r. sret.
    unfold delta_rel, delta_wf. cbn. conj; auto; lia.
  - rdn qr 2. flag ibc.
    + rd1 lp. flag lp.
      * apply sim_let. apply sim_let. sret. unfold delta_rel, delta_wf. cbn. conj; auto; lia.
      * rdn lr 2. rd1 lm. sret. unfold delta_rel, delta_wf. cbn. conj; auto; lia.
    + apply sim_let. apply sim_let. apply sim_let. apply sim_bind_ret_r. sret.
      unfold delta_rel, delta_wf. cbn. conj; auto; lia.
Qed.

(** * Segmentation *)
Definition feature_ok (lo hi limit : Z) (v : Z) (o : option Z) : Prop :=
  feat_rel limit v o /\ lo <= v <= hi.
Lemma sim_feature : forall n limit A B N (b : Z) (p : Z -> rd A) (q : option Z -> sp B) R,
  0 <= b <= 1 -> (n = 8 /\ limit = 255 \/ n = 6 /\ limit = 63) -> 1 + n <= N ->
  (forall v o, feature_ok (- 2 ^ n) (2 ^ n - 1) limit v o -> F.is_some o = z2b b ->
     sim (N - (1 + n)) (p v) (q o) R) ->
  sim N (rbind (if z2b b then sbits (1 + n) else Ret 0) p)
        (sbind (if b =? 1 then let* v := su (1 + n) in SRet (Some (F.clip3 (- limit) limit v)) else SRet None)%sp q) R.
Proof.
  intros n limit A B N b p q R Hb Hn HN H. flag b.
  - apply sim_let. apply sim_bind_ret_r. eapply sim_weaken; [apply H|lia|auto].
    + split; [reflexivity|]. destruct Hn as [[-> _]|[-> _]]; lia.
    + reflexivity.
  - apply sbind_assoc_sim. eapply sim_bind with (N1 := 1 + n); [apply sim_sub; lia| |lia].
    intros v ? [<- Hv]. cbv beta. apply sim_bind_ret_r. apply H; [|reflexivity].
    replace (1 + n - 1) with n in Hv by lia. split; [|lia].
    unfold feat_rel, F.clip3. destruct Hn as [[-> ->]|[-> ->]].
    + change (2 ^ 8) with 256 in Hv. cbn [Z.opp].
      destruct (Z.ltb_spec v (-255)), (Z.ltb_spec 255 v); lia.
    + change (2 ^ 6) with 64 in Hv. cbn [Z.opp].
      destruct (Z.ltb_spec v (-63)), (Z.ltb_spec 63 v); lia.
Qed.

Lemma sim_segment : forall N, 64 <= N ->
  sim N parse_segment (F.segment_features F.feature_table)
    (fun x l => let '(d, any, pre) := x in
       segdata_rel d l /\ segdata_wf d /\ any = F.seg_active l /\ pre = F.seg_active (skipn 5 l)).
Proof.
  intros N HN. unfold parse_segment, F.feature_table. cbn [F.segment_features].
  rd1 a. asso. change 9 with (1 + 8). eapply (sim_feature 8 255); [lia|lia|lia|]. intros dq o0 [R0 W0] E0. cbv beta.
  asso. rd1 b. asso. change 7 with (1 + 6) at 1. eapply (sim_feature 6 63); [lia|lia|lia|]. intros f1 o1 [R1 W1] E1. cbv beta.
  asso. rd1 c. asso. change 7 with (1 + 6) at 1. eapply (sim_feature 6 63); [lia|lia|lia|]. intros f2 o2 [R2 W2] E2. cbv beta.
  asso. rd1 d0. asso. change 7 with (1 + 6) at 1. eapply (sim_feature 6 63); [lia|lia|lia|]. intros f3 o3 [R3 W3] E3. cbv beta.
  asso. rd1 e. asso. change 7 with (1 + 6) at 1. eapply (sim_feature 6 63); [lia|lia|lia|]. intros f4 o4 [R4 W4] E4. cbv beta.
  asso. rd1 g. asso.
  bnd 3 (fun x o => x = match o with Some v => v | None => -1 end /\ -1 <= x <= 7 /\ F.is_some o = z2b g).
  { flag g.
    - sret. conj; auto; lia.
    - replace (bits 3) with (rbind (bits 3) (fun x => Ret x)) by reflexivity.
      rdn v 3. sret. conj; auto; try lia. unfold F.clip3.
      destruct (Z.ltb_spec v 0), (Z.ltb_spec 7 v); lia. }
  intros rf o5 (R5 & W5 & E5). cbv beta. asso. rd1 sk.
  assert (FIN : forall gl, 0 <= gl <= 1 ->
    let l := [o0; o1; o2; o3; o4; o5; if sk =? 1 then Some 0 else None; if gl =? 1 then Some 0 else None] in
    let d := mkSegdata dq f1 f2 f3 f4 rf sk gl in
    segdata_rel d l /\ segdata_wf d /\
    (z2b a || z2b b || z2b c || z2b d0 || z2b e || z2b g || z2b sk || z2b gl)%bool = F.seg_active l /\
    (z2b g || z2b sk || z2b gl)%bool = F.seg_active (skipn 5 l)).
  { intros gl Hgl. cbv zeta.
    assert (ES : F.is_some (if sk =? 1 then Some 0 else None) = z2b sk) by (flag sk; auto).
    assert (EG : F.is_some (if gl =? 1 then Some 0 else None) = z2b gl) by (flag gl; auto).
    split; [|split; [|split]].
    - unfold segdata_rel. cbn [sd_delta_q sd_delta_lf_y_v sd_delta_lf_y_h sd_delta_lf_u sd_delta_lf_v sd_ref sd_skip sd_globalmv].
      conj; auto; unfold flag_rel; rewrite ?ES, ?EG; [flag sk; auto | flag gl; auto].
    - unfold segdata_wf. cbn. change (2 ^ 8) with 256 in *. change (2 ^ 6) with 64 in *. conj; lia.
    - unfold F.seg_active. cbn [existsb]. rewrite E0, E1, E2, E3, E4, E5, ES, EG.
      destruct (z2b a), (z2b b), (z2b c), (z2b d0), (z2b e), (z2b g), (z2b sk), (z2b gl); auto.
    - unfold F.seg_active. cbn [skipn existsb]. rewrite E5, ES, EG.
      destruct (z2b g), (z2b sk), (z2b gl); auto. }
  flag sk; asso; rd1 gl; specialize (FIN gl Hgl); flag gl; cbn [sbind]; sret; exact FIN.
Qed.

Lemma sim_segments : forall n i pre last N, 0 <= i -> i + Z.of_nat n = 8 -> 0 <= pre <= 1 -> -1 <= last < i + Z.of_nat n ->
  64 * Z.of_nat n <= N ->
  sim N (parse_segments n i pre last) (F.times n (F.segment_features F.feature_table))
    (fun r fd => Forall2 segdata_rel (ss_d r) fd /\ Forall segdata_wf (ss_d r) /\ length (ss_d r) = n /\
       ss_preskip r = (if F.SegIdPreSkip fd then 1 else pre) /\
       Z.max 0 (ss_last_active_segid r) = F.last_active_from i (Z.max 0 last) fd /\
       -1 <= ss_last_active_segid r <= 7).
Proof.
  induction n; intros i pre last N Hi Hin Hp Hl HN; cbn [parse_segments F.times].
  - sret. cbn. conj; auto; lia.
  - eapply sim_bind with (N1 := 64); [apply sim_segment; lia| |lia].
    intros [[d any] p] l (R & W & -> & ->).
    eapply sim_bind with (N1 := 64 * Z.of_nat n).
    + apply IHn; try lia.
      * destruct (F.seg_active (skipn 5 l)); lia.
      * destruct (F.seg_active l); lia.
    + intros r fd (R2 & W2 & L2 & P2 & LA & RG). sret. cbn [ss_d ss_preskip ss_last_active_segid].
      conj; auto; try lia.
      * cbn [length]. lia.
      * rewrite P2. unfold F.SegIdPreSkip. cbn [existsb].
        destruct (F.seg_active (skipn 5 l)), (existsb _ fd); auto.
      * rewrite LA. cbn [F.last_active_from]. f_equal. destruct (F.seg_active l); lia.
    + lia.
Qed.

Lemma no_features_rel : segset_rel (mkSegset (repeat (mkSegdata 0 0 0 0 0 (-1) 0 0) 8) 0 0) F.no_features.
Proof.
  split; [|split; reflexivity]. unfold F.no_features. cbn [repeat ss_d].
  repeat (constructor; [cbv; auto 10|]). constructor.
Qed.

(** The index of the primary reference. *)
Definition pri_ok (p : fprefix) (g : F.general) (ridx sidx : list Z) : Prop :=
  primary_ref_frame p = F.primary_ref_frame g /\ 0 <= primary_ref_frame p <= 7 /\
  length ridx = 7%nat /\ Forall (fun i => 0 <= i <= 7) ridx /\
  (primary_ref_frame p <> PRIMARY_REF_NONE -> ridx = sidx).
Lemma sim_pri : forall A B p g ridx sidx refs srefs x y N (k : frame_hdr -> rd A) (k' : F.ref_info -> sp B) R,
  pri_ok p g ridx sidx -> slots_rel refs srefs -> primary_ref_frame p <> PRIMARY_REF_NONE -> 0 <= N ->
  x = primary_ref_frame p -> y = primary_ref_frame p ->
  (forall h r, slot_rel h r -> slot_wf h -> sim N (k h) (k' r) R) ->
  sim N (rbind (lift (rd_at ridx x)) (fun pri => rbind (get_ref refs pri) k))
        (sbind (F.slot srefs (nth (Z.to_nat y) sidx 0)) k') R.
Proof.
  intros A B p g ridx sidx refs srefs x y N k k' R (EP & RP & LR & FR & ER) HS HN0 HN -> -> H.
  unfold PRIMARY_REF_NONE in *. specialize (ER HN0). subst sidx.
  assert (HP : 0 <= primary_ref_frame p < zlen ridx) by (unfold zlen; lia).
  rewrite (rd_at_nth _ ridx _ 0 HP). cbn [lift rbind].
  pose proof (Forall_nth_Z _ _ _ _ 0 FR HP) as HI. cbv beta in HI.
  eapply sim_bind with (N1 := 0); [apply sim_slot; eauto; lia| |lia].
  intros h r (S1 & S2 & _). replace (N - 0) with N by lia. auto.
Qed.

Lemma prn_eq : forall x, (x =? PRIMARY_REF_NONE) = (x =? F.PRIMARY_REF_NONE).
Proof. reflexivity. Qed.

Lemma sim_seg : forall p g ridx sidx refs srefs N, pri_ok p g ridx sidx -> slots_rel refs srefs -> 600 <= N ->
  sim N (parse_seg refs p ridx) (F.segmentation_params srefs g sidx) (fun m s => seg_rel m s /\ seg_wf m /\
    (sg_enabled m = 0 -> F.FeatureData s = F.no_features /\ Forall (fun d => sd_delta_q d = 0) (ss_d (sg_data m)))).
Proof.
  intros p g ridx sidx refs srefs N HP HS HN. unfold parse_seg, F.segmentation_params.
  rd1 en. flag en.
  - sret. split; [|split].
    + unfold seg_rel. cbn [sg_enabled sg_update_map sg_temporal sg_update_data sg_data]. conj; auto; apply no_features_rel.
    + unfold seg_wf, segset_wf. cbn [sg_enabled sg_update_map sg_temporal sg_update_data sg_data ss_d ss_preskip ss_last_active_segid].
      conj; try lia; [reflexivity|]. repeat constructor; cbn; lia.
    + intros _. split; [reflexivity|]. cbn [ss_d sg_data repeat]. repeat constructor.
  - pose proof HP as (EP & RP & _). rewrite prn_eq, EP.
    bnd 3 (fun x y : Z * Z * Z => x = y /\ let '(a, b, c) := x in 0 <= a <= 1 /\ 0 <= b <= 1 /\ 0 <= c <= 1 /\
             (c = 0 -> primary_ref_frame p <> PRIMARY_REF_NONE)).
    { destruct (Z.eqb_spec (F.primary_ref_frame g) F.PRIMARY_REF_NONE).
      - sret. split; [auto|lia].
      - rd1 um. bnd 1 (eqr 0 1). { flag um; [sret; split; lia|sbitr]. }
        intros tp ? [<- Htp]. rd1 ud. sret. split; [auto|]. unfold PRIMARY_REF_NONE, F.PRIMARY_REF_NONE in *. lia. }
    intros [[um tp] ud] ? (<- & Hum & Htp & Hud & Hnz).
    bnd 520 (fun r fd => segset_rel r fd /\ segset_wf r).
    { flag ud.
      - apply sim_assert. { specialize (Hnz eq_refl). unfold PRIMARY_REF_NONE, F.PRIMARY_REF_NONE in *. lia. }
        eapply sim_pri; eauto; [lia|]. intros h r S1 S2. cbv beta. sret. split; [apply S1|apply S2].
      - eapply sim_weaken; [apply sim_segments with (N := 512); lia|lia|]. cbv beta.
        intros r fd (R2 & W2 & L2 & P2 & LA & RG). split; [split; [auto|split]|].
        + rewrite P2. destruct (F.SegIdPreSkip fd); auto.
        + exact LA.
        + split; [auto|]. split; [auto|]. split; [|auto]. rewrite P2. destruct (F.SegIdPreSkip fd); lia. }
    intros r fd (R2 & W2). sret. split; [|split; [|cbn; lia]].
    + unfold seg_rel. cbn [sg_enabled sg_update_map sg_temporal sg_update_data sg_data F.segmentation_enabled
        F.segmentation_update_map F.segmentation_temporal_update F.segmentation_update_data F.FeatureData]. conj; auto; apply R2.
    + unfold seg_wf. cbn [sg_enabled sg_update_map sg_temporal sg_update_data sg_data]. conj; auto; try lia; apply W2.
Qed.

(** * Quantizer index and lossless flags of the segments *)
Lemma qidx_ok : forall q s m g, quant_rel q s -> quant_wf q -> seg_rel m g -> seg_wf m ->
  (sg_enabled m = 0 -> F.FeatureData g = F.no_features /\ Forall (fun d => sd_delta_q d = 0) (ss_d (sg_data m))) ->
  qidx_of q m = map (F.seg_qidx s) (F.FeatureData g) /\
  length (qidx_of q m) = 8%nat /\ Forall (fun x => 0 <= x <= 255) (qidx_of q m).
Proof.
  intros q s m g HQ WQ HS WS HD.
  assert (HR : Forall2 segdata_rel (ss_d (sg_data m)) (F.FeatureData g)) by apply HS.
  assert (WR : Forall segdata_wf (ss_d (sg_data m))) by apply WS.
  assert (WL : length (ss_d (sg_data m)) = 8%nat) by apply WS.
  assert (WE : 0 <= sg_enabled m <= 1) by apply WS.
  assert (EY : yac q = F.base_q_idx s) by apply HQ. assert (WY : 0 <= yac q <= 255) by apply WQ.
  assert (HD' : sg_enabled m = 0 -> Forall (fun d => sd_delta_q d = 0) (ss_d (sg_data m))) by (intros; apply HD; auto).
  clear HD. unfold qidx_of. rewrite map_length. split; [|split]; auto.
  - clear WL. revert WR HD'. induction HR; intros WR HD'; cbn [map]; auto. inversion WR; subst.
    f_equal; [|apply IHHR; auto].
    + unfold F.seg_qidx. destruct y as [|o0 y]; [destruct H|]. cbn [hd].
      assert (FR : feat_rel 255 (sd_delta_q x) o0).
      { do 8 (destruct y as [|? y]; [try tauto; cbn in H; tauto|]). cbn in H. tauto. }
      clear H. destruct H2 as (D & _). unfold F.clip3, iclip_u8, iclip. rewrite <- EY.
      assert (sg_enabled m = 0 \/ sg_enabled m = 1) as [E0|E1] by lia.
      * specialize (HD' E0). inversion HD'; subst. rewrite E0. cbn [z2b Z.eqb negb].
        destruct o0; cbn [feat_rel Z.opp] in FR; [|auto].
        replace z with 0 by lia. destruct (Z.ltb_spec (yac q + 0) 0), (Z.ltb_spec 255 (yac q + 0)); lia.
      * rewrite E1. cbn [z2b Z.eqb negb]. destruct o0; cbn [feat_rel Z.opp] in FR; [subst z|rewrite FR].
        -- destruct (Z.ltb_spec (yac q + sd_delta_q x) 0), (Z.ltb_spec 255 (yac q + sd_delta_q x)),
             (Z.ltb_spec (yac q + Z.max (-255) (sd_delta_q x)) 0), (Z.ltb_spec 255 (yac q + Z.max (-255) (sd_delta_q x))); lia.
        -- destruct (Z.ltb_spec (yac q + 0) 0), (Z.ltb_spec 255 (yac q + 0)); lia.
    + intros E0. specialize (HD' E0). inversion HD'; auto.
  - apply Forall_map. apply Forall_forall. intros d _. destruct (z2b (sg_enabled m)); [|lia].
    unfold iclip_u8, iclip. destruct (Z.ltb_spec (yac q + sd_delta_q d) 0), (Z.ltb_spec 255 (yac q + sd_delta_q d)); lia.
Qed.

Lemma lossless_ok : forall q s m g, quant_rel q s -> quant_wf q -> seg_rel m g -> seg_wf m ->
  (sg_enabled m = 0 -> F.FeatureData g = F.no_features /\ Forall (fun d => sd_delta_q d = 0) (ss_d (sg_data m))) ->
  lossless_of q m = map (fun l => b2z (F.lossless_seg s l)) (F.FeatureData g) /\
  all_lossless_of (lossless_of q m) = b2z (F.CodedLossless s (F.FeatureData g)).
Proof.
  intros q s m g HQ WQ HS WS HD. destruct (qidx_ok q s m g HQ WQ HS WS HD) as (E & _).
  assert (E2 : lossless_of q m = map (fun l => b2z (F.lossless_seg s l)) (F.FeatureData g)).
  { unfold lossless_of. rewrite E, map_map. apply map_ext. intros l. f_equal.
    unfold F.lossless_seg, delta_lossless, z2b. rewrite !negb_involutive.
    destruct HQ as (_ & -> & -> & -> & -> & -> & _).
    destruct (F.seg_qidx s l =? 0), (F.DeltaQYDc s =? 0), (F.DeltaQUDc s =? 0), (F.DeltaQUAc s =? 0),
      (F.DeltaQVDc s =? 0), (F.DeltaQVAc s =? 0); auto. }
  split; auto. rewrite E2. unfold all_lossless_of, F.CodedLossless.
  change 1 with (b2z true) at 1.
  assert (G : forall l b, fold_left Z.land (map (fun l => b2z (F.lossless_seg s l)) l) (b2z b) =
                          b2z (b && forallb (F.lossless_seg s) l)%bool).
  { induction l; intros b; cbn [map fold_left forallb]; [rewrite andb_true_r; auto|].
    replace (Z.land (b2z b) (b2z (F.lossless_seg s a))) with (b2z (b && F.lossless_seg s a)%bool)
      by (destruct b, (F.lossless_seg s a); auto).
    rewrite IHl. f_equal. rewrite andb_assoc. auto. }
  apply (G _ true).
Qed.

(** * Loop filter *)
Lemma sim_updates : forall l N, Forall (fun x => -64 <= x <= 63) l -> 8 * zlen l <= N ->
  sim N (update_deltas l) (F.delta_updates l)
    (fun x y => x = y /\ length x = length l /\ Forall (fun x => -64 <= x <= 63) x).
Proof.
  induction l; intros N HF HN; cbn [update_deltas F.delta_updates].
  - unfold zlen in HN. cbn in HN. sret. auto.
  - unfold zlen in *. cbn [length] in *. inversion HF; subst. rd1 b.
    bnd 7 (eqr (-64) 63). { flag b; [sret; split; lia|]. eapply sim_weaken; [apply sim_sub with (n := 7) (N := 7); lia|lia|auto]. }
    intros v ? [<- Hv]. eapply sim_bind with (N1 := 8 * Z.of_nat (length l)); [apply IHl; [auto|lia]| |lia].
    intros x ? (<- & L & FX). sret. cbn [length]. conj; auto.
Qed.

Lemma sim_lf : forall sh ss p g ridx sidx refs srefs al ibc N, seq_rel sh ss -> seq_wf sh ->
  pri_ok p g ridx sidx -> slots_rel refs srefs -> 0 <= ibc <= 1 -> 200 <= N ->
  sim N (parse_lf sh refs p ridx (b2z al) ibc) (F.loop_filter_params ss srefs g sidx al ibc)
    (fun l s => lf_rel l s /\ lf_wf l).
Proof.
  intros sh ss p g ridx sidx refs srefs al ibc N HR HW HP HS Hi HN. unfold parse_lf, F.loop_filter_params.
  rewrite z2b_b2z, z2b_1 by auto. apply sim_if; [auto| |]; intros _.
  - sret. split.
    + unfold lf_rel. cbn. conj; auto.
    + unfold lf_wf. cbn. conj; try lia; repeat constructor; lia.
  - assert (Em : monochrome (sh_color sh) = S.mono_chrome (S.color_ ss)) by apply HR.
    assert (Wm : 0 <= monochrome (sh_color sh) <= 1) by apply HW. rewrite <- Em.
    set (mono := monochrome (sh_color sh)) in *. clearbody mono.
    rdn y0 6. rdn y1 6.
    bnd 12 (fun x y : Z * Z => x = y /\ 0 <= fst x <= 63 /\ 0 <= snd x <= 63).
    { apply sim_if; [unfold z2b; flag mono; auto| |]; intros _.
      - rdn a 6. rdn b 6. sret. split; [auto|cbn; lia].
      - sret. cbn. conj; auto; lia. }
    intros [u v] ? (<- & Hu & Hv). cbn [fst snd] in Hu, Hv. rdn sharp 3.
    pose proof HP as (EP & RP & _).
    bnd 0 (fun x y : list Z * list Z => x = (snd y, fst y) /\
       length (fst x) = 2%nat /\ length (snd x) = 8%nat /\
       Forall (fun x => -64 <= x <= 63) (fst x) /\ Forall (fun x => -64 <= x <= 63) (snd x)).
    { rewrite prn_eq, EP. destruct (Z.eqb_spec (F.primary_ref_frame g) F.PRIMARY_REF_NONE).
      - sret. split; [reflexivity|]. cbn. conj; auto; repeat constructor; lia.
      - eapply sim_pri; eauto; [unfold PRIMARY_REF_NONE, F.PRIMARY_REF_NONE in *; lia|lia|].
        intros h r S1 S2. sret. destruct S1 as (_ & _ & _ & _ & _ & _ & _ & <- & <- & _).
        split; [reflexivity|]. cbn [fst snd]. conj; apply S2. }
    intros [md rd] [rd' md'] (E & L1 & L2 & F1 & F2). cbn [fst snd] in *. injection E as -> ->.
    rd1 en. flag en.
    + sret. split; [unfold lf_rel; cbn; conj; auto|unfold lf_wf; cbn; conj; auto; lia].
    + apply rbind_assoc_sim. rd1 upd. flag upd.
      * sret. split; [unfold lf_rel; cbn; conj; auto|unfold lf_wf; cbn; conj; auto; lia].
      * apply rbind_assoc_sim.
        eapply sim_bind with (N1 := 64); [apply sim_updates; [auto|unfold zlen; lia]| |lia]. intros x ? (<- & LX & FX).
        apply rbind_assoc_sim.
        eapply sim_bind with (N1 := 16); [apply sim_updates; [auto|unfold zlen; lia]| |lia]. intros y ? (<- & LY & FY).
        apply sim_let. sret. split; [unfold lf_rel; cbn; conj; auto|unfold lf_wf; cbn; conj; auto; lia].
Qed.

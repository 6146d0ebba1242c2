(** Frame header: general part, frame size and references. *)
From Coq Require Import ZArith List Bool Lia.
From Verif Require Import Base.CInt Base.Lemmas Base.Finite GetBits.Model GetBits.Spec GetBits.Abstract
  GetBits.Proofs GetBits.SpecProg GetBits.Sim GetBits.VarLen GetBits.Reads Obu.SimTac Obu.SeqModel Obu.SeqRel
  Obu.SeqProofs Obu.FrameModel Obu.FrameRel Obu.FrameSec Obu.FrameSec2.
Import ListNotations.
Open Scope Z_scope.

(** temporal_point_info(). *)
Lemma sim_point : forall sh ss N, seq_rel sh ss -> seq_wf sh -> 32 <= N ->
  sim N (if z2b (decoder_model_info_present (sh_timing sh)) && negb (z2b (equal_picture_interval (sh_timing sh)))
         then bits (frame_presentation_delay_length (sh_timing sh)) else Ret 0)
    (F.temporal_point ss) (fun x y => x = y /\ 0 <= x < 2 ^ 32).
Proof.
  intros sh ss N HR HW HN. unfold F.temporal_point.
  assert (HT : timing_rel (sh_timing sh) (S.timing_ ss)) by apply HR.
  assert (WT : timing_wf (sh_timing sh)) by apply HW.
  destruct HT as (_ & _ & _ & E1 & _ & E2 & _ & _ & _ & E3). destruct WT as (W1 & _ & W2 & W3).
  rewrite <- E2 in *. rewrite <- E1.
  rewrite !z2b_1 by lia.
  replace (negb (equal_picture_interval (sh_timing sh) =? 1)) with (equal_picture_interval (sh_timing sh) =? 0) by lia.
  apply sim_if; [auto| |]; intros HC.
  - apply andb_prop in HC. destruct HC as (HC & _). apply Z.eqb_eq in HC. specialize (W3 HC).
    unfold plus1_if in E3. rewrite HC in E3. cbn [Z.eqb Pos.eqb] in E3. rewrite <- E3.
    eapply sim_weaken; [apply sim_f with (N := 32); lia|lia|]. cbv beta. intros x y (-> & H). split; auto.
    assert (2 ^ frame_presentation_delay_length (sh_timing sh) <= 2 ^ 32) by (apply Z.pow_le_mono_r; lia). lia.
  - sret. split; [auto|lia].
Qed.

Lemma land1_odd : forall x, z2b (Z.land x 1) = Z.odd x.
Proof.
  intros. change 1 with (Z.ones 1). rewrite Z.land_ones by lia. change (2 ^ 1) with 2.
  rewrite Zmod_odd. destruct (Z.odd x); reflexivity.
Qed.

Lemma sim_brt : forall sh ss tid sid N ops sops rest red, seq_rel sh ss -> seq_wf sh -> 0 <= tid -> 0 <= sid ->
  decoder_model_info_present (sh_timing sh) = 1 ->
  Forall2 (op_rel red) ops sops -> Forall op_wf ops -> 32 * Z.of_nat (length sops) <= N ->
  sim N (parse_brt sh tid sid (ops ++ rest) (length sops)) (F.buffer_removal_times ss tid sid sops)
    (fun x y => x = y /\ length x = length sops).
Proof.
  intros sh ss tid sid N ops sops rest red HR HW Ht Hs HD HF. revert N.
  assert (HT : timing_rel (sh_timing sh) (S.timing_ ss)) by apply HR.
  assert (WT : timing_wf (sh_timing sh)) by apply HW.
  destruct HT as (_ & _ & _ & _ & _ & E2 & _ & _ & E3 & _). destruct WT as (_ & _ & _ & W3). specialize (W3 HD).
  unfold plus1_if in E3. rewrite <- E2, HD in E3. cbn [Z.eqb Pos.eqb] in E3.
  induction HF as [|op sop ops sops HO HF IH]; intros N HWF HN; cbn [parse_brt F.buffer_removal_times length app].
  - sret. auto.
  - inversion HWF as [|? ? WO WOS]; subst. cbn [length] in HN.
    bnd 32 (fun x y : Z => x = y).
    { destruct HO as (EI & _ & _ & _ & EM & _). destruct WO as (WI & WM). rewrite <- EI, <- EM.
      rewrite (z2b_1 _ WM). destruct (op_decoder_model_param_present op =? 1); [|sret; auto].
      rewrite !land1_odd. rewrite !shiftr_div by lia.
      replace (negb (z2b (op_idc op))) with (op_idc op =? 0) by (unfold z2b; rewrite negb_involutive; reflexivity).
      destruct (_ || _); [|sret; auto]. rewrite <- E3.
      eapply sim_weaken; [apply sim_f with (N := 32); lia|lia|]. cbv beta. intros; tauto. }
    intros v ? <-. eapply sim_bind with (N1 := 32 * Z.of_nat (length sops)); [apply IH; auto; lia| |lia].
    intros l ? (<- & L). sret. split; [auto|cbn [length]; lia].
Qed.

(** The part after error_resilient_mode. *)
Definition pre_tail (seq : seq_hdr) (tid sid ft shf fpd sbl erm : Z) : rd fprefix :=
 (let rsph := reduced_still_picture_header seq in
  let t := sh_timing seq in
  do dcu <- bit;
  do asct <- (if screen_content_tools (sh_tools seq) =? DAV1D_ADAPTIVE then bit
              else Ret (screen_content_tools (sh_tools seq)));
  do fim <- (if z2b asct then
               if force_integer_mv (sh_tools seq) =? DAV1D_ADAPTIVE then bit
               else Ret (force_integer_mv (sh_tools seq))
             else Ret 0);
  let fim := if is_key_or_intra ft then 1 else fim in
  do fid <- (if z2b (frame_id_numbers_present seq) then bits (frame_id_n_bits seq) else Ret 0);
  do fso <- (if z2b rsph then Ret 0 else if ft =? FT_SWITCH then Ret 1 else bit);
  do fo <- (if z2b (order_hint (sh_tools seq)) then bits (order_hint_n_bits (sh_tools seq)) else Ret 0);
  do prf <- (if negb (z2b erm) && is_inter_or_switch ft then bits 3 else Ret PRIMARY_REF_NONE);
  do (brtp, brt) <-
    (if z2b (decoder_model_info_present t) then
       do p <- bit;
       if z2b p then
         do l <- parse_brt seq tid sid (operating_points seq) (Z.to_nat (num_operating_points seq));
         Ret (p, l)
       else Ret (p, [])
     else Ret (0, []));
  Ret (mkFprefix ft shf sbl fpd erm dcu asct fim fid fso fo prf brtp (pad 32 0 brt)))%rd.
Definition gen_tail (s : S.sequence_header) (tid sid ft show time showable erm : Z) : sp F.general :=
 (let t := S.tools_ s in
  let reduced := S.reduced_still_picture_header s =? 1 in
  let* dcu := f 1 in
  let* asct := (if S.seq_force_screen_content_tools t =? S.SELECT_SCREEN_CONTENT_TOOLS then f 1
                else SRet (S.seq_force_screen_content_tools t)) in
  let* fim := (if asct =? 1 then
                 if S.seq_force_integer_mv t =? S.SELECT_INTEGER_MV then f 1 else SRet (S.seq_force_integer_mv t)
               else SRet 0) in
  let fim := if F.FrameIsIntra ft then 1 else fim in
  let* fid := (if S.frame_id_numbers_present_flag s =? 1 then f (F.idLen s) else SRet 0) in
  let* fso := (if ft =? F.SWITCH_FRAME then SRet 1 else if reduced then SRet 0 else f 1) in
  let* oh := (if S.enable_order_hint t =? 1 then f (S.OrderHintBits t) else SRet 0) in
  let* prf := (if F.FrameIsIntra ft || (erm =? 1) then SRet F.PRIMARY_REF_NONE else f 3) in
  let* (brp, brt) :=
    (if S.decoder_model_info_present_flag (S.timing_ s) =? 1 then
       let* brp := f 1 in
       if brp =? 1 then
         let* l := F.buffer_removal_times s tid sid (S.operating_points s) in
         SRet (1, l)
       else SRet (0, [])
     else SRet (0, [])) in
  SRet (F.mkGeneral ft show showable time erm dcu asct fim fid fso oh prf brp brt))%sp.

Lemma sim_tail : forall sh ss tid sid ft shf fpd sbl erm N, seq_rel sh ss -> seq_wf sh -> 0 <= tid -> 0 <= sid ->
  1100 <= N -> 0 <= ft <= 3 -> 0 <= shf <= 1 -> 0 <= sbl <= 1 -> 0 <= erm <= 1 ->
  (reduced_still_picture_header sh = 1 -> ft = 0) ->
  sim N (pre_tail sh tid sid ft shf fpd sbl erm) (gen_tail ss tid sid ft shf fpd sbl erm)
    (fun p g => prefix_rel p g /\ prefix_wf p).
Proof.
  intros sh ss tid sid ft shf fpd sbl erm N HR HW Ht Hs HN Hft Hshf Hsbl Herm Hred. unfold pre_tail, gen_tail. cbv zeta.
  assert (Er : reduced_still_picture_header sh = S.reduced_still_picture_header ss) by apply HR.
  assert (Wr : 0 <= reduced_still_picture_header sh <= 1) by apply HW.
  assert (Wd : reduced_still_picture_header sh = 1 -> decoder_model_info_present (sh_timing sh) = 0) by apply HW.
  assert (Es : screen_content_tools (sh_tools sh) = S.seq_force_screen_content_tools (S.tools_ ss)) by apply HR.
  assert (Wsc : 0 <= screen_content_tools (sh_tools sh) <= 2) by apply HW.
  assert (Ef : force_integer_mv (sh_tools sh) = S.seq_force_integer_mv (S.tools_ ss)) by apply HR.
  assert (Wf : 0 <= force_integer_mv (sh_tools sh) <= 2) by apply HW.
  assert (Ei : frame_id_numbers_present sh = S.frame_id_numbers_present_flag ss) by apply HR.
  assert (Wi : 0 <= frame_id_numbers_present sh <= 1) by apply HW.
  assert (Ein : frame_id_n_bits sh = (if S.frame_id_numbers_present_flag ss =? 1 then F.idLen ss else 0)) by apply HR.
  assert (Win : frame_id_numbers_present sh = 1 -> 2 <= delta_frame_id_n_bits sh <= 17 /\ 3 <= frame_id_n_bits sh <= 25) by apply HW.
  assert (Eo : order_hint (sh_tools sh) = S.enable_order_hint (S.tools_ ss)) by apply HR.
  assert (Wo : 0 <= order_hint (sh_tools sh) <= 1) by apply HW.
  assert (Eon : order_hint_n_bits (sh_tools sh) = S.OrderHintBits (S.tools_ ss)) by apply HR.
  assert (Won : 0 <= order_hint_n_bits (sh_tools sh) <= 8) by apply HW.
  assert (Won1 : order_hint (sh_tools sh) = 1 -> 1 <= order_hint_n_bits (sh_tools sh)) by apply HW.
  assert (Ed : decoder_model_info_present (sh_timing sh) = S.decoder_model_info_present_flag (S.timing_ ss)) by apply HR.
  assert (Wd2 : 0 <= decoder_model_info_present (sh_timing sh) <= 1) by apply HW.
  rewrite <- Er, <- Es, <- Ef, <- Ei, <- Eo, <- Eon, <- Ed. rewrite <- Ei in Ein.
    pose proof (intra_spec _ Hft) as EI. unfold intra_eq in EI.
    rd1 dcu.
    bnd 1 (eqr 0 1).
    { change S.SELECT_SCREEN_CONTENT_TOOLS with DAV1D_ADAPTIVE. unfold DAV1D_ADAPTIVE.
      destruct (Z.eqb_spec (screen_content_tools (sh_tools sh)) 2); [sbitr|sret; split; lia]. }
    intros asct ? [<- Hasct].
    bnd 1 (eqr 0 1).
    { change S.SELECT_INTEGER_MV with DAV1D_ADAPTIVE. unfold DAV1D_ADAPTIVE.
      flag asct; [sret; split; lia|].
      destruct (Z.eqb_spec (force_integer_mv (sh_tools sh)) 2); [sbitr|sret; split; lia]. }
    intros fim ? [<- Hfim]. cbv zeta.
    bnd 25 (fun x y => x = y /\ 0 <= x < 2 ^ 25).
    { rewrite z2b_1 by lia. destruct (Z.eqb_spec (frame_id_numbers_present sh) 1) as [E|].
      - specialize (Win E). rewrite <- Ein.
        eapply sim_weaken; [apply sim_f with (N := 25); lia|lia|]. cbv beta. intros x y (-> & H). split; auto.
        assert (2 ^ frame_id_n_bits sh <= 2 ^ 25) by (apply Z.pow_le_mono_r; lia). lia.
      - sret. split; [auto|lia]. }
    intros fid ? (<- & Hfid).
    bnd 1 (eqr 0 1).
    { change F.SWITCH_FRAME with 3. unfold FT_SWITCH. rewrite z2b_1 by lia.
      destruct (Z.eqb_spec ft 3).
      - replace (reduced_still_picture_header sh =? 1) with false by lia. sret. split; lia.
      - destruct (reduced_still_picture_header sh =? 1); [sret; split; lia|sbitr]. }
    intros fso ? [<- Hfso].
    bnd 8 (eqr 0 255).
    { rewrite z2b_1 by lia. destruct (Z.eqb_spec (order_hint (sh_tools sh)) 1) as [E|].
      - specialize (Won1 E).
        eapply sim_weaken; [apply sim_f with (N := 8); lia|lia|]. cbv beta. intros x y (-> & H). split; auto.
        assert (2 ^ order_hint_n_bits (sh_tools sh) <= 2 ^ 8) by (apply Z.pow_le_mono_r; lia). lia.
      - sret. split; [auto|lia]. }
    intros fo ? [<- Hfo].
    bnd 3 (fun x y => x = y /\ 0 <= x <= 7 /\ (x <> 7 -> is_inter_or_switch ft = true)).
    { rewrite EI, z2b_1 by lia.
      destruct (F.FrameIsIntra ft); cbn [negb andb orb]; rewrite ?andb_false_r, ?andb_true_r.
      - sret. unfold PRIMARY_REF_NONE, F.PRIMARY_REF_NONE. conj; auto; lia.
      - destruct (erm =? 1); cbn [negb].
        + sret. unfold PRIMARY_REF_NONE, F.PRIMARY_REF_NONE. conj; auto; lia.
        + eapply sim_weaken; [apply sim_f with (N := 3); lia|lia|]. cbv beta. intros; conj; auto; lia. }
    intros prf ? (<- & Hprf & Hprf2).
    bnd 1025 (fun (x y : Z * list Z) => x = y /\ (length (snd x) <= 32)%nat /\ 0 <= fst x <= 1).
    { rewrite z2b_1 by lia. destruct (Z.eqb_spec (decoder_model_info_present (sh_timing sh)) 1) as [E|].
      2:{ sret. cbn. conj; auto; lia. }
      rd1 p. flag p; [sret; cbn; conj; auto; lia|].
      assert (HOP : num_operating_points sh = zlen (S.operating_points ss)) by apply HR.
      assert (WOP : 1 <= num_operating_points sh <= 32) by apply HW.
      assert (HO : exists ops ois,
        operating_points sh = ops ++ repeat op_point0 (32 - length (S.operating_points ss)) /\
        operating_parameter_info sh = ois ++ repeat op_info0 (32 - length (S.operating_points ss)) /\
        Forall2 (op_rel (S.reduced_still_picture_header ss)) ops (S.operating_points ss) /\
        Forall2 oi_rel ois (S.operating_points ss)) by apply HR.
      assert (WO : Forall op_wf (operating_points sh)) by apply HW.
      destruct HO as (ops & _ & EO & _ & FO & _). rewrite EO in WO |- *. apply Forall_app in WO. destruct WO as (WO & _).
      rewrite HOP. unfold zlen in *. rewrite Nat2Z.id.
      eapply sim_bind with (N1 := 1024); [eapply sim_brt; eauto; lia| |lia].
      intros l ? (<- & L). sret. cbn [fst snd]. conj; auto; lia. }
    intros [brp brt] ? (<- & HL & Hbrp). cbn [fst snd] in HL, Hbrp. sret.
    assert (EK : is_key_or_intra ft = F.FrameIsIntra ft).
    { clear - Hft. assert (ft = 0 \/ ft = 1 \/ ft = 2 \/ ft = 3) as [->|[->|[->| ->]]] by lia; reflexivity. }
    split.
    - unfold prefix_rel. cbn. rewrite EK. conj; auto.
    - unfold prefix_wf, PRIMARY_REF_NONE. cbn [frame_type show_frame showable_frame error_resilient_mode disable_cdf_update
        allow_screen_content_tools fforce_integer_mv frame_id frame_size_override frame_offset primary_ref_frame buffer_removal_time].
      conj; auto; try lia.
      + destruct (is_key_or_intra ft); lia.
      + destruct (is_key_or_intra ft); lia.
      + apply pad_length. auto.
Qed.

Lemma sim_general : forall sh ss tid sid N, seq_rel sh ss -> seq_wf sh -> 0 <= tid -> 0 <= sid -> 1200 <= N ->
  sim N (parse_prefix sh tid sid) (F.general_part ss tid sid) (fun p g => prefix_rel p g /\ prefix_wf p).
Proof.
  intros sh ss tid sid N HR HW Ht Hs HN. unfold parse_prefix, F.general_part. cbv zeta.
  assert (Er : reduced_still_picture_header sh = S.reduced_still_picture_header ss) by apply HR.
  assert (Wr : 0 <= reduced_still_picture_header sh <= 1) by apply HW.
  assert (Wd : reduced_still_picture_header sh = 1 -> decoder_model_info_present (sh_timing sh) = 0) by apply HW.
  pose proof (sim_tail sh ss tid sid) as TAIL.
  unfold pre_tail, gen_tail in TAIL. cbv zeta in TAIL.
  rewrite (z2b_1 (reduced_still_picture_header sh)) in * by lia. rewrite <- Er in *.
  destruct (Z.eqb_spec (reduced_still_picture_header sh) 1) as [E|E].
  - apply sim_let. apply sim_let. cbn [z2b Z.eqb negb].
    replace (z2b (decoder_model_info_present (sh_timing sh)) && negb (z2b (equal_picture_interval (sh_timing sh)))) with false
      by (rewrite (Wd E); reflexivity).
    apply rbind_assoc_sim. apply sim_let. apply sim_let. change (FT_KEY =? FT_KEY) with true. cbn [negb b2z andb orb].
    apply sim_let. apply sim_bind_ret_r. apply (TAIL FT_KEY 1 0 0 1); auto; unfold FT_KEY; lia.
  - asso. rdn ft 2. change (2 ^ 2) with 4 in *. asso. rd1 shf. asso.
    assert (HE : forall N', 1 <= N' ->
      sim N' (if ((ft =? FT_KEY) && z2b shf) || (ft =? FT_SWITCH) || false then Ret 1 else bit)
        (if (ft =? F.SWITCH_FRAME) || ((ft =? F.KEY_FRAME) && (shf =? 1)) then SRet 1 else f 1) (eqr 0 1)).
    { intros N' HN'. rewrite orb_false_r, orb_comm, z2b_1 by lia.
      change F.SWITCH_FRAME with FT_SWITCH. change F.KEY_FRAME with FT_KEY.
      destruct (_ || _); [sret; split; lia|sbitr]. }
    flag shf.
    + apply sim_bind_ret_r. asso. apply rbind_assoc_sim. rd1 sbl. apply sim_let. asso.
      eapply sim_bind with (N1 := 1); [apply HE; lia| |lia]. intros erm ? [<- Herm].
      apply sim_bind_ret_r. apply (TAIL ft 0 0 sbl erm); auto; lia.
    + apply rbind_assoc_sim.
      eapply sim_bind with (N1 := 32); [apply sim_point; auto; lia| |lia]. intros fpd ? (<- & Hfpd).
      apply sim_let. asso. apply sim_bind_ret_r. asso.
      eapply sim_bind with (N1 := 1); [apply HE; lia| |lia]. intros erm ? [<- Herm].
      apply sim_bind_ret_r. change F.KEY_FRAME with FT_KEY.
      replace (if ft =? FT_KEY then 0 else 1) with (b2z (negb (ft =? FT_KEY))) by (destruct (ft =? FT_KEY); reflexivity).
      apply (TAIL ft 1 fpd (b2z (negb (ft =? FT_KEY))) erm); auto; try lia.
      destruct (ft =? FT_KEY); cbn; lia.
Qed.

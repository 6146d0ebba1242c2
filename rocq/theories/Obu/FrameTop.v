(** Frame header: the complete parser against the complete syntax table. *)
From Coq Require Import ZArith List Bool Lia.
From Verif Require Import Base.CInt Base.Lemmas Base.Finite GetBits.Model GetBits.Spec GetBits.Abstract
  GetBits.Proofs GetBits.SpecProg GetBits.Sim GetBits.VarLen GetBits.Reads Obu.SimTac Obu.SeqModel Obu.SeqRel
  Obu.FrameModel Obu.FrameRel Obu.FrameSec Obu.FrameSec2 Obu.FrameSec3 Obu.FramePre Obu.FrameRef2 Obu.FrameTiles.
Import ListNotations.
Open Scope Z_scope.

Lemma sim_show_existing : forall sh ss refs srefs tid sid N, seq_rel sh ss -> seq_wf sh -> slots_rel refs srefs -> 100 <= N ->
  sim N
    (rbind (bits 3) (fun idx =>
     rbind (if z2b (decoder_model_info_present (sh_timing sh)) && negb (z2b (equal_picture_interval (sh_timing sh)))
            then bits (frame_presentation_delay_length (sh_timing sh)) else Ret 0) (fun fpd =>
     rbind (if z2b (frame_id_numbers_present sh) then
              rbind (bits (frame_id_n_bits sh)) (fun fid =>
              rbind (get_ref refs idx) (fun h =>
              if negb (frame_id (f_pre h) =? fid) then err else Ret fid))
            else Ret 0) (fun fid =>
     Ret (show_existing_hdr tid sid idx fpd fid)))))
    (sbind (f 3) (fun idx => sbind (F.temporal_point ss) (fun time =>
     sbind (if S.frame_id_numbers_present_flag ss =? 1 then
              sbind (f (F.idLen ss)) (fun display_frame_id =>
              sbind (F.slot srefs idx) (fun r =>
              sbind (require (F.RefFrameId r =? display_frame_id)) (fun _ => SRet display_frame_id)))
            else SRet 0) (fun fid =>
     SRet (F.ShowExisting idx time fid)))))
    (fun h s => hdr_rel h s /\ hdr_wf sh h).
Proof.
  intros sh ss refs srefs tid sid N R W HS HN.
  rdn idx 3. change (2 ^ 3) with 8 in Hidx.
  eapply sim_bind with (N1 := 32); [apply sim_point; auto; lia| |lia].
  intros fpd ? (<- & Hf). cbv beta.
  assert (Ef : frame_id_numbers_present sh = S.frame_id_numbers_present_flag ss) by apply R.
  assert (Wf : 0 <= frame_id_numbers_present sh <= 1) by apply W.
  eapply sim_bind with (N1 := 40) (S := eq).
  - rewrite <- Ef. apply sim_if; [apply z2b_1; lia| |intros _; sret; reflexivity].
    intros Z1. rewrite z2b_1 in Z1 by lia. apply Z.eqb_eq in Z1.
    assert (EN : frame_id_n_bits sh = (if S.frame_id_numbers_present_flag ss =? 1 then F.idLen ss else 0)) by apply R.
    rewrite <- Ef, Z1 in EN. cbn [Z.eqb Pos.eqb] in EN.
    assert (WN : frame_id_numbers_present sh = 1 -> 2 <= delta_frame_id_n_bits sh <= 17 /\ 3 <= frame_id_n_bits sh <= 25)
      by apply W.
    specialize (WN Z1). rewrite <- EN.
    eapply sim_bind with (N1 := frame_id_n_bits sh); [apply sim_f; lia| |lia].
    intros fid ? (<- & Hfid). cbv beta.
    eapply sim_bind with (N1 := 0); [apply sim_slot; auto; lia| |lia].
    intros h r (SR & SW & _). cbv beta.
    assert (EI : frame_id (f_pre h) = F.RefFrameId r) by apply SR. rewrite EI.
    apply sim_require; [lia|reflexivity|intros _]. sret. reflexivity.
  - intros fid ? <-. sret. split.
    + red. cbn. auto.
    + left. split; [reflexivity|]. cbn [show_existing_hdr existing_frame_idx]. lia.
  - lia.
Qed.

Lemma sim_coded : forall sh ss refs srefs strict tid sid N, seq_rel sh ss -> seq_wf sh -> slots_rel refs srefs ->
  0 <= tid -> 0 <= sid -> 15000 <= N ->
  sim N
   (rbind (parse_prefix sh tid sid) (fun p =>
    rbind (parse_refs sh refs strict p) (fun r =>
    rbind (if negb (z2b (reduced_still_picture_header sh)) && negb (z2b (disable_cdf_update p)) then
             rbind bit (fun b => Ret (b2z (negb (z2b b)))) else Ret 0) (fun rc =>
    rbind (parse_tiling sh (width0 (fsz r)) (fheight (fsz r))) (fun tl =>
    rbind (parse_quant sh) (fun q =>
    rbind (parse_seg refs p (refidx r)) (fun sg =>
    rbind (parse_delta (yac q) (allow_intrabc r)) (fun dl =>
    let lossless := lossless_of q sg in
    let al := all_lossless_of lossless in
    rbind (parse_lf sh refs p (refidx r) al (allow_intrabc r)) (fun lf =>
    rbind (parse_cdef sh al (allow_intrabc r)) (fun cd =>
    rbind (parse_lr sh al (sr_enabled (fsz r)) (allow_intrabc r)) (fun lr =>
    rbind (if z2b al then Ret TX_4X4_ONLY
              else rbind bit (fun b => Ret (if z2b b then TX_SWITCHABLE else TX_LARGEST))) (fun tx =>
    rbind (if is_inter_or_switch (frame_type p) then bit else Ret 0) (fun scr =>
    rbind (skip_mode sh refs p (refidx r) scr) (fun sm =>
    rbind (match sm with Some _ => bit | None => Ret 0 end) (fun sme =>
    rbind (if negb (z2b (error_resilient_mode p)) && is_inter_or_switch (frame_type p) &&
                 z2b (warped_motion (sh_tools sh)) then bit else Ret 0) (fun wm =>
    rbind bit (fun rts =>
    rbind (if is_inter_or_switch (frame_type p) then parse_gmvs refs p r 7 0
              else Ret (repeat default_wm 7)) (fun gm =>
    rbind (parse_fg sh refs p (refidx r)) (fun '(fp, fu, fd) =>
    Ret (mkFrameHdr tid sid 0 0 p r rc tl q sg dl (qidx_of q sg) lossless al lf cd lr tx scr
           (match sm with Some _ => 1 | None => 0 end) sme (match sm with Some x => x | None => (0, 0) end)
           wm rts gm fp fu fd))))))))))))))))))))
   (F.coded_frame_header ss srefs strict tid sid)
   (fun h s => coded_rel h s /\ coded_wf sh h /\ show_existing_frame h = 0).
Proof.
  intros sh ss refs srefs strict tid sid N R W HS Ht Hs HN. unfold F.coded_frame_header. cbv zeta.
  eapply sim_bind with (N1 := 1200); [apply sim_general; auto; lia| |lia].
  intros p g (PR & PW). cbv beta.
  eapply sim_bind with (N1 := 600); [apply sim_refs; auto; lia| |lia].
  intros r rf (RR & RW & RI). cbv beta.
  assert (Er : reduced_still_picture_header sh = S.reduced_still_picture_header ss) by apply R.
  assert (Wr : 0 <= reduced_still_picture_header sh <= 1) by apply W.
  assert (Ed : disable_cdf_update p = F.disable_cdf_update g) by apply PR.
  assert (Wd : 0 <= disable_cdf_update p <= 1) by apply PW.
  eapply sim_bind with (N1 := 1) (S := fun x y => x = 1 - y /\ 0 <= x <= 1); [| |lia].
  { rewrite <- Er, <- Ed.
    assert (reduced_still_picture_header sh = 0 \/ reduced_still_picture_header sh = 1) as [E|E] by lia; rewrite E;
    assert (disable_cdf_update p = 0 \/ disable_cdf_update p = 1) as [E'|E'] by lia; rewrite E';
    cbn [z2b negb Z.eqb andb orb Pos.eqb]; try (sret; lia).
    eapply sim_map_l; [apply sim_f1; lia|]. cbv beta. intros x ? (<- & Hx).
    assert (x = 0 \/ x = 1) as [-> | ->] by lia; cbn; lia. }
  intros rc dfe (HRC & WRC). cbv beta. clear Er Wr Ed Wd.
  assert (SR : fsize_rel (fsz r) (F.size_ rf)) by apply RR.
  assert (SW : fsize_wf (fsz r)) by apply RW.
  destruct SR as (S1 & _ & S2 & _ & _ & S3 & _). destruct SW as (T1 & T2 & T3 & _ & _ & T4 & _).
  rewrite <- S1, <- S2, <- S3.
  eapply sim_bind with (N1 := 4200); [apply sim_tiling; auto; lia| |lia].
  intros tl tls (TR & TW). cbv beta.
  eapply sim_bind with (N1 := 64); [apply sim_quant; auto; lia| |lia].
  intros q qs (QR & QW). cbv beta.
  assert (PO : pri_ok p g (refidx r) (F.ref_frame_idx rf)).
  { red. split; [apply PR|]. split; [apply PW|]. split; [apply RW|]. split; [apply RW|].
    intros HP. apply RI. apply PW. exact HP. }
  eapply sim_bind with (N1 := 600); [apply sim_seg; auto; lia| |lia].
  intros sg sgs (GR & GW & G0). cbv beta.
  assert (Ei : allow_intrabc r = F.allow_intrabc rf) by apply RR.
  assert (Wi : 0 <= allow_intrabc r <= 1) by apply RW.
  assert (Ey : yac q = F.base_q_idx qs) by apply QR.
  assert (Wy : 0 <= yac q <= 255) by apply QW.
  rewrite <- Ei, <- Ey.
  eapply sim_bind with (N1 := 8); [apply sim_delta; auto; lia| |lia].
  intros dl dls (DR & DW). cbv beta.
  destruct (lossless_ok q qs sg sgs QR QW GR GW G0) as (LL & LA).
  destruct (qidx_ok q qs sg sgs QR QW GR GW G0) as (QI & QL).
  rewrite LA. set (al := F.CodedLossless qs (F.FeatureData sgs)) in *.
  eapply sim_bind with (N1 := 200); [apply sim_lf; auto; lia| |lia].
  intros lf lfs (LR & LW). cbv beta.
  eapply sim_bind with (N1 := 120); [apply sim_cdef; auto; lia| |lia].
  intros cd cds (CR & CW). cbv beta.
  eapply sim_bind with (N1 := 16); [apply sim_lr; auto; lia| |lia].
  intros lr lrs (LRR & LRW). cbv beta.
  eapply sim_bind with (N1 := 1) (S := fun x y => x = tx_mode_of y /\ 0 <= x <= 2); [| |lia].
  { destruct al; cbn [b2z z2b Z.eqb negb].
    - sret. split; [reflexivity|vm_compute; split; discriminate].
    - eapply sim_map_l with (S := fun x y => 0 <= x <= 1 /\ y = Some x).
      + eapply sim_map_r; [apply sim_f1; lia|]. cbv beta. intros x ? (<- & Hx). split; [lia|reflexivity].
      + cbv beta. intros x y (Hx & ->). assert (x = 0 \/ x = 1) as [-> | ->] by lia;
          (split; [reflexivity|vm_compute; split; discriminate]). }
  intros tx txs (TX & WTX). cbv beta.
  assert (WF : 0 <= frame_type p <= 3) by apply PW.
  pose proof (intra_spec _ WF) as EI. unfold intra_eq in EI.
  assert (Ef : frame_type p = F.frame_type g) by apply PR. rewrite <- Ef.
  eapply sim_bind with (N1 := 1) (S := eqr 0 1); [| |lia].
  { rewrite EI. destruct (F.FrameIsIntra (frame_type p)); cbn [negb]; [sret; split; lia|sbitr]. }
  intros scr ? (<- & Hscr). cbv beta.
  eapply sim_bind with (N1 := 0); [apply sim_skip_mode; auto; try lia; apply RW| |lia].
  intros sm ? (<- & Hsm). cbv beta.
  eapply sim_bind with (N1 := 1) (S := fun x y => x = y /\ 0 <= x <= match sm with Some _ => 1 | None => 0 end); [| |lia].
  { destruct sm; [sbitr|sret; lia]. }
  intros sme ? (<- & Hsme). cbv beta.
  assert (Ee : error_resilient_mode p = F.error_resilient_mode g) by apply PR.
  assert (We : 0 <= error_resilient_mode p <= 1) by apply PW.
  assert (Ew : warped_motion (sh_tools sh) = S.enable_warped_motion (S.tools_ ss)) by apply R.
  assert (Ww : 0 <= warped_motion (sh_tools sh) <= 1) by apply W.
  eapply sim_bind with (N1 := 1) (S := eqr 0 1); [| |lia].
  { rewrite EI, <- Ee, <- Ew. 
    assert (error_resilient_mode p = 0 \/ error_resilient_mode p = 1) as [E|E] by lia; rewrite E;
    assert (warped_motion (sh_tools sh) = 0 \/ warped_motion (sh_tools sh) = 1) as [E'|E'] by lia; rewrite E';
    destruct (F.FrameIsIntra (frame_type p));
    cbn [z2b negb Z.eqb andb orb Pos.eqb]; first [sret; split; lia | sbitr]. }
  intros wm ? (<- & Hwm). cbv beta.
  rd1 rts.
  eapply sim_bind with (N1 := 4200); [apply sim_gm; auto; try lia| |lia].
  { red. split; [exact PO|]. split; [apply RR|apply RW]. }
  intros gm gms (GMR & GMW & GML). cbv beta.
  eapply sim_bind with (N1 := 1400); [apply sim_fg; auto; try lia; apply RW| |lia].
  intros ((fp, fu), fd) ((ap, up), fg) (F1 & F2 & F3 & F4 & F5 & F6). cbv beta iota.
  sret. subst ap up. split; [|split; [|reflexivity]].
  - red. cbn [show_existing_frame f_pre f_refs refresh_context f_tiling f_quant f_seg f_delta f_qidx f_lossless all_lossless
      f_lf f_cdef f_lr txfm_mode switchable_comp_refs skip_mode_allowed skip_mode_refs skip_mode_enabled warp_motion
      reduced_txtp_set f_gmv fg_present fg_update f_fg
      F.general_ F.references_ F.disable_frame_end_update_cdf F.tiles_ F.quantization_ F.segmentation_ F.delta_
      F.loop_filter_ F.cdef_ F.restoration_ F.tx_mode_select F.reference_select F.skip_mode_frames F.skip_mode_present
      F.allow_warped_motion F.reduced_tx_set F.gm_ F.apply_grain F.update_grain F.grain_].
    repeat (apply conj; [solve [auto | destruct sm; reflexivity]|]). auto.
  - red. cbn [show_existing_frame f_pre f_refs refresh_context f_tiling f_quant f_seg f_delta f_qidx f_lossless all_lossless
      f_lf f_cdef f_lr txfm_mode switchable_comp_refs skip_mode_allowed skip_mode_refs skip_mode_enabled warp_motion
      reduced_txtp_set f_gmv fg_present fg_update f_fg].
    assert (HM : 0 <= match sm with Some _ => 1 | None => 0 end <= 1) by (destruct sm; lia).
    assert (HS2 : match sm with Some _ => 1 | None => 0 end = 1 ->
      0 <= fst (match sm with Some x => x | None => (0, 0) end) < snd (match sm with Some x => x | None => (0, 0) end) /\
      snd (match sm with Some x => x | None => (0, 0) end) <= 6).
    { destruct sm as [(x, y)|]; [intros _; exact Hsm|discriminate]. }
    repeat (apply conj; [solve [auto | tauto]|]). auto.
Qed.

(** The parser and the syntax table agree on every input: same accept or
    reject, same number of bits, same values; accepted headers are in range. *)
Theorem sim_frame_hdr : forall sh ss refs srefs strict tid sid N, seq_rel sh ss -> seq_wf sh -> slots_rel refs srefs ->
  0 <= tid -> 0 <= sid -> 15200 <= N ->
  sim N (parse_frame_hdr sh refs strict tid sid) (F.uncompressed_header ss srefs strict tid sid)
    (fun h s => hdr_rel h s /\ hdr_wf sh h).
Proof.
  intros sh ss refs srefs strict tid sid N R W HS Ht Hs HN. unfold parse_frame_hdr, F.uncompressed_header. cbv zeta.
  assert (Er : reduced_still_picture_header sh = S.reduced_still_picture_header ss) by apply R.
  assert (Wr : 0 <= reduced_still_picture_header sh <= 1) by apply W.
  eapply sim_bind with (N1 := 1) (S := eqr 0 1); [| |lia].
  { rewrite <- Er. assert (reduced_still_picture_header sh = 0 \/ reduced_still_picture_header sh = 1) as [E|E] by lia;
    rewrite E; cbn [z2b negb Z.eqb Pos.eqb]; [sbitr|sret; split; lia]. }
  intros sef ? (<- & Hsef). cbv beta.
  apply sim_if; [apply z2b_1; lia|intros _|intros _].
  - eapply sim_weaken; [apply (sim_show_existing sh ss refs srefs tid sid 100); auto; lia|lia|auto].
  - eapply sim_map_r; [eapply (sim_coded sh ss refs srefs strict tid sid); auto; lia|].
    cbv beta. intros h s (A & B & C). split; [exact A|]. right. auto.
Qed.

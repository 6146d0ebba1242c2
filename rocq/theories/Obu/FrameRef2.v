(** Frame header: frame size, reference indices and the frame-type dependent
    part. *)
From Coq Require Import ZArith Znumtheory List Bool Lia.
From Verif Require Import Base.CInt Base.Lemmas Base.Finite GetBits.Model GetBits.Spec GetBits.Abstract
  GetBits.Proofs GetBits.SpecProg GetBits.Sim GetBits.VarLen GetBits.Reads Obu.SimTac Obu.SeqModel Obu.SeqRel
  Obu.SeqProofs Obu.FrameModel Obu.FrameRel Obu.FrameSec Obu.FrameSec2 Obu.FrameSec3 Obu.FrameRefs.
Import ListNotations.
Open Scope Z_scope.

(** * Frame size *)
Lemma sr_width : forall w d, 1 <= w -> 9 <= d <= 16 ->
  1 <= Z.max ((w * 8 + d / 2) / d) (Z.min 16 w) <= w.
Proof.
  intros w d Hw Hd.
  assert ((w * 8 + d / 2) / d <= w).
  { apply Z.lt_succ_r. apply Z.div_lt_upper_bound; [lia|].
    assert (d / 2 < d) by (apply Z.div_lt_upper_bound; lia). nia. }
  lia.
Qed.

Lemma sim_superres : forall sh ss w N, seq_rel sh ss -> seq_wf sh -> 1 <= w -> 4 <= N ->
  sim N (parse_superres sh w) (F.superres_params ss w)
    (fun x y => x = y /\ let '(en, d, w0) := x in
       0 <= en <= 1 /\ 8 <= d <= 16 /\ 1 <= w0 <= w /\ (en = 0 -> d = 8 /\ w0 = w)).
Proof.
  intros sh ss w N HR HW Hw HN. unfold parse_superres, F.superres_params.
  assert (E : super_res sh = S.enable_superres ss) by apply HR.
  assert (W : 0 <= super_res sh <= 1) by apply HW. rewrite <- E.
  bnd 1 (eqr 0 1).
  { rewrite z2b_1 by lia. destruct (super_res sh =? 1); [sbitr|sret; split; lia]. }
  intros en ? [<- Hen]. flag en.
  - sret. conj; auto; lia.
  - rdn b 3. change (2 ^ 3) with 8 in *. cbv zeta. rewrite shiftr_div by lia. change (2 ^ 1) with 2.
    rewrite (Z.add_comm b 9). sret. pose proof (sr_width w (9 + b) Hw ltac:(lia)).
    conj; auto; lia.
Qed.

Definition size_post (z : fsize) (s : F.frame_size) : Prop := fsize_rel z s /\ fsize_wf z.

Lemma sim_size : forall sh ss refs ov ridx N, seq_rel sh ss -> seq_wf sh -> 0 <= ov <= 1 -> 80 <= N ->
  sim N (read_frame_size sh refs ov ridx false) (F.frame_and_render_size ss ov) size_post.
Proof.
  intros sh ss refs ov ridx N HR HW Hov HN. unfold read_frame_size, F.frame_and_render_size.
  apply sim_let.
  assert (E1 : width_n_bits sh = S.frame_width_bits_minus_1 ss + 1) by apply HR.
  assert (E2 : height_n_bits sh = S.frame_height_bits_minus_1 ss + 1) by apply HR.
  assert (E3 : max_width sh = S.max_frame_width_minus_1 ss + 1) by apply HR.
  assert (E4 : max_height sh = S.max_frame_height_minus_1 ss + 1) by apply HR.
  assert (W1 : 1 <= width_n_bits sh <= 16) by apply HW.
  assert (W2 : 1 <= height_n_bits sh <= 16) by apply HW.
  assert (W3 : 1 <= max_width sh <= 2 ^ width_n_bits sh) by apply HW.
  assert (W4 : 1 <= max_height sh <= 2 ^ height_n_bits sh) by apply HW.
  rewrite <- E1, <- E2, <- E3, <- E4.
  assert (P1 : 2 ^ width_n_bits sh <= 2 ^ 16) by (apply Z.pow_le_mono_r; lia).
  assert (P2 : 2 ^ height_n_bits sh <= 2 ^ 16) by (apply Z.pow_le_mono_r; lia).
  change (2 ^ 16) with 65536 in P1, P2.
  bnd 32 (fun (x y : Z * Z) => x = y /\ 1 <= fst x <= 65536 /\ 1 <= snd x <= 65536).
  { flag ov.
    - sret. cbn [fst snd]. conj; auto; lia.
    - rdn w (width_n_bits sh). rdn h (height_n_bits sh). sret. cbn [fst snd]. conj; auto; lia. }
  intros [w h] ? (<- & Hw & Hh). cbn [fst snd] in Hw, Hh.
  eapply sim_bind with (N1 := 4); [apply sim_superres; eauto; lia| |lia].
  intros [[en d] w0] ? (<- & Hen & Hd & Hw0 & Hz).
  rd1 hrs.
  bnd 32 (fun (x y : Z * Z) => x = y /\ 1 <= fst x <= 65536 /\ 1 <= snd x <= 65536).
  { flag hrs.
    - sret. cbn [fst snd]. conj; auto; lia.
    - rdn a 16. rdn b 16. change (2 ^ 16) with 65536 in *. sret. cbn [fst snd]. conj; auto; lia. }
  intros [rw rh] ? (<- & Hrw & Hrh). cbn [fst snd] in Hrw, Hrh. sret.
  split; [unfold fsize_rel; cbn; conj; auto|].
  unfold fsize_wf. cbn [width0 width1 fheight render_width render_height sr_enabled sr_denom]. conj; auto; lia.
Qed.

Lemma sim_size_refs : forall sh ss refs srefs ov ridx N, seq_rel sh ss -> seq_wf sh -> slots_rel refs srefs ->
  Forall (fun i => 0 <= i <= 7) ridx -> 0 <= ov <= 1 -> 80 + zlen ridx <= N ->
  sim N (read_frame_size sh refs ov ridx true) (F.frame_size_with_refs ss srefs ov ridx) size_post.
Proof.
  intros sh ss refs srefs ov ridx N HR HW HS HF Hov. revert N.
  induction HF as [|i l Hi HF IH]; intros N HN; unfold zlen in HN; cbn [length] in HN.
  - cbn [F.frame_size_with_refs]. apply (sim_size sh ss refs ov [] N); auto; lia.
  - unfold read_frame_size. cbn [size_from_ref F.frame_size_with_refs].
    apply rbind_assoc_sim. rd1 b. flag b.
    + apply (IH (N - 1)). unfold zlen. lia.
    + apply rbind_assoc_sim. eapply sim_bind with (N1 := 0); [apply sim_slot; eauto; lia| |lia].
      intros h r (S1 & S2 & _). apply sim_let. cbv zeta.
      assert (W : fsize_wf (fsz (f_refs h))) by apply S2.
      destruct W as (Wa & Wb & Wc & Wd & We & _).
      destruct S1 as (_ & _ & R1 & R2 & R3 & R4 & _). rewrite <- R1, <- R2, <- R3, <- R4.
      eapply sim_bind with (N1 := 4); [apply sim_superres; eauto; lia| |lia].
      intros [[en d] w0] ? (<- & Hen & Hd & Hw0 & Hz). sret.
      split; [unfold fsize_rel; cbn; conj; auto|].
      unfold fsize_wf. cbn [width0 width1 fheight render_width render_height sr_enabled sr_denom]. conj; auto; lia.
Qed.

(** * Order hints *)
Lemma land_pow2 : forall d k, 0 <= k -> Z.land d (2 ^ k) = if Z.testbit d k then 2 ^ k else 0.
Proof.
  intros d k Hk. apply Z.bits_inj'. intros n Hn. rewrite Z.land_spec, Z.pow2_bits_eqb by lia.
  destruct (Z.eqb_spec k n).
  - subst n. destruct (Z.testbit d k); [rewrite Z.pow2_bits_true by lia; auto|rewrite Z.bits_0; auto].
  - rewrite andb_false_r. destruct (Z.testbit d k); [rewrite Z.pow2_bits_false; auto|rewrite Z.bits_0; auto].
Qed.
Lemma rel_dist_range : forall ss a b, S.enable_order_hint (S.tools_ ss) = 1 -> 1 <= S.OrderHintBits (S.tools_ ss) ->
  let m := 2 ^ (S.OrderHintBits (S.tools_ ss) - 1) in - m <= F.get_relative_dist ss a b < m.
Proof.
  intros ss a b HE HB m. unfold F.get_relative_dist. rewrite HE. cbn [Z.eqb]. fold m.
  assert (0 < m) by (apply pow2_pos; lia).
  assert (A1 : 0 <= Z.land (a - b) (m - 1) < m) by (unfold m; rewrite land_ones_mod by lia; apply Z.mod_pos_bound; auto).
  assert (A2 : Z.land (a - b) m = m \/ Z.land (a - b) m = 0).
  { unfold m. rewrite land_pow2 by lia. destruct (Z.testbit _ _); auto. }
  lia.
Qed.

Lemma sim_hints : forall sh ss refs srefs cur off N, seq_rel sh ss -> seq_wf sh ->
  Forall2 (fun o o' => match o, o' with
                       | Some h, Some r => slot_rel h r /\ slot_wf h
                       | None, None => True
                       | _, _ => False
                       end) refs srefs ->
  order_hint (sh_tools sh) = 1 -> cur = 2 ^ (order_hint_n_bits (sh_tools sh) - 1) -> 0 <= N ->
  sim N (shifted_offsets refs (order_hint_n_bits (sh_tools sh)) cur off) (F.shifted_hints ss srefs cur off)
    (fun x y => x = y /\ length x = length refs /\ Forall (fun h => 0 <= h < 2 * cur) x).
Proof.
  intros sh ss refs srefs cur off N HR HW HF HO EC. revert N.
  assert (EO : order_hint (sh_tools sh) = S.enable_order_hint (S.tools_ ss)) by apply HR.
  assert (EB : order_hint_n_bits (sh_tools sh) = S.OrderHintBits (S.tools_ ss)) by apply HR.
  assert (WB : order_hint (sh_tools sh) = 1 -> 1 <= order_hint_n_bits (sh_tools sh)) by apply HW.
  specialize (WB HO). rewrite EO in HO.
  induction HF as [|o o' l l' H HF IH]; intros N HN; cbn [shifted_offsets F.shifted_hints].
  - sret. auto.
  - destruct o as [h|]; destruct o' as [r|]; try tauto.
    + eapply sim_bind with (N1 := 0); [apply IH; lia| |lia]. intros t ? (<- & L & R). sret.
      rewrite (poc_diff_eq sh ss) by auto.
      assert (E : frame_offset (f_pre h) = F.RefOrderHint r) by apply H. rewrite E.
      cbn [length]. conj; auto. constructor; auto.
      pose proof (rel_dist_range ss (F.RefOrderHint r) off HO ltac:(lia)) as RD. cbv zeta in RD. rewrite <- EB, <- EC in RD. lia.
    + apply sim_fail. lia.
Qed.

(** * Reference indices *)
Lemma mod_mod_pow : forall x n, 0 <= n <= 32 -> (x mod 2 ^ 32) mod 2 ^ n = x mod 2 ^ n.
Proof.
  intros x n Hn. symmetry. apply Zmod_div_mod; [apply pow2_pos; lia|lia|].
  exists (2 ^ (32 - n)). rewrite <- Z.pow_add_r by lia. f_equal. lia.
Qed.

Lemma sim_refidx : forall sh ss refs srefs fid n short N, seq_rel sh ss -> seq_wf sh -> slots_rel refs srefs ->
  match short with Some l => length l = n /\ Forall (fun i => 0 <= i <= 7) l | None => True end ->
  20 * Z.of_nat n <= N ->
  sim N (parse_refidx sh refs fid n short) (F.ref_indices ss srefs fid n short)
    (fun x y => x = y /\ length x = n /\ Forall (fun i => 0 <= i <= 7) x).
Proof.
  intros sh ss refs srefs fid n short N HR HW HS. revert short N.
  assert (E1 : frame_id_numbers_present sh = S.frame_id_numbers_present_flag ss) by apply HR.
  assert (W1 : 0 <= frame_id_numbers_present sh <= 1) by apply HW.
  assert (E2 : delta_frame_id_n_bits sh =
    (if S.frame_id_numbers_present_flag ss =? 1 then S.delta_frame_id_length_minus_2 ss + 2 else 0)) by apply HR.
  assert (E3 : frame_id_n_bits sh = (if S.frame_id_numbers_present_flag ss =? 1 then F.idLen ss else 0)) by apply HR.
  assert (W2 : frame_id_numbers_present sh = 1 -> 2 <= delta_frame_id_n_bits sh <= 17 /\ 3 <= frame_id_n_bits sh <= 25) by apply HW.
  induction n; intros short N Hsh HN; cbn [parse_refidx F.ref_indices].
  - sret. auto.
  - bnd 3 (fun x y => x = y /\ 0 <= x <= 7).
    { destruct short as [l|].
      - sret. split; auto. destruct Hsh as (L & FL). destruct l; [discriminate|]. inversion FL; auto.
      - eapply sim_weaken; [apply sim_f with (N := 3); lia|lia|]. cbv beta. intros; lia. }
    intros i ? (<- & Hi).
    bnd 17 (fun (_ _ : unit) => True).
    { rewrite <- E1 in *. rewrite z2b_1 by lia. destruct (Z.eqb_spec (frame_id_numbers_present sh) 1) as [E|]; [|sret; auto].
      specialize (W2 E). rewrite <- E2, <- E3.
      rdn d (delta_frame_id_n_bits sh). cbv zeta.
      eapply sim_bind with (N1 := 0); [apply sim_slot; eauto; lia| |lia].
      intros h r (S1 & _ & _). assert (EF : frame_id (f_pre h) = F.RefFrameId r) by apply S1. rewrite EF.
      rewrite shiftl_mul, Z.mul_1_l by lia. rewrite land_ones_mod by lia.
      unfold u32. rewrite mod_mod_pow by lia.
      rewrite <- (Zminus_mod_idemp_l (_ mod 2 ^ 32)). rewrite mod_mod_pow by lia. rewrite Zminus_mod_idemp_l.
      replace (require (F.RefFrameId r =? (fid + 2 ^ frame_id_n_bits sh - (d + 1)) mod 2 ^ frame_id_n_bits sh))
        with (sbind (require (F.RefFrameId r =? (fid + 2 ^ frame_id_n_bits sh - (d + 1)) mod 2 ^ frame_id_n_bits sh)) (fun _ => SRet tt))
        by (destruct (F.RefFrameId r =? _); reflexivity).
      apply sim_require; [lia|reflexivity|]. intros _. sret. auto. }
    intros _ _ _.
    eapply sim_bind with (N1 := 20 * Z.of_nat n); [apply IHn; [|lia]| |lia].
    { destruct short as [l|]; auto. destruct Hsh as (L & FL). destruct l; [discriminate|]. inversion FL; auto. }
    intros l ? (<- & L & FL). sret. cbn [length]. auto.
Qed.

Lemma sim_skip : forall n w N, 0 < w <= 32 -> 32 * Z.of_nat n <= N ->
  sim N (skip_bits n w) (F.times n (f w)) (fun _ _ => True).
Proof.
  induction n; intros w N Hw HN; cbn [skip_bits F.times].
  - sret. auto.
  - rdn x w. eapply sim_map_r; [apply IHn; lia|auto].
Qed.

(** * The frame-type dependent part *)
Lemma sim_refs : forall sh ss refs srefs strict p g N, seq_rel sh ss -> seq_wf sh -> slots_rel refs srefs ->
  prefix_rel p g -> prefix_wf p -> 600 <= N ->
  sim N (parse_refs sh refs strict p) (F.reference_part ss srefs strict g)
    (fun r s => refs_rel r s /\ refs_wf p r /\
       (is_inter_or_switch (frame_type p) = true -> refidx r = F.ref_frame_idx s)).
Proof.
  intros sh ss refs srefs strict p g N HR HW HS HP WP HN. unfold parse_refs, F.reference_part. cbv zeta.
  destruct HP as (P1 & P2 & _ & _ & P3 & _ & P4 & P5 & P6 & P7 & P8 & _).
  destruct WP as (V1 & V2 & _ & V3 & _ & V4 & V5 & V6 & V7 & V8 & _).
  rewrite <- P1, <- P2, <- P3, <- P4, <- P5, <- P6, <- P7, <- P8. clear P1 P2 P3 P4 P5 P6 P7 P8.
  assert (E1 : order_hint (sh_tools sh) = S.enable_order_hint (S.tools_ ss)) by apply HR.
  assert (E2 : order_hint_n_bits (sh_tools sh) = S.OrderHintBits (S.tools_ ss)) by apply HR.
  assert (E3 : ref_frame_mvs (sh_tools sh) = S.enable_ref_frame_mvs (S.tools_ ss)) by apply HR.
  assert (W1 : 0 <= order_hint (sh_tools sh) <= 1) by apply HW.
  assert (W2 : 0 <= order_hint_n_bits (sh_tools sh) <= 8) by apply HW.
  assert (W2b : order_hint (sh_tools sh) = 1 -> 1 <= order_hint_n_bits (sh_tools sh)) by apply HW.
  assert (WT : tools_wf (sh_tools sh)) by apply HW. destruct WT as (_ & W3 & W4).
  rewrite <- E1, <- E2, <- E3. clear E1 E2 E3.
  pose proof (intra_spec _ V1) as EI. unfold intra_eq in EI.
  assert (EK : is_key_or_intra (frame_type p) = F.FrameIsIntra (frame_type p)).
  { clear - V1. assert (frame_type p = 0 \/ frame_type p = 1 \/ frame_type p = 2 \/ frame_type p = 3) as [E|[E|[E|E]]] by lia;
    rewrite E; reflexivity. }
  assert (SK : forall N, 256 <= N -> order_hint (sh_tools sh) = 1 ->
    sim N (skip_bits 8 (order_hint_n_bits (sh_tools sh)))
      (sbind (F.times 8 (f (order_hint_n_bits (sh_tools sh)))) (fun _ => SRet tt)) (fun _ _ => True)).
  { intros N' HN' HO. specialize (W2b HO). eapply sim_map_r; [apply sim_skip; lia|auto]. }
  rewrite EK. destruct (F.FrameIsIntra (frame_type p)) eqn:EFI; cbn [negb orb].
  - (* intra *)
    assert (FT : frame_type p = 0 \/ frame_type p = 2).
    { clear - V1 EFI. assert (frame_type p = 0 \/ frame_type p = 1 \/ frame_type p = 2 \/ frame_type p = 3) as [E|[E|[E|E]]] by lia;
      rewrite E in *; auto; discriminate. }
    bnd 8 (eqr 0 255).
    { replace (frame_type p =? F.SWITCH_FRAME) with false by (unfold F.SWITCH_FRAME; lia).
      change F.KEY_FRAME with FT_KEY. rewrite z2b_1 by lia. cbn [orb].
      destruct (_ && _); [sret; unfold F.allFrames; split; lia|sbitsr 8]. }
    intros rff ? [<- Hrff].
    bnd 256 (fun (_ _ : unit) => True).
    { unfold F.allFrames. rewrite !z2b_1 by lia. destruct (negb (rff =? 255)); cbn [andb]; [|sret; auto].
      destruct (error_resilient_mode p =? 1); cbn [andb]; [|sret; auto].
      destruct (Z.eqb_spec (order_hint (sh_tools sh)) 1); [apply SK; auto; lia|sret; auto]. }
    intros _ _ _. apply sim_require; [lia|rewrite negb_involutive; reflexivity|]. intros _.
    eapply sim_bind with (N1 := 80); [apply sim_size; auto; lia| |lia].
    intros sz sz' (RZ & WZ).
    assert (ES : sr_enabled sz = F.use_superres sz') by apply RZ.
    assert (WS : 0 <= sr_enabled sz <= 1) by apply WZ. rewrite <- ES.
    bnd 1 (fun x y => eqr 0 1 x y /\ (x = 1 -> sr_enabled sz = 0)).
    { rewrite !z2b_1 by lia.
      replace (negb (sr_enabled sz =? 1)) with (sr_enabled sz =? 0) by lia.
      destruct (allow_screen_content_tools p =? 1); cbn [andb]; [|sret; split; [split|]; lia].
      destruct (Z.eqb_spec (sr_enabled sz) 0).
      - eapply sim_weaken; [apply sim_bit with (N := 1); lia|lia|]. cbv beta. intros; split; auto.
      - sret. split; [split|]; lia. }
    intros ibc ? [[<- Hibc] HI]. sret. split; [|split].
    + unfold refs_rel. cbn. conj; auto.
    + unfold refs_wf. cbn [refresh_frame_flags fsz allow_intrabc refidx hp subpel_filter_mode switchable_motion_mode FrameModel.use_ref_frame_mvs].
      conj; auto; try lia. cbn [repeat]. repeat (constructor; [lia|]). constructor.
    + rewrite EI. discriminate.
  - (* inter *)
    assert (FT : frame_type p = 1 \/ frame_type p = 3).
    { clear - V1 EFI. assert (frame_type p = 0 \/ frame_type p = 1 \/ frame_type p = 2 \/ frame_type p = 3) as [E|[E|[E|E]]] by lia;
      rewrite E in *; auto; discriminate. }
    bnd 8 (eqr 0 255).
    { replace (frame_type p =? F.KEY_FRAME) with false by (unfold F.KEY_FRAME; lia).
      change F.SWITCH_FRAME with FT_SWITCH. cbn [andb]. rewrite orb_false_r.
      destruct (_ =? _); [sret; unfold F.allFrames; split; lia|sbitsr 8]. }
    intros rff ? [<- Hrff].
    bnd 256 (fun (_ _ : unit) => True).
    { rewrite !z2b_1 by lia. destruct (error_resilient_mode p =? 1); cbn [andb]; [|sret; auto].
      destruct (Z.eqb_spec (order_hint (sh_tools sh)) 1); [apply SK; auto; lia|sret; auto]. }
    intros _ _ _. replace (frame_type p =? F.INTRA_ONLY_FRAME) with false by (unfold F.INTRA_ONLY_FRAME; lia).
    rewrite andb_false_r. cbn [andb negb]. apply sim_bind_ret_r.
    bnd 1 (fun x y => eqr 0 1 x y /\ (x = 1 -> order_hint (sh_tools sh) = 1)).
    { rewrite !z2b_1 by lia. destruct (Z.eqb_spec (order_hint (sh_tools sh)) 1).
      - eapply sim_weaken; [apply sim_bit with (N := 1); lia|lia|]. cbv beta. intros; split; auto.
      - sret. split; [split|]; lia. }
    intros frss ? [[<- Hfrss] HO].
    bnd 6 (fun x y => x = y /\ match x with Some l => length l = 7%nat /\ Forall (fun i => 0 <= i <= 7) l | None => True end).
    { flag frss; [sret; auto|]. specialize (HO eq_refl). specialize (W2b HO).
      rdn lst 3. rdn gold 3. change (2 ^ 3) with 8 in *. cbv zeta. rewrite shiftl_mul, Z.mul_1_l by lia.
      assert (HC : 0 < 2 ^ (order_hint_n_bits (sh_tools sh) - 1) <= 2 ^ 7)
        by (split; [apply pow2_pos; lia|apply Z.pow_le_mono_r; lia]). change (2 ^ 7) with 128 in HC.
      eapply sim_bind with (N1 := 0); [eapply sim_hints; eauto; [apply HS|lia]| |lia].
      intros hints ? (<- & L & FH). sret.
      destruct (set_frame_refs_eq hints (2 ^ (order_hint_n_bits (sh_tools sh) - 1))) with (last := lst) (gold := gold)
        as (A1 & A2 & A3); try lia.
      - rewrite L. apply HS.
      - eapply Forall_impl; [|exact FH]. cbv beta. unfold INT_MAX. intros; lia.
      - rewrite A1. auto. }
    intros short ? (<- & Hsh).
    eapply sim_bind with (N1 := 140); [eapply sim_refidx; eauto; lia| |lia].
    intros ridx ? (<- & LR & FR).
    eapply sim_bind with (N1 := 87) (S := size_post).
    { rewrite !z2b_1 by lia. rewrite andb_comm.
      replace (negb (error_resilient_mode p =? 1)) with (error_resilient_mode p =? 0) by lia.
      destruct (_ && _).
      - eapply sim_size_refs; eauto. unfold zlen. lia.
      - eapply sim_size; eauto; lia. }
    2: lia.
    intros sz sz' (RZ & WZ).
    bnd 1 (eqr 0 1).
    { flag (fforce_integer_mv p); [sbitr|sret; split; lia]. }
    intros hpv ? [<- Hhp]. rd1 sw.
    bnd 2 (eqr 0 4).
    { flag sw; [sbitsr 2|sret; unfold FILTER_SWITCHABLE, F.SWITCHABLE; split; lia]. }
    intros sfm ? [<- Hsfm]. rd1 smm.
    bnd 1 (eqr 0 1).
    { rewrite EI, !z2b_1 by lia. rewrite andb_true_r.
      destruct (error_resilient_mode p =? 1); cbn [andb orb negb]; [sret; split; lia|].
      destruct (Z.eqb_spec (ref_frame_mvs (sh_tools sh)) 1) as [E|].
      - rewrite (W4 E), E. cbn [Z.eqb Pos.eqb andb]. sbitr.
      - replace (ref_frame_mvs (sh_tools sh) =? 0) with true by lia. cbn [andb]. sret. split; lia. }
    intros mvs ? [<- Hmvs]. sret. split; [|split].
    + unfold refs_rel. cbn. conj; auto.
    + unfold refs_wf. cbn [refresh_frame_flags fsz allow_intrabc refidx hp subpel_filter_mode switchable_motion_mode FrameModel.use_ref_frame_mvs].
      conj; auto; try lia.
    + auto.
Qed.

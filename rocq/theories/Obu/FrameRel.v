(** Meaning of the fields of Dav1dFrameHeader in terms of the syntax elements
    of uncompressed_header(), and the ranges of an accepted header. *)
From Coq Require Import ZArith List Bool.
From Verif Require Import Base.CInt Obu.SeqModel Obu.SeqRel Obu.FrameModel.
From Verif Require Obu.SeqSpec Obu.FrameSpec.
Import ListNotations.
Module F := Obu.FrameSpec.
Open Scope Z_scope.

(** * Fields and syntax elements *)

Definition prefix_rel (p : fprefix) (g : F.general) : Prop :=
  frame_type p = F.frame_type g /\ show_frame p = F.show_frame g /\
  showable_frame p = F.showable_frame g /\ frame_presentation_delay p = F.frame_presentation_time g /\
  error_resilient_mode p = F.error_resilient_mode g /\ disable_cdf_update p = F.disable_cdf_update g /\
  allow_screen_content_tools p = F.allow_screen_content_tools g /\
  fforce_integer_mv p = F.force_integer_mv g /\ frame_id p = F.current_frame_id g /\
  frame_size_override p = F.frame_size_override_flag g /\ frame_offset p = F.OrderHint g /\
  primary_ref_frame p = F.primary_ref_frame g /\
  buffer_removal_time_present p = F.buffer_removal_time_present_flag g /\
  buffer_removal_time p = pad 32 0 (F.buffer_removal_time g).

Definition fsize_rel (z : fsize) (s : F.frame_size) : Prop :=
  width0 z = F.FrameWidth s /\ width1 z = F.UpscaledWidth s /\ fheight z = F.FrameHeight s /\
  render_width z = F.RenderWidth s /\ render_height z = F.RenderHeight s /\
  sr_enabled z = F.use_superres s /\ sr_denom z = F.SuperresDenom s.

(** refidx[] has no meaning in intra frames. *)
Definition refs_rel (r : frefs) (s : F.references) : Prop :=
  refresh_frame_flags r = F.refresh_frame_flags s /\ fsize_rel (fsz r) (F.size_ s) /\
  allow_intrabc r = F.allow_intrabc s /\ frame_ref_short_signaling r = F.frame_refs_short_signaling s /\
  (F.ref_frame_idx s = [] \/ refidx r = F.ref_frame_idx s) /\
  hp r = F.allow_high_precision_mv s /\ subpel_filter_mode r = F.interpolation_filter s /\
  switchable_motion_mode r = F.is_motion_mode_switchable s /\
  FrameModel.use_ref_frame_mvs r = F.use_ref_frame_mvs s.

Definition tiling_rel (t : tiling) (s : F.tiles) : Prop :=
  t_uniform t = F.uniform_tile_spacing_flag s /\ t_n_bytes t = F.TileSizeBytes s /\
  t_log2_cols t = F.TileColsLog2 s /\ t_log2_rows t = F.TileRowsLog2 s /\
  t_col_start_sb t = F.TileColStarts s /\ t_row_start_sb t = F.TileRowStarts s /\
  t_cols t = zlen (F.TileColStarts s) - 1 /\ t_rows t = zlen (F.TileRowStarts s) - 1 /\
  t_update t = F.context_update_tile_id s.

Definition quant_rel (q : quant) (s : F.quantization) : Prop :=
  yac q = F.base_q_idx s /\ ydc_delta q = F.DeltaQYDc s /\ udc_delta q = F.DeltaQUDc s /\
  uac_delta q = F.DeltaQUAc s /\ vdc_delta q = F.DeltaQVDc s /\ vac_delta q = F.DeltaQVAc s /\
  qm q = F.using_qmatrix s /\ qm_y q = F.qm_y s /\ qm_u q = F.qm_u s /\ qm_v q = F.qm_v s.

(** The specification clips feature values; dav1d stores them unclipped. *)
Definition feat_rel (limit v : Z) (o : option Z) : Prop :=
  match o with Some x => Z.max (- limit) v = x | None => v = 0 end.
Definition flag_rel (v : Z) (o : option Z) : Prop := v = b2z (F.is_some o).
Definition segdata_rel (d : segdata) (l : list (option Z)) : Prop :=
  match l with
  | [o0; o1; o2; o3; o4; o5; o6; o7] =>
      feat_rel 255 (sd_delta_q d) o0 /\ feat_rel 63 (sd_delta_lf_y_v d) o1 /\
      feat_rel 63 (sd_delta_lf_y_h d) o2 /\ feat_rel 63 (sd_delta_lf_u d) o3 /\
      feat_rel 63 (sd_delta_lf_v d) o4 /\
      sd_ref d = match o5 with Some x => x | None => -1 end /\
      flag_rel (sd_skip d) o6 /\ flag_rel (sd_globalmv d) o7
  | _ => False
  end.
(** dav1d's last_active_segid is -1 instead of 0 when no feature is coded. *)
Definition segset_rel (s : segset) (fd : F.features) : Prop :=
  Forall2 segdata_rel (ss_d s) fd /\ ss_preskip s = b2z (F.SegIdPreSkip fd) /\
  Z.max 0 (ss_last_active_segid s) = F.LastActiveSegId fd.
Definition seg_rel (m : segm) (s : F.segmentation) : Prop :=
  sg_enabled m = F.segmentation_enabled s /\ sg_update_map m = F.segmentation_update_map s /\
  sg_temporal m = F.segmentation_temporal_update s /\ sg_update_data m = F.segmentation_update_data s /\
  segset_rel (sg_data m) (F.FeatureData s).

Definition delta_rel (d : deltas) (s : F.delta_params) : Prop :=
  dq_present d = F.delta_q_present s /\ dq_res_log2 d = F.delta_q_res s /\
  dlf_present d = F.delta_lf_present s /\ dlf_res_log2 d = F.delta_lf_res s /\
  dlf_multi d = F.delta_lf_multi s.

Definition lf_rel (l : loopfilter) (s : F.loop_filter) : Prop :=
  (lf_level_y0 l, lf_level_y1 l, lf_level_u l, lf_level_v l) = F.loop_filter_level s /\
  lf_sharpness l = F.loop_filter_sharpness s /\
  lf_mode_ref_delta_enabled l = F.loop_filter_delta_enabled s /\
  lf_mode_ref_delta_update l = F.loop_filter_delta_update s /\
  lf_ref_delta l = F.loop_filter_ref_deltas s /\ lf_mode_delta l = F.loop_filter_mode_deltas s.

(** A strength byte is pri << 2 | sec. *)
Definition strength (x : Z * Z) : Z := 4 * fst x + snd x.
Definition strength_uv (x : option (Z * Z)) : Z := match x with Some x => strength x | None => 0 end.
Definition cdef_rel (c : cdefp) (s : option (Z * Z * list ((Z * Z) * option (Z * Z)))) : Prop :=
  match s with
  | None => c = mkCdefp 0 0 (repeat 0 8) (repeat 0 8)
  | Some (damping_minus_3, n_bits, l) =>
      cd_damping c = damping_minus_3 + 3 /\ cd_n_bits c = n_bits /\ length l = Z.to_nat (2 ^ n_bits) /\
      cd_y_strength c = pad 8 0 (map (fun e => strength (fst e)) l) /\
      cd_uv_strength c = pad 8 0 (map (fun e => strength_uv (snd e)) l)
  end.

Definition lr_rel (l : lrp) (s : F.restoration) : Prop :=
  lr_type0 l = F.lr_type_y s /\ lr_type1 l = F.lr_type_u s /\ lr_type2 l = F.lr_type_v s /\
  match F.log2_unit_sizes s with
  | Some (a, b) => lr_unit_size0 l = a /\ lr_unit_size1 l = b
  | None => lr_type0 l = 0 /\ lr_type1 l = 0 /\ lr_type2 l = 0
  end.

Definition gm_rel (g : gmv) (s : Z * list Z) : Prop := gm_type g = fst s /\ gm_mat g = snd s.

Definition mult_of (o : option (Z * Z * Z)) : Z * Z * Z :=
  match o with Some (a, b, c) => (a - 128, b - 128, c - 256) | None => (0, 0, 0) end.
Definition coeffs_of (n : nat) (l : list Z) : list Z := pad n 0 (map (fun v => v - 128) l).
Definition fg_rel (d : fgdata) (o : option F.film_grain) : Prop :=
  match o with
  | None => d = with_seed fgdata0 (fg_seed d)
  | Some s =>
      fg_seed d = F.grain_seed s /\ fg_y_points d = F.point_y s /\
      fg_csfl d = F.chroma_scaling_from_luma s /\ fg_u_points d = F.point_cb s /\
      fg_v_points d = F.point_cr s /\ fg_scaling_shift d = F.grain_scaling_minus_8 s + 8 /\
      fg_ar_coeff_lag d = F.ar_coeff_lag s /\ fg_ar_coeffs_y d = coeffs_of 24 (F.ar_coeffs_y_plus_128 s) /\
      fg_ar_coeffs_u d = coeffs_of 28 (F.ar_coeffs_cb_plus_128 s) /\
      fg_ar_coeffs_v d = coeffs_of 28 (F.ar_coeffs_cr_plus_128 s) /\
      fg_ar_coeff_shift d = F.ar_coeff_shift_minus_6 s + 6 /\
      fg_grain_scale_shift d = F.grain_scale_shift s /\
      fg_u_mult d = mult_of (F.cb_params s) /\ fg_v_mult d = mult_of (F.cr_params s) /\
      fg_overlap_flag d = F.overlap_flag s /\
      fg_clip_to_restricted_range d = F.clip_to_restricted_range s
  end.

Definition tx_mode_of (o : option Z) : Z :=
  match o with None => TX_4X4_ONLY | Some b => if b =? 1 then TX_SWITCHABLE else TX_LARGEST end.
Definition coded_rel (h : frame_hdr) (s : F.coded_frame) : Prop :=
  show_existing_frame h = 0 /\
  prefix_rel (f_pre h) (F.general_ s) /\ refs_rel (f_refs h) (F.references_ s) /\
  refresh_context h = 1 - F.disable_frame_end_update_cdf s /\
  tiling_rel (f_tiling h) (F.tiles_ s) /\ quant_rel (f_quant h) (F.quantization_ s) /\
  seg_rel (f_seg h) (F.segmentation_ s) /\ delta_rel (f_delta h) (F.delta_ s) /\
  f_qidx h = map (F.seg_qidx (F.quantization_ s)) (F.FeatureData (F.segmentation_ s)) /\
  f_lossless h = map (fun l => b2z (F.lossless_seg (F.quantization_ s) l)) (F.FeatureData (F.segmentation_ s)) /\
  all_lossless h = b2z (F.CodedLossless (F.quantization_ s) (F.FeatureData (F.segmentation_ s))) /\
  lf_rel (f_lf h) (F.loop_filter_ s) /\ cdef_rel (f_cdef h) (F.cdef_ s) /\ lr_rel (f_lr h) (F.restoration_ s) /\
  txfm_mode h = tx_mode_of (F.tx_mode_select s) /\
  switchable_comp_refs h = F.reference_select s /\
  skip_mode_allowed h = b2z (F.is_some (F.skip_mode_frames s)) /\
  skip_mode_refs h = match F.skip_mode_frames s with Some x => x | None => (0, 0) end /\
  skip_mode_enabled h = F.skip_mode_present s /\
  warp_motion h = F.allow_warped_motion s /\ reduced_txtp_set h = F.reduced_tx_set s /\
  Forall2 gm_rel (f_gmv h) (F.gm_ s) /\
  fg_present h = F.apply_grain s /\ fg_update h = F.update_grain s /\ fg_rel (f_fg h) (F.grain_ s).
Definition hdr_rel (h : frame_hdr) (s : F.uncompressed) : Prop :=
  match s with
  | F.ShowExisting idx time fid =>
      show_existing_frame h = 1 /\ existing_frame_idx h = idx /\
      frame_presentation_delay (f_pre h) = time /\ frame_id (f_pre h) = fid
  | F.Coded fr => coded_rel h fr
  end.

(** * Ranges *)

Definition prefix_wf (p : fprefix) : Prop :=
  0 <= frame_type p <= 3 /\ 0 <= show_frame p <= 1 /\ 0 <= showable_frame p <= 1 /\
  0 <= error_resilient_mode p <= 1 /\ 0 <= disable_cdf_update p <= 1 /\
  0 <= allow_screen_content_tools p <= 1 /\ 0 <= fforce_integer_mv p <= 1 /\
  0 <= frame_id p < 2 ^ 25 /\ 0 <= frame_size_override p <= 1 /\ 0 <= frame_offset p <= 255 /\
  0 <= primary_ref_frame p <= 7 /\
  (primary_ref_frame p <> PRIMARY_REF_NONE -> is_inter_or_switch (frame_type p) = true) /\
  length (buffer_removal_time p) = 32%nat.
Definition fsize_wf (z : fsize) : Prop :=
  1 <= width0 z <= width1 z /\ width1 z <= 65536 /\ 1 <= fheight z <= 65536 /\
  1 <= render_width z <= 65536 /\ 1 <= render_height z <= 65536 /\
  0 <= sr_enabled z <= 1 /\ 8 <= sr_denom z <= 16 /\ (sr_enabled z = 0 -> sr_denom z = 8 /\ width0 z = width1 z).
Definition refs_wf (p : fprefix) (r : frefs) : Prop :=
  0 <= refresh_frame_flags r <= 255 /\ fsize_wf (fsz r) /\ 0 <= allow_intrabc r <= 1 /\
  length (refidx r) = 7%nat /\ Forall (fun i => 0 <= i <= 7) (refidx r) /\
  0 <= hp r <= 1 /\ 0 <= subpel_filter_mode r <= 4 /\ 0 <= switchable_motion_mode r <= 1 /\
  0 <= FrameModel.use_ref_frame_mvs r <= 1 /\
  (allow_intrabc r = 1 -> is_key_or_intra (frame_type p) = true /\ sr_enabled (fsz r) = 0).

(** Strictly increasing boundaries from 0 to [n]. *)
Fixpoint increasing (l : list Z) : Prop :=
  match l with a :: (b :: _) as l' => a < b /\ increasing l' | _ => True end.
Definition partition_of (n : Z) (l : list Z) : Prop :=
  hd 0 l = 0 /\ last l 0 = n /\ increasing l /\ (2 <= length l)%nat.
Definition tiling_wf (sb128 w0 h : Z) (t : tiling) : Prop :=
  let sbsz := 64 * 2 ^ sb128 in
  partition_of ((w0 + sbsz - 1) / sbsz) (t_col_start_sb t) /\
  partition_of ((h + sbsz - 1) / sbsz) (t_row_start_sb t) /\
  zlen (t_col_start_sb t) = t_cols t + 1 /\ zlen (t_row_start_sb t) = t_rows t + 1 /\
  1 <= t_cols t <= 64 /\ 1 <= t_rows t <= 64 /\
  0 <= t_log2_cols t <= 6 /\ 0 <= t_log2_rows t <= 6 /\
  t_cols t <= 2 ^ t_log2_cols t /\ t_rows t <= 2 ^ t_log2_rows t /\
  0 <= t_update t < t_cols t * t_rows t /\ 0 <= t_n_bytes t <= 4.

Definition quant_wf (q : quant) : Prop :=
  0 <= yac q <= 255 /\ -64 <= ydc_delta q <= 63 /\ -64 <= udc_delta q <= 63 /\ -64 <= uac_delta q <= 63 /\
  -64 <= vdc_delta q <= 63 /\ -64 <= vac_delta q <= 63 /\ 0 <= qm q <= 1 /\
  0 <= qm_y q <= 15 /\ 0 <= qm_u q <= 15 /\ 0 <= qm_v q <= 15.
Definition segdata_wf (d : segdata) : Prop :=
  -256 <= sd_delta_q d <= 255 /\ -64 <= sd_delta_lf_y_v d <= 63 /\ -64 <= sd_delta_lf_y_h d <= 63 /\
  -64 <= sd_delta_lf_u d <= 63 /\ -64 <= sd_delta_lf_v d <= 63 /\ -1 <= sd_ref d <= 7 /\
  0 <= sd_skip d <= 1 /\ 0 <= sd_globalmv d <= 1.
Definition segset_wf (s : segset) : Prop :=
  length (ss_d s) = 8%nat /\ Forall segdata_wf (ss_d s) /\ 0 <= ss_preskip s <= 1 /\
  -1 <= ss_last_active_segid s <= 7.
Definition seg_wf (m : segm) : Prop :=
  0 <= sg_enabled m <= 1 /\ 0 <= sg_update_map m <= 1 /\ 0 <= sg_temporal m <= 1 /\
  0 <= sg_update_data m <= 1 /\ segset_wf (sg_data m).
Definition delta_wf (d : deltas) : Prop :=
  0 <= dq_present d <= 1 /\ 0 <= dq_res_log2 d <= 3 /\ 0 <= dlf_present d <= 1 /\
  0 <= dlf_res_log2 d <= 3 /\ 0 <= dlf_multi d <= 1.
Definition lf_wf (l : loopfilter) : Prop :=
  0 <= lf_level_y0 l <= 63 /\ 0 <= lf_level_y1 l <= 63 /\ 0 <= lf_level_u l <= 63 /\ 0 <= lf_level_v l <= 63 /\
  0 <= lf_sharpness l <= 7 /\ length (lf_mode_delta l) = 2%nat /\ length (lf_ref_delta l) = 8%nat /\
  Forall (fun x => -64 <= x <= 63) (lf_mode_delta l) /\ Forall (fun x => -64 <= x <= 63) (lf_ref_delta l).
Definition cdef_wf (c : cdefp) : Prop :=
  (cd_damping c = 0 \/ 3 <= cd_damping c <= 6) /\ 0 <= cd_n_bits c <= 3 /\
  length (cd_y_strength c) = 8%nat /\ length (cd_uv_strength c) = 8%nat /\
  Forall (fun x => 0 <= x <= 63) (cd_y_strength c) /\ Forall (fun x => 0 <= x <= 63) (cd_uv_strength c).
Definition lr_wf (l : lrp) : Prop :=
  0 <= lr_type0 l <= 3 /\ 0 <= lr_type1 l <= 3 /\ 0 <= lr_type2 l <= 3 /\
  (lr_type0 l <> 0 \/ lr_type1 l <> 0 \/ lr_type2 l <> 0 ->
   6 <= lr_unit_size0 l <= 8 /\ 5 <= lr_unit_size1 l <= 8).

(** Global motion parameters: 12-bit alphas at precision 1/2^15 around the
    identity, translations of 12 bits at 1/2^6 (in units of 2^-16). *)
Definition gm_ok (m : list Z) : Prop :=
  match m with
  | [m0; m1; m2; m3; m4; m5] =>
      - 2 ^ 22 <= m0 <= 2 ^ 22 /\ - 2 ^ 22 <= m1 <= 2 ^ 22 /\
      - 2 ^ 13 <= m2 - 2 ^ 16 <= 2 ^ 13 /\ - 2 ^ 13 <= m3 <= 2 ^ 13 /\
      - 2 ^ 13 <= m4 <= 2 ^ 13 /\ - 2 ^ 13 <= m5 - 2 ^ 16 <= 2 ^ 13
  | _ => False
  end.
Definition gm_wf (g : gmv) : Prop := 0 <= gm_type g <= 3 /\ gm_ok (gm_mat g).

Fixpoint points_wf (l : list (Z * Z)) : Prop :=
  match l with
  | [] => True
  | x :: l => 0 <= fst x <= 255 /\ 0 <= snd x <= 255 /\
              match l with y :: _ => fst x < fst y | [] => True end /\ points_wf l
  end.
Definition coeffs_wf (n : nat) (l : list Z) : Prop :=
  length l = n /\ Forall (fun c => -128 <= c <= 127) l.
Definition mult_wf (m : Z * Z * Z) : Prop :=
  let '(a, b, c) := m in -128 <= a <= 127 /\ -128 <= b <= 127 /\ -256 <= c <= 255.
(** [fg_zero]: no parameters were coded. *)
Definition fg_zero (d : fgdata) : Prop := d = with_seed fgdata0 (fg_seed d).
Definition fg_wf (d : fgdata) : Prop :=
  0 <= fg_seed d < 65536 /\ (length (fg_y_points d) <= 14)%nat /\
  (length (fg_u_points d) <= 10)%nat /\ (length (fg_v_points d) <= 10)%nat /\
  points_wf (fg_y_points d) /\ points_wf (fg_u_points d) /\ points_wf (fg_v_points d) /\
  0 <= fg_csfl d <= 1 /\ (fg_zero d \/ 8 <= fg_scaling_shift d <= 11) /\ 0 <= fg_ar_coeff_lag d <= 3 /\
  coeffs_wf 24 (fg_ar_coeffs_y d) /\ coeffs_wf 28 (fg_ar_coeffs_u d) /\ coeffs_wf 28 (fg_ar_coeffs_v d) /\
  (fg_zero d \/ 6 <= fg_ar_coeff_shift d <= 9) /\ 0 <= fg_grain_scale_shift d <= 3 /\
  mult_wf (fg_u_mult d) /\ mult_wf (fg_v_mult d) /\
  0 <= fg_overlap_flag d <= 1 /\ 0 <= fg_clip_to_restricted_range d <= 1.

Definition coded_wf (seq : seq_hdr) (h : frame_hdr) : Prop :=
  prefix_wf (f_pre h) /\ refs_wf (f_pre h) (f_refs h) /\ 0 <= refresh_context h <= 1 /\
  tiling_wf (sb128 seq) (width0 (fsz (f_refs h))) (fheight (fsz (f_refs h))) (f_tiling h) /\
  quant_wf (f_quant h) /\ seg_wf (f_seg h) /\ delta_wf (f_delta h) /\
  (length (f_qidx h) = 8%nat /\ Forall (fun q => 0 <= q <= 255) (f_qidx h)) /\
  lf_wf (f_lf h) /\ cdef_wf (f_cdef h) /\ lr_wf (f_lr h) /\ 0 <= txfm_mode h <= 2 /\
  0 <= switchable_comp_refs h <= 1 /\ 0 <= skip_mode_enabled h <= skip_mode_allowed h /\
  skip_mode_allowed h <= 1 /\
  (skip_mode_allowed h = 1 -> 0 <= fst (skip_mode_refs h) < snd (skip_mode_refs h) /\ snd (skip_mode_refs h) <= 6) /\
  0 <= warp_motion h <= 1 /\ 0 <= reduced_txtp_set h <= 1 /\
  length (f_gmv h) = 7%nat /\ Forall gm_wf (f_gmv h) /\
  0 <= fg_present h <= 1 /\ 0 <= fg_update h <= 1 /\ fg_wf (f_fg h).
Definition hdr_wf (seq : seq_hdr) (h : frame_hdr) : Prop :=
  (show_existing_frame h = 1 /\ 0 <= existing_frame_idx h <= 7) \/
  (show_existing_frame h = 0 /\ coded_wf seq h).

(** * Reference slots *)

(** What later frame headers use of a stored header. *)
Definition slot_rel (h : frame_hdr) (r : F.ref_info) : Prop :=
  frame_id (f_pre h) = F.RefFrameId r /\ frame_offset (f_pre h) = F.RefOrderHint r /\
  width1 (fsz (f_refs h)) = F.RefUpscaledWidth r /\ fheight (fsz (f_refs h)) = F.RefFrameHeight r /\
  render_width (fsz (f_refs h)) = F.RefRenderWidth r /\ render_height (fsz (f_refs h)) = F.RefRenderHeight r /\
  segset_rel (sg_data (f_seg h)) (F.SavedFeatures r) /\
  lf_ref_delta (f_lf h) = F.SavedRefDeltas r /\ lf_mode_delta (f_lf h) = F.SavedModeDeltas r /\
  map gm_mat (f_gmv h) = F.SavedGmParams r /\ fg_rel (f_fg h) (F.SavedFilmGrain r).
Definition slot_wf (h : frame_hdr) : Prop :=
  0 <= frame_offset (f_pre h) <= 255 /\ fsize_wf (fsz (f_refs h)) /\ segset_wf (sg_data (f_seg h)) /\
  lf_wf (f_lf h) /\ length (f_gmv h) = 7%nat /\ Forall gm_wf (f_gmv h) /\ fg_wf (f_fg h).
Definition slots_rel (refs : refs_t) (srefs : F.slots) : Prop :=
  length refs = 8%nat /\
  Forall2 (fun o o' => match o, o' with
                       | Some h, Some r => slot_rel h r /\ slot_wf h
                       | None, None => True
                       | _, _ => False
                       end) refs srefs.

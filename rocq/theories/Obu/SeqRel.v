(** Meaning of the fields of Dav1dSequenceHeader in terms of the syntax
    elements of the specification, and the ranges of an accepted header. *)
From Coq Require Import ZArith List Bool.
From Verif Require Import Base.CInt Obu.SeqModel.
From Verif Require Obu.SeqSpec.
Import ListNotations.
Module S := Obu.SeqSpec.
Open Scope Z_scope.

(** * What the fields of the C structure mean in terms of the syntax elements *)

(** x_minus_1 + 1 when present, else 0. *)
Definition plus1_if (c x : Z) : Z := if c =? 1 then x + 1 else 0.

Definition timing_rel (t : timing) (s : S.timing_info) : Prop :=
  timing_info_present t = S.timing_info_present_flag s /\
  num_units_in_tick t = S.num_units_in_display_tick s /\
  time_scale t = S.time_scale s /\
  equal_picture_interval t = S.equal_picture_interval s /\
  num_ticks_per_picture t = plus1_if (S.equal_picture_interval s) (S.num_ticks_per_picture_minus_1 s) /\
  decoder_model_info_present t = S.decoder_model_info_present_flag s /\
  encoder_decoder_buffer_delay_length t =
    plus1_if (S.decoder_model_info_present_flag s) (S.buffer_delay_length_minus_1 s) /\
  num_units_in_decoding_tick t = S.num_units_in_decoding_tick s /\
  buffer_removal_delay_length t =
    plus1_if (S.decoder_model_info_present_flag s) (S.buffer_removal_time_length_minus_1 s) /\
  frame_presentation_delay_length t =
    plus1_if (S.decoder_model_info_present_flag s) (S.frame_presentation_time_length_minus_1 s).

(** Levels X.Y are coded as 4*(X-2)+Y (spec Annex A.3).  In the reduced still
    picture form dav1d stores X-2 instead of X. *)
Definition op_rel (reduced : Z) (o : op_point) (s : S.operating_point) : Prop :=
  op_idc o = S.operating_point_idc s /\
  op_major_level o = S.seq_level_idx s / 4 + (if reduced =? 1 then 0 else 2) /\
  op_minor_level o = S.seq_level_idx s mod 4 /\
  op_tier o = S.seq_tier s /\
  op_decoder_model_param_present o = S.decoder_model_present_for_this_op s /\
  op_display_model_param_present o = S.initial_display_delay_present_for_this_op s /\
  op_initial_display_delay o =
    (if S.initial_display_delay_present_for_this_op s =? 1
     then S.initial_display_delay_minus_1 s + 1 else 10).
Definition oi_rel (o : op_info) (s : S.operating_point) : Prop :=
  oi_decoder_buffer_delay o = S.decoder_buffer_delay s /\
  oi_encoder_buffer_delay o = S.encoder_buffer_delay s /\
  oi_low_delay_mode o = S.low_delay_mode_flag s.

Definition tools_rel (t : tools) (s : S.tool_flags) : Prop :=
  inter_intra t = S.enable_interintra_compound s /\
  masked_compound t = S.enable_masked_compound s /\
  warped_motion t = S.enable_warped_motion s /\
  dual_filter t = S.enable_dual_filter s /\
  order_hint t = S.enable_order_hint s /\
  jnt_comp t = S.enable_jnt_comp s /\
  ref_frame_mvs t = S.enable_ref_frame_mvs s /\
  screen_content_tools t = S.seq_force_screen_content_tools s /\
  force_integer_mv t = S.seq_force_integer_mv s /\
  order_hint_n_bits t = S.OrderHintBits s.

Definition layout_of (mono ssx ssy : Z) : Z :=
  if mono =? 1 then I400 else if ssx =? 0 then I444 else if ssy =? 0 then I422 else I420.
Definition color_rel (t : color) (s : S.color_config) : Prop :=
  8 + 2 * hbd t = S.BitDepth s /\
  monochrome t = S.mono_chrome s /\
  color_description_present t = S.color_description_present_flag s /\
  pri t = S.color_primaries s /\ trc t = S.transfer_characteristics s /\
  mtrx t = S.matrix_coefficients s /\ color_range t = S.color_range s /\
  layout t = layout_of (S.mono_chrome s) (S.subsampling_x s) (S.subsampling_y s) /\
  ss_hor t = S.subsampling_x s /\ ss_ver t = S.subsampling_y s /\
  chr t = S.chroma_sample_position s /\ separate_uv_delta_q t = S.separate_uv_delta_q s.

Definition seq_rel (h : seq_hdr) (s : S.sequence_header) : Prop :=
  profile h = S.seq_profile s /\
  still_picture h = S.still_picture s /\
  reduced_still_picture_header h = S.reduced_still_picture_header s /\
  timing_rel (sh_timing h) (S.timing_ s) /\
  display_model_info_present h = S.initial_display_delay_present_flag s /\
  num_operating_points h = zlen (S.operating_points s) /\
  (exists ops ois,
     operating_points h = ops ++ repeat op_point0 (32 - length (S.operating_points s)) /\
     operating_parameter_info h = ois ++ repeat op_info0 (32 - length (S.operating_points s)) /\
     Forall2 (op_rel (S.reduced_still_picture_header s)) ops (S.operating_points s) /\
     Forall2 oi_rel ois (S.operating_points s)) /\
  width_n_bits h = S.frame_width_bits_minus_1 s + 1 /\
  height_n_bits h = S.frame_height_bits_minus_1 s + 1 /\
  max_width h = S.max_frame_width_minus_1 s + 1 /\
  max_height h = S.max_frame_height_minus_1 s + 1 /\
  frame_id_numbers_present h = S.frame_id_numbers_present_flag s /\
  delta_frame_id_n_bits h =
    (if S.frame_id_numbers_present_flag s =? 1 then S.delta_frame_id_length_minus_2 s + 2 else 0) /\
  frame_id_n_bits h =
    (if S.frame_id_numbers_present_flag s =? 1
     then S.additional_frame_id_length_minus_1 s + S.delta_frame_id_length_minus_2 s + 3 else 0) /\
  sb128 h = S.use_128x128_superblock s /\
  filter_intra h = S.enable_filter_intra s /\
  intra_edge_filter h = S.enable_intra_edge_filter s /\
  tools_rel (sh_tools h) (S.tools_ s) /\
  super_res h = S.enable_superres s /\ cdef h = S.enable_cdef s /\
  restoration h = S.enable_restoration s /\
  color_rel (sh_color h) (S.color_ s) /\
  film_grain_present h = S.film_grain_params_present s.

(** * Ranges *)

Definition timing_wf (t : timing) : Prop :=
  0 <= decoder_model_info_present t <= 1 /\
  (decoder_model_info_present t = 1 -> 1 <= encoder_decoder_buffer_delay_length t <= 32) /\
  0 <= equal_picture_interval t <= 1 /\
  (decoder_model_info_present t = 1 ->
     1 <= buffer_removal_delay_length t <= 32 /\ 1 <= frame_presentation_delay_length t <= 32).
Definition op_wf (o : op_point) : Prop :=
  0 <= op_idc o < 4096 /\ 0 <= op_decoder_model_param_present o <= 1.
Definition tools_wf (t : tools) : Prop :=
  0 <= warped_motion t <= 1 /\ 0 <= ref_frame_mvs t <= 1 /\ (ref_frame_mvs t = 1 -> order_hint t = 1).

Definition color_wf (profile : Z) (t : color) : Prop :=
  0 <= hbd t <= 2 /\ 0 <= monochrome t <= 1 /\ 0 <= ss_hor t <= 1 /\ 0 <= ss_ver t <= 1 /\
  0 <= separate_uv_delta_q t <= 1 /\ 0 <= mtrx t <= 255 /\ 0 <= pri t <= 255 /\ 0 <= trc t <= 255 /\
  0 <= chr t <= 3 /\ 0 <= color_range t <= 1 /\
  (hbd t = 2 -> profile = 2) /\
  (profile = 0 -> layout t = I400 \/ layout t = I420) /\
  (profile = 1 -> layout t = I444) /\
  (profile = 2 -> hbd t < 2 -> layout t = I400 \/ layout t = I422).

(** Bounds of the accepted fields (C04). *)
Definition seq_wf (h : seq_hdr) : Prop :=
  0 <= profile h <= 2 /\ 0 <= still_picture h <= 1 /\ 0 <= reduced_still_picture_header h <= 1 /\
  (reduced_still_picture_header h = 1 -> still_picture h = 1) /\
  timing_wf (sh_timing h) /\ 1 <= num_operating_points h <= 32 /\
  1 <= width_n_bits h <= 16 /\ 1 <= height_n_bits h <= 16 /\
  1 <= max_width h <= 2 ^ width_n_bits h /\ 1 <= max_height h <= 2 ^ height_n_bits h /\
  0 <= frame_id_numbers_present h <= 1 /\
  (frame_id_numbers_present h = 1 -> 2 <= delta_frame_id_n_bits h <= 17 /\ 3 <= frame_id_n_bits h <= 25) /\
  0 <= sb128 h <= 1 /\ 0 <= super_res h <= 1 /\ 0 <= cdef h <= 1 /\ 0 <= restoration h <= 1 /\
  0 <= film_grain_present h <= 1 /\
  0 <= order_hint (sh_tools h) <= 1 /\ 0 <= order_hint_n_bits (sh_tools h) <= 8 /\
  (order_hint (sh_tools h) = 0 -> order_hint_n_bits (sh_tools h) = 0) /\
  (order_hint (sh_tools h) = 1 -> 1 <= order_hint_n_bits (sh_tools h)) /\
  0 <= screen_content_tools (sh_tools h) <= 2 /\ 0 <= force_integer_mv (sh_tools h) <= 2 /\
  color_wf (profile h) (sh_color h) /\
  Forall op_wf (operating_points h) /\ tools_wf (sh_tools h) /\
  (reduced_still_picture_header h = 1 -> decoder_model_info_present (sh_timing h) = 0).


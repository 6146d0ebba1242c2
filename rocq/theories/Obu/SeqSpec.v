(** The sequence_header_obu() syntax of the AV1 bitstream specification
    (sections 5.5 and 6.4), as a syntax table.  Independent of the C parser.

    [strict] selects whether the conformance requirements that dav1d checks
    only with strict_std_compliance are part of the table. *)
From Coq Require Import ZArith List Bool.
From Verif Require Import GetBits.Spec GetBits.SpecProg.
Import ListNotations.
Open Scope Z_scope.
Local Open Scope sp_scope.

(** 5.5.3 timing_info() and 5.5.4 decoder_model_info().  Absent elements are 0. *)
Record timing_info : Type := mkTimingInfo {
  timing_info_present_flag : Z;
  num_units_in_display_tick : Z;
  time_scale : Z;
  equal_picture_interval : Z;
  num_ticks_per_picture_minus_1 : Z;
  decoder_model_info_present_flag : Z;
  buffer_delay_length_minus_1 : Z;
  num_units_in_decoding_tick : Z;
  buffer_removal_time_length_minus_1 : Z;
  frame_presentation_time_length_minus_1 : Z }.

Record operating_point : Type := mkOperatingPoint {
  operating_point_idc : Z;
  seq_level_idx : Z;
  seq_tier : Z;
  decoder_model_present_for_this_op : Z;
  decoder_buffer_delay : Z;
  encoder_buffer_delay : Z;
  low_delay_mode_flag : Z;
  initial_display_delay_present_for_this_op : Z;
  initial_display_delay_minus_1 : Z }.

Record color_config : Type := mkColorConfig {
  BitDepth : Z; mono_chrome : Z; color_description_present_flag : Z; color_primaries : Z;
  transfer_characteristics : Z; matrix_coefficients : Z; color_range : Z;
  subsampling_x : Z; subsampling_y : Z; chroma_sample_position : Z; separate_uv_delta_q : Z }.

Record tool_flags : Type := mkToolFlags {
  enable_interintra_compound : Z; enable_masked_compound : Z; enable_warped_motion : Z;
  enable_dual_filter : Z; enable_order_hint : Z; enable_jnt_comp : Z; enable_ref_frame_mvs : Z;
  seq_force_screen_content_tools : Z; seq_force_integer_mv : Z; OrderHintBits : Z }.

Record sequence_header : Type := mkSequenceHeader {
  seq_profile : Z;
  still_picture : Z;
  reduced_still_picture_header : Z;
  timing_ : timing_info;
  initial_display_delay_present_flag : Z;
  operating_points : list operating_point;
  frame_width_bits_minus_1 : Z;
  frame_height_bits_minus_1 : Z;
  max_frame_width_minus_1 : Z;
  max_frame_height_minus_1 : Z;
  frame_id_numbers_present_flag : Z;
  delta_frame_id_length_minus_2 : Z;
  additional_frame_id_length_minus_1 : Z;
  use_128x128_superblock : Z;
  enable_filter_intra : Z;
  enable_intra_edge_filter : Z;
  tools_ : tool_flags;
  enable_superres : Z;
  enable_cdef : Z;
  enable_restoration : Z;
  color_ : color_config;
  film_grain_params_present : Z }.

Definition SELECT_SCREEN_CONTENT_TOOLS : Z := 2.
Definition SELECT_INTEGER_MV : Z := 2.
Definition CP_BT_709 : Z := 1.
Definition CP_UNSPECIFIED : Z := 2.
Definition TC_UNSPECIFIED : Z := 2.
Definition TC_SRGB : Z := 13.
Definition MC_IDENTITY : Z := 0.
Definition MC_UNSPECIFIED : Z := 2.
Definition CSP_UNKNOWN : Z := 0.

(** 5.5.1, the part of timing_info_present_flag; with 5.5.3 and 5.5.4.
    6.4.3/6.4.4: the tick counts must be non-zero (strict), and
    num_ticks_per_picture_minus_1 must be below 2^32 - 1. *)
Definition timing_section (strict : bool) : sp timing_info :=
  let* timing_info_present_flag := f 1 in
  if timing_info_present_flag =? 1 then
    let* num_units_in_display_tick := f 32 in
    let* time_scale := f 32 in
    let* _ := require (negb strict || (0 <? num_units_in_display_tick) && (0 <? time_scale)) in
    let* equal_picture_interval := f 1 in
    let* num_ticks_per_picture_minus_1 :=
      (if equal_picture_interval =? 1 then
         let* v := uvlc in
         let* _ := require (v <? 2 ^ 32 - 1) in SRet v
       else SRet 0) in
    let* decoder_model_info_present_flag := f 1 in
    if decoder_model_info_present_flag =? 1 then
      let* buffer_delay_length_minus_1 := f 5 in
      let* num_units_in_decoding_tick := f 32 in
      let* _ := require (negb strict || (0 <? num_units_in_decoding_tick)) in
      let* buffer_removal_time_length_minus_1 := f 5 in
      let* frame_presentation_time_length_minus_1 := f 5 in
      SRet (mkTimingInfo 1 num_units_in_display_tick time_scale equal_picture_interval
              num_ticks_per_picture_minus_1 1 buffer_delay_length_minus_1
              num_units_in_decoding_tick buffer_removal_time_length_minus_1
              frame_presentation_time_length_minus_1)
    else SRet (mkTimingInfo 1 num_units_in_display_tick time_scale equal_picture_interval
                 num_ticks_per_picture_minus_1 0 0 0 0 0)
  else SRet (mkTimingInfo 0 0 0 0 0 0 0 0 0 0).

(** 5.5.1 loop body over operating points, and 5.5.5
    operating_parameters_info().  The requirement on operating_point_idc (a
    non-zero mask names at least one temporal and one spatial layer, 6.4.1) is
    the one dav1d enforces. *)
Definition operating_point_section (t : timing_info) (display_delay_flag : Z) : sp operating_point :=
  let* idc := f 12 in
  let* _ := require ((idc =? 0) || (negb (idc mod 256 =? 0) && negb (idc / 256 =? 0))) in
  let* level := f 5 in
  let* tier := (if 7 <? level then f 1 else SRet 0) in
  let* (present, dbd, ebd, low_delay) :=
    (if decoder_model_info_present_flag t =? 1 then
       let* present := f 1 in
       if present =? 1 then
         let n := buffer_delay_length_minus_1 t + 1 in
         let* dbd := f n in
         let* ebd := f n in
         let* low_delay := f 1 in
         SRet (1, dbd, ebd, low_delay)
       else SRet (0, 0, 0, 0)
     else SRet (0, 0, 0, 0)) in
  let* (delay_present, delay) :=
    (if display_delay_flag =? 1 then
       let* delay_present := f 1 in
       if delay_present =? 1 then let* delay := f 4 in SRet (1, delay) else SRet (0, 0)
     else SRet (0, 0)) in
  SRet (mkOperatingPoint idc level tier present dbd ebd low_delay delay_present delay).
Fixpoint operating_point_loop (n : nat) (t : timing_info) (display_delay_flag : Z)
  : sp (list operating_point) :=
  match n with
  | O => SRet []
  | S n =>
    let* o := operating_point_section t display_delay_flag in
    let* l := operating_point_loop n t display_delay_flag in
    SRet (o :: l)
  end.

(** 5.5.1: choice between the reduced and the full operating point syntax. *)
Definition level_section (strict : bool) (reduced : Z)
  : sp (timing_info * Z * list operating_point) :=
  if reduced =? 1 then
    let* seq_level_idx := f 5 in
    SRet (mkTimingInfo 0 0 0 0 0 0 0 0 0 0, 0, [mkOperatingPoint 0 seq_level_idx 0 0 0 0 0 0 0])
  else
    let* t := timing_section strict in
    let* initial_display_delay_present_flag := f 1 in
    let* operating_points_cnt_minus_1 := f 5 in
    let* l := operating_point_loop (Z.to_nat (operating_points_cnt_minus_1 + 1)) t
                initial_display_delay_present_flag in
    SRet (t, initial_display_delay_present_flag, l).

Definition frame_id_section (reduced : Z) : sp (Z * Z * Z) :=
  if reduced =? 1 then SRet (0, 0, 0) else
  let* flag := f 1 in
  if flag =? 1 then
    let* delta_frame_id_length_minus_2 := f 4 in
    let* additional_frame_id_length_minus_1 := f 3 in
    SRet (1, delta_frame_id_length_minus_2, additional_frame_id_length_minus_1)
  else SRet (0, 0, 0).

Definition tool_section (reduced : Z) : sp tool_flags :=
  if reduced =? 1 then
    SRet (mkToolFlags 0 0 0 0 0 0 0 SELECT_SCREEN_CONTENT_TOOLS SELECT_INTEGER_MV 0)
  else
    let* enable_interintra_compound := f 1 in
    let* enable_masked_compound := f 1 in
    let* enable_warped_motion := f 1 in
    let* enable_dual_filter := f 1 in
    let* enable_order_hint := f 1 in
    let* (enable_jnt_comp, enable_ref_frame_mvs) :=
      (if enable_order_hint =? 1 then
         let* a := f 1 in let* b := f 1 in SRet (a, b)
       else SRet (0, 0)) in
    let* seq_choose_screen_content_tools := f 1 in
    let* seq_force_screen_content_tools :=
      (if seq_choose_screen_content_tools =? 1 then SRet SELECT_SCREEN_CONTENT_TOOLS else f 1) in
    let* seq_force_integer_mv :=
      (if 0 <? seq_force_screen_content_tools then
         let* seq_choose_integer_mv := f 1 in
         if seq_choose_integer_mv =? 1 then SRet SELECT_INTEGER_MV else f 1
       else SRet SELECT_INTEGER_MV) in
    let* OrderHintBits :=
      (if enable_order_hint =? 1 then
         let* order_hint_bits_minus_1 := f 3 in SRet (order_hint_bits_minus_1 + 1)
       else SRet 0) in
    SRet (mkToolFlags enable_interintra_compound enable_masked_compound enable_warped_motion
            enable_dual_filter enable_order_hint enable_jnt_comp enable_ref_frame_mvs
            seq_force_screen_content_tools seq_force_integer_mv OrderHintBits).

(** 6.4.1, table of seq_profile: which colour formats a profile supports. *)
Definition profile_allows (seq_profile BitDepth subsampling_x subsampling_y : Z) : bool :=
  if BitDepth =? 12 then seq_profile =? 2
  else match seq_profile with
       | 0 => (subsampling_x =? 1) && (subsampling_y =? 1)
       | 1 => (subsampling_x =? 0) && (subsampling_y =? 0)
       | _ => (subsampling_x =? 1) && (subsampling_y =? 0)
       end.

(** 5.5.2 color_config(). *)
Definition color_section (strict : bool) (seq_profile : Z) : sp color_config :=
  let* high_bitdepth := f 1 in
  let* BitDepth :=
    (if (seq_profile =? 2) && (high_bitdepth =? 1) then
       let* twelve_bit := f 1 in SRet (if twelve_bit =? 1 then 12 else 10)
     else SRet (if high_bitdepth =? 1 then 10 else 8)) in
  let* mono_chrome := (if seq_profile =? 1 then SRet 0 else f 1) in
  let* color_description_present_flag := f 1 in
  let* (cp, tc, mc) :=
    (if color_description_present_flag =? 1 then
       let* a := f 8 in let* b := f 8 in let* c := f 8 in SRet (a, b, c)
     else SRet (CP_UNSPECIFIED, TC_UNSPECIFIED, MC_UNSPECIFIED)) in
  if mono_chrome =? 1 then
    let* color_range := f 1 in
    let* _ := require (negb strict || negb (mc =? MC_IDENTITY)) in
    SRet (mkColorConfig BitDepth 1 color_description_present_flag cp tc mc color_range
            1 1 CSP_UNKNOWN 0)
  else
    let* (color_range, ssx, ssy, csp) :=
      (if (cp =? CP_BT_709) && (tc =? TC_SRGB) && (mc =? MC_IDENTITY) then
         let* _ := require (profile_allows seq_profile BitDepth 0 0) in
         SRet (1, 0, 0, CSP_UNKNOWN)
       else
         let* color_range := f 1 in
         let* (ssx, ssy) :=
           (if seq_profile =? 0 then SRet (1, 1)
            else if seq_profile =? 1 then SRet (0, 0)
            else if BitDepth =? 12 then
              let* ssx := f 1 in
              let* ssy := (if ssx =? 1 then f 1 else SRet 0) in
              SRet (ssx, ssy)
            else SRet (1, 0)) in
         let* csp := (if (ssx =? 1) && (ssy =? 1) then f 2 else SRet CSP_UNKNOWN) in
         SRet (color_range, ssx, ssy, csp)) in
    (* 6.4.2: MC_IDENTITY requires 4:4:4 *)
    let* _ := require (negb strict || negb (mc =? MC_IDENTITY) || (ssx =? 0) && (ssy =? 0)) in
    let* separate_uv_delta_q := f 1 in
    SRet (mkColorConfig BitDepth 0 color_description_present_flag cp tc mc color_range
            ssx ssy csp separate_uv_delta_q).

(** 5.5.1 sequence_header_obu(). *)
Definition sequence_header_obu (strict : bool) : sp sequence_header :=
  let* seq_profile := f 3 in
  let* _ := require (seq_profile <=? 2) in
  let* still_picture := f 1 in
  let* reduced := f 1 in
  let* _ := require (negb ((reduced =? 1) && (still_picture =? 0))) in
  let* (t, idd, ops) := level_section strict reduced in
  let* fwb := f 4 in
  let* fhb := f 4 in
  let* mfw := f (fwb + 1) in
  let* mfh := f (fhb + 1) in
  let* (fid, dfid, afid) := frame_id_section reduced in
  let* use_128x128_superblock := f 1 in
  let* enable_filter_intra := f 1 in
  let* enable_intra_edge_filter := f 1 in
  let* tl := tool_section reduced in
  let* enable_superres := f 1 in
  let* enable_cdef := f 1 in
  let* enable_restoration := f 1 in
  let* col := color_section strict seq_profile in
  let* film_grain_params_present := f 1 in
  SRet (mkSequenceHeader seq_profile still_picture reduced t idd ops fwb fhb mfw mfh fid dfid afid
          use_128x128_superblock enable_filter_intra enable_intra_edge_filter tl enable_superres
          enable_cdef enable_restoration col film_grain_params_present).

(** 5.3.4 trailing_bits(): one 1-bit, then 0-bits to the end of the OBU
    ([len] bits); not strict: only the presence of one bit is required. *)
Definition trailing_ok (strict : bool) (b : Z -> Z) (pos len : Z) : Prop :=
  pos < len /\ (strict = true -> b pos = 1 /\ forall i, pos < i < len -> b i = 0).

(** The uncompressed_header() syntax of the AV1 bitstream specification
    (sections 5.9 and 6.8, reference selection 7.8), as a syntax table.
    Independent of the C parser.

    Decoder state used by the table: the eight reference slots.  An element
    whose meaning depends on a slot that holds no frame makes the header
    invalid.

    Not part of this table (and not done by dav1d): the bookkeeping of
    RefValid in mark_ref_frames() and for ref_order_hint[] mismatches, and the
    requirement that frame sizes do not exceed the sequence maximum.

    Two points where the table follows the libaom reading shared by dav1d
    instead of the letter of the specification are marked (D1), (D2). *)
From Coq Require Import ZArith List Bool.
From Verif Require Import GetBits.Spec GetBits.SpecProg Obu.SeqSpec.
Import ListNotations.
Open Scope Z_scope.
Local Open Scope sp_scope.

Definition KEY_FRAME : Z := 0.
Definition INTER_FRAME : Z := 1.
Definition INTRA_ONLY_FRAME : Z := 2.
Definition SWITCH_FRAME : Z := 3.
Definition PRIMARY_REF_NONE : Z := 7.
Definition allFrames : Z := 255.

(** Film grain parameters that were explicitly coded; [None] below stands for
    reset_grain_params(). *)
Record film_grain : Type := mkFilmGrain {
  grain_seed : Z;
  point_y : list (Z * Z); chroma_scaling_from_luma : Z;
  point_cb : list (Z * Z); point_cr : list (Z * Z);
  grain_scaling_minus_8 : Z; ar_coeff_lag : Z;
  ar_coeffs_y_plus_128 : list Z; ar_coeffs_cb_plus_128 : list Z; ar_coeffs_cr_plus_128 : list Z;
  ar_coeff_shift_minus_6 : Z; grain_scale_shift : Z;
  cb_params : option (Z * Z * Z);   (* cb_mult, cb_luma_mult, cb_offset *)
  cr_params : option (Z * Z * Z);
  overlap_flag : Z; clip_to_restricted_range : Z }.

(** Segmentation features: for each segment, FeatureData of each of the 8
    features, [None] when FeatureEnabled is 0. *)
Definition features : Type := list (list (option Z)).

(** Contents of a reference slot. *)
Record ref_info : Type := mkRefInfo {
  RefFrameId : Z; RefOrderHint : Z;
  RefUpscaledWidth : Z; RefFrameHeight : Z; RefRenderWidth : Z; RefRenderHeight : Z;
  SavedFeatures : features;
  SavedRefDeltas : list Z; SavedModeDeltas : list Z;
  SavedGmParams : list (list Z);
  SavedFilmGrain : option film_grain }.
Definition slots : Type := list (option ref_info).
Definition slot (refs : slots) (i : Z) : sp ref_info :=
  match nth (Z.to_nat i) refs None with Some r => SRet r | None => SReject end.

(** Repeat a table [n] times. *)
Fixpoint times {A} (n : nat) (m : sp A) : sp (list A) :=
  match n with O => SRet [] | S n => let* x := m in let* l := times n m in SRet (x :: l) end.

(** 5.9.31 temporal_point_info(), when present. *)
Definition temporal_point (s : sequence_header) : sp Z :=
  if (decoder_model_info_present_flag (timing_ s) =? 1) && (equal_picture_interval (timing_ s) =? 0)
  then f (frame_presentation_time_length_minus_1 (timing_ s) + 1) else SRet 0.
Definition idLen (s : sequence_header) : Z :=
  additional_frame_id_length_minus_1 s + delta_frame_id_length_minus_2 s + 3.

(** 7.20/5.9.3 get_relative_dist(). *)
Definition get_relative_dist (s : sequence_header) (a b : Z) : Z :=
  if enable_order_hint (tools_ s) =? 0 then 0 else
  let diff := a - b in
  let m := 2 ^ (OrderHintBits (tools_ s) - 1) in
  Z.land diff (m - 1) - Z.land diff m.

(** * First part: frame type and general flags *)
Record general : Type := mkGeneral {
  frame_type : Z; show_frame : Z; showable_frame : Z; frame_presentation_time : Z;
  error_resilient_mode : Z; disable_cdf_update : Z; allow_screen_content_tools : Z;
  force_integer_mv : Z; current_frame_id : Z; frame_size_override_flag : Z; OrderHint : Z;
  primary_ref_frame : Z; buffer_removal_time_present_flag : Z;
  buffer_removal_time : list Z }.   (* one per operating point, 0 if absent *)
Definition FrameIsIntra (ft : Z) : bool := (ft =? KEY_FRAME) || (ft =? INTRA_ONLY_FRAME).

Fixpoint buffer_removal_times (s : sequence_header) (temporal_id spatial_id : Z)
    (ops : list operating_point) : sp (list Z) :=
  match ops with
  | [] => SRet []
  | op :: ops =>
    let* v :=
      (if decoder_model_present_for_this_op op =? 1 then
         let opPtIdc := operating_point_idc op in
         let inTemporalLayer := Z.odd (opPtIdc / 2 ^ temporal_id) in
         let inSpatialLayer := Z.odd (opPtIdc / 2 ^ (spatial_id + 8)) in
         if (opPtIdc =? 0) || (inTemporalLayer && inSpatialLayer)
         then f (buffer_removal_time_length_minus_1 (timing_ s) + 1) else SRet 0
       else SRet 0) in
    let* l := buffer_removal_times s temporal_id spatial_id ops in
    SRet (v :: l)
  end.

Definition general_part (s : sequence_header) (temporal_id spatial_id : Z) : sp general :=
  let t := tools_ s in
  let reduced := reduced_still_picture_header s =? 1 in
  let* (ft, show, time, showable, erm) :=
    (if reduced then SRet (KEY_FRAME, 1, 0, 0, 1)
     else
       let* ft := f 2 in
       let* show := f 1 in
       let* time := (if show =? 1 then temporal_point s else SRet 0) in
       let* showable := (if show =? 1 then SRet (if ft =? KEY_FRAME then 0 else 1) else f 1) in
       let* erm := (if (ft =? SWITCH_FRAME) || ((ft =? KEY_FRAME) && (show =? 1)) then SRet 1 else f 1) in
       SRet (ft, show, time, showable, erm)) in
  let* dcu := f 1 in
  let* asct := (if seq_force_screen_content_tools t =? SELECT_SCREEN_CONTENT_TOOLS then f 1
                else SRet (seq_force_screen_content_tools t)) in
  let* fim := (if asct =? 1 then
                 if seq_force_integer_mv t =? SELECT_INTEGER_MV then f 1 else SRet (seq_force_integer_mv t)
               else SRet 0) in
  let fim := if FrameIsIntra ft then 1 else fim in
  let* fid := (if frame_id_numbers_present_flag s =? 1 then f (idLen s) else SRet 0) in
  let* fso := (if ft =? SWITCH_FRAME then SRet 1 else if reduced then SRet 0 else f 1) in
  let* oh := (if enable_order_hint t =? 1 then f (OrderHintBits t) else SRet 0) in
  let* prf := (if FrameIsIntra ft || (erm =? 1) then SRet PRIMARY_REF_NONE else f 3) in
  let* (brp, brt) :=
    (if decoder_model_info_present_flag (timing_ s) =? 1 then
       let* brp := f 1 in
       if brp =? 1 then
         let* l := buffer_removal_times s temporal_id spatial_id (operating_points s) in
         SRet (1, l)
       else SRet (0, [])
     else SRet (0, [])) in
  SRet (mkGeneral ft show showable time erm dcu asct fim fid fso oh prf brp brt).

(** * Frame size (5.9.5 - 5.9.9) *)
Record frame_size : Type := mkFrameSize {
  FrameWidth : Z; UpscaledWidth : Z; FrameHeight : Z; RenderWidth : Z; RenderHeight : Z;
  use_superres : Z; SuperresDenom : Z }.
(** 5.9.8 superres_params().  (D1) The downscaled width is not allowed below
    16 (or the upscaled width if that is smaller), cf. Annex A. *)
Definition superres_params (s : sequence_header) (UpscaledWidth : Z) : sp (Z * Z * Z) :=
  let* use_superres := (if enable_superres s =? 1 then f 1 else SRet 0) in
  if use_superres =? 1 then
    let* coded_denom := f 3 in
    let SuperresDenom := coded_denom + 9 in
    SRet (1, SuperresDenom,
          Z.max ((UpscaledWidth * 8 + SuperresDenom / 2) / SuperresDenom) (Z.min 16 UpscaledWidth))
  else SRet (0, 8, UpscaledWidth).
(** 5.9.5 frame_size() and 5.9.6 render_size(). *)
Definition frame_and_render_size (s : sequence_header) (override : Z) : sp frame_size :=
  let* (w, h) :=
    (if override =? 1 then
       let* w := f (frame_width_bits_minus_1 s + 1) in
       let* h := f (frame_height_bits_minus_1 s + 1) in
       SRet (w + 1, h + 1)
     else SRet (max_frame_width_minus_1 s + 1, max_frame_height_minus_1 s + 1)) in
  let* (us, d, fw) := superres_params s w in
  let* diff := f 1 in
  let* (rw, rh) :=
    (if diff =? 1 then
       let* rw := f 16 in let* rh := f 16 in SRet (rw + 1, rh + 1)
     else SRet (w, h)) in
  SRet (mkFrameSize fw w h rw rh us d).
(** 5.9.7 frame_size_with_refs(). *)
Fixpoint frame_size_with_refs (s : sequence_header) (refs : slots) (override : Z) (ref_frame_idx : list Z)
  : sp frame_size :=
  match ref_frame_idx with
  | [] => frame_and_render_size s override
  | i :: l =>
    let* found_ref := f 1 in
    if found_ref =? 1 then
      let* r := slot refs i in
      let* (us, d, fw) := superres_params s (RefUpscaledWidth r) in
      SRet (mkFrameSize fw (RefUpscaledWidth r) (RefFrameHeight r) (RefRenderWidth r) (RefRenderHeight r) us d)
    else frame_size_with_refs s refs override l
  end.

(** * 7.8 set_frame_refs() *)
(** Scan the slots in order: keep the slot found so far, replace it when the
    new one is a candidate and is better. *)
Fixpoint find_slot (i : Z) (shiftedOrderHints : list Z) (cand : Z -> Z -> bool) (better : Z -> Z -> bool)
    (best : option (Z * Z)) : option (Z * Z) :=
  match shiftedOrderHints with
  | [] => best
  | h :: l =>
    find_slot (i + 1) l cand better
      (if cand i h && match best with None => true | Some (_, b) => better h b end
       then Some (i, h) else best)
  end.
Definition in_list (i : Z) (l : list Z) : bool := existsb (Z.eqb i) l.
Definition find_latest_backward (hints used : list _) (cur : Z) :=
  find_slot 0 hints (fun i h => negb (in_list i used) && (cur <=? h)) (fun h b => b <=? h) None.
Definition find_earliest_backward (hints used : list _) (cur : Z) :=
  find_slot 0 hints (fun i h => negb (in_list i used) && (cur <=? h)) (fun h b => h <? b) None.
Definition find_latest_forward (hints used : list _) (cur : Z) :=
  find_slot 0 hints (fun i h => negb (in_list i used) && (h <? cur)) (fun h b => b <=? h) None.
Definition find_earliest (hints : list Z) :=
  find_slot 0 hints (fun _ _ => true) (fun h b => h <? b) None.
(** ref_frame_idx and the set of used slots, when a search succeeded. *)
Definition assign (r : option (Z * Z)) (used : list Z) : option Z * list Z :=
  match r with Some (i, _) => (Some i, i :: used) | None => (None, used) end.
(** Ref_Frame_List: references still unset, in the order LAST2, LAST3, BWDREF,
    ALTREF2, ALTREF. *)
Definition set_if_unset (hints : list Z) (cur : Z) (r : option Z) (used : list Z) : option Z * list Z :=
  match r with Some i => (Some i, used) | None => assign (find_latest_forward hints used cur) used end.
Definition set_frame_refs (hints : list Z) (cur last_frame_idx gold_frame_idx : Z) : list Z :=
  let used := [gold_frame_idx; last_frame_idx] in
  let '(altref, used) := assign (find_latest_backward hints used cur) used in
  let '(bwdref, used) := assign (find_earliest_backward hints used cur) used in
  let '(altref2, used) := assign (find_earliest_backward hints used cur) used in
  let '(last2, used) := set_if_unset hints cur None used in
  let '(last3, used) := set_if_unset hints cur None used in
  let '(bwdref, used) := set_if_unset hints cur bwdref used in
  let '(altref2, used) := set_if_unset hints cur altref2 used in
  let '(altref, _) := set_if_unset hints cur altref used in
  let ref := match find_earliest hints with Some (i, _) => i | None => -1 end in
  let get o := match o with Some i => i | None => ref end in
  [last_frame_idx; get last2; get last3; gold_frame_idx; get bwdref; get altref2; get altref].
Fixpoint shifted_hints (s : sequence_header) (refs : slots) (cur OrderHint : Z) : sp (list Z) :=
  match refs with
  | [] => SRet []
  | None :: _ => SReject
  | Some r :: l =>
    let* t := shifted_hints s l cur OrderHint in
    SRet (cur + get_relative_dist s (RefOrderHint r) OrderHint :: t)
  end.

(** * References and the rest of the frame-type dependent part *)
Record references : Type := mkReferences {
  refresh_frame_flags : Z; size_ : frame_size; allow_intrabc : Z; frame_refs_short_signaling : Z;
  ref_frame_idx : list Z; allow_high_precision_mv : Z; interpolation_filter : Z;
  is_motion_mode_switchable : Z; use_ref_frame_mvs : Z }.
Definition SWITCHABLE : Z := 4.

(** Reference indices, and 6.8.2: expectedFrameId must equal the id of the
    reference frame. *)
Fixpoint ref_indices (s : sequence_header) (refs : slots) (fid : Z) (n : nat) (short : option (list Z))
  : sp (list Z) :=
  match n with
  | O => SRet []
  | S n =>
    let* i := match short with Some l => SRet (hd 0 l) | None => f 3 end in
    let* _ :=
      (if frame_id_numbers_present_flag s =? 1 then
         let* delta_frame_id_minus_1 := f (delta_frame_id_length_minus_2 s + 2) in
         let expectedFrameId :=
           (fid + 2 ^ idLen s - (delta_frame_id_minus_1 + 1)) mod 2 ^ idLen s in
         let* r := slot refs i in
         require (RefFrameId r =? expectedFrameId)
       else SRet tt) in
    let* l := ref_indices s refs fid n (match short with Some l => Some (tl l) | None => None end) in
    SRet (i :: l)
  end.

Definition reference_part (s : sequence_header) (refs : slots) (strict : bool) (g : general) : sp references :=
  let t := tools_ s in
  let ft := frame_type g in
  let* rff := (if (ft =? SWITCH_FRAME) || ((ft =? KEY_FRAME) && (show_frame g =? 1)) then SRet allFrames
               else f 8) in
  let* _ := (if negb (FrameIsIntra ft) || negb (rff =? allFrames) then
               if (error_resilient_mode g =? 1) && (enable_order_hint t =? 1)
               then let* _ := times 8 (f (OrderHintBits t)) in SRet tt else SRet tt
             else SRet tt) in
  (* 6.8.2: an intra-only frame shall not refresh all slots (strict) *)
  let* _ := require (negb (strict && (ft =? INTRA_ONLY_FRAME) && (rff =? allFrames))) in
  if FrameIsIntra ft then
    let* sz := frame_and_render_size s (frame_size_override_flag g) in
    (* (D2) the specification tests UpscaledWidth == FrameWidth *)
    let* ibc := (if (allow_screen_content_tools g =? 1) && (use_superres sz =? 0) then f 1 else SRet 0) in
    SRet (mkReferences rff sz ibc 0 [] 0 0 0 0)
  else
    let* frss := (if enable_order_hint t =? 1 then f 1 else SRet 0) in
    let* short :=
      (if frss =? 1 then
         let* last_frame_idx := f 3 in
         let* gold_frame_idx := f 3 in
         let cur := 2 ^ (OrderHintBits t - 1) in
         let* hints := shifted_hints s refs cur (OrderHint g) in
         SRet (Some (set_frame_refs hints cur last_frame_idx gold_frame_idx))
       else SRet None) in
    let* ridx := ref_indices s refs (current_frame_id g) 7 short in
    let* sz := (if (frame_size_override_flag g =? 1) && (error_resilient_mode g =? 0)
                then frame_size_with_refs s refs (frame_size_override_flag g) ridx
                else frame_and_render_size s (frame_size_override_flag g)) in
    let* hp := (if force_integer_mv g =? 1 then SRet 0 else f 1) in
    let* is_filter_switchable := f 1 in
    let* filt := (if is_filter_switchable =? 1 then SRet SWITCHABLE else f 2) in
    let* mm := f 1 in
    let* mvs := (if (error_resilient_mode g =? 1) || (enable_ref_frame_mvs t =? 0) then SRet 0 else f 1) in
    SRet (mkReferences rff sz 0 frss ridx hp filt mm mvs).

(** * 5.9.15 tile_info() *)
(** TileColsLog2 etc.; tile boundaries in superblocks, including the end. *)
Record tiles : Type := mkTiles {
  uniform_tile_spacing_flag : Z; TileColsLog2 : Z; TileRowsLog2 : Z;
  TileColStarts : list Z; TileRowStarts : list Z;
  context_update_tile_id : Z; TileSizeBytes : Z }.
(** 5.9.16 tile_log2(): smallest k with blkSize << k >= target. *)
Definition is_tile_log2 (blkSize target k : Z) : Prop :=
  0 <= k /\ target <= blkSize * 2 ^ k /\ forall j, 0 <= j < k -> blkSize * 2 ^ j < target.
Definition tile_log2 (blkSize target : Z) : Z := Z.log2_up ((target + blkSize - 1) / blkSize).
Fixpoint increment_log2 (n : nat) (k max : Z) : sp Z :=
  match n with
  | O => SRet k
  | S n => if k <? max then
             let* b := f 1 in
             if b =? 1 then increment_log2 n (k + 1) max else SRet k
           else SRet k
  end.
(** Starts 0, w, 2w, ... below [n]. *)
Fixpoint uniform_spacing (fuel : nat) (start w n : Z) : list Z :=
  match fuel with
  | O => []
  | S fuel => if start <? n then start :: uniform_spacing fuel (start + w) w n else []
  end.
(** Explicit sizes.  At most 64 tiles are read (MAX_TILE_COLS, MAX_TILE_ROWS):
    streams with more are not conformant; dav1d then lets the last tile extend
    to the frame edge. *)
Fixpoint explicit_spacing (fuel : nat) (start n maxSize widest : Z) : sp (list Z * Z) :=
  match fuel with
  | O => SRet ([], widest)
  | S fuel =>
    if start <? n then
      let maxw := Z.min (n - start) maxSize in
      let* size_minus_1 := (if maxw =? 1 then SRet 0 else ns maxw) in   (* ns(1) reads nothing *)
      let size := size_minus_1 + 1 in
      let* (l, w) := explicit_spacing fuel (start + size) n maxSize (Z.max size widest) in
      SRet (start :: l, w)
    else SRet ([], widest)
  end.
Definition tile_info (s : sequence_header) (fw fh : Z) : sp tiles :=
  let MiCols := 2 * ((fw + 7) / 8) in
  let MiRows := 2 * ((fh + 7) / 8) in
  let big := use_128x128_superblock s =? 1 in
  let sbCols := if big then (MiCols + 31) / 32 else (MiCols + 15) / 16 in
  let sbRows := if big then (MiRows + 31) / 32 else (MiRows + 15) / 16 in
  let sbShift := if big then 5 else 4 in
  let sbSize := sbShift + 2 in
  let maxTileWidthSb := 4096 / 2 ^ sbSize in
  let maxTileAreaSb := 4096 * 2304 / 2 ^ (2 * sbSize) in
  let minLog2TileCols := tile_log2 maxTileWidthSb sbCols in
  let maxLog2TileCols := tile_log2 1 (Z.min sbCols 64) in
  let maxLog2TileRows := tile_log2 1 (Z.min sbRows 64) in
  let minLog2Tiles := Z.max minLog2TileCols (tile_log2 maxTileAreaSb (sbRows * sbCols)) in
  let* u := f 1 in
  let* (cl, rl, cs, rs) :=
    (if u =? 1 then
       let* cl := increment_log2 16 minLog2TileCols maxLog2TileCols in
       let w := (sbCols + 2 ^ cl - 1) / 2 ^ cl in
       let minLog2TileRows := Z.max (minLog2Tiles - cl) 0 in
       let* rl := increment_log2 16 minLog2TileRows maxLog2TileRows in
       let h := (sbRows + 2 ^ rl - 1) / 2 ^ rl in
       SRet (cl, rl, uniform_spacing (Z.to_nat sbCols) 0 w sbCols, uniform_spacing (Z.to_nat sbRows) 0 h sbRows)
     else
       let* (cs, widest) := explicit_spacing 64 0 sbCols maxTileWidthSb 0 in
       let area := if 0 <? minLog2Tiles then sbRows * sbCols / 2 ^ (minLog2Tiles + 1) else sbRows * sbCols in
       let maxTileHeightSb := Z.max (area / widest) 1 in
       let* (rs, _) := explicit_spacing 64 0 sbRows maxTileHeightSb 0 in
       SRet (tile_log2 1 (Z.of_nat (length cs)), tile_log2 1 (Z.of_nat (length rs)), cs, rs)) in
  let TileCols := Z.of_nat (length cs) in
  let TileRows := Z.of_nat (length rs) in
  let* (upd, bytes) :=
    (if (0 <? cl) || (0 <? rl) then
       let* upd := f (rl + cl) in
       let* _ := require (upd <? TileCols * TileRows) in
       let* b := f 2 in
       SRet (upd, b + 1)
     else SRet (0, 0)) in
  SRet (mkTiles u cl rl (cs ++ [sbCols]) (rs ++ [sbRows]) upd bytes).

(** * 5.9.12 quantization_params(), 5.9.13 read_delta_q() *)
Record quantization : Type := mkQuantization {
  base_q_idx : Z; DeltaQYDc : Z; DeltaQUDc : Z; DeltaQUAc : Z; DeltaQVDc : Z; DeltaQVAc : Z;
  using_qmatrix : Z; qm_y : Z; qm_u : Z; qm_v : Z }.
Definition read_delta_q : sp Z := let* delta_coded := f 1 in if delta_coded =? 1 then su 7 else SRet 0.
Definition quantization_params (s : sequence_header) : sp quantization :=
  let c := color_ s in
  let* base := f 8 in
  let* ydc := read_delta_q in
  let* (udc, uac, vdc, vac) :=
    (if mono_chrome c =? 1 then SRet (0, 0, 0, 0)
     else
       let* diff_uv_delta := (if separate_uv_delta_q c =? 1 then f 1 else SRet 0) in
       let* udc := read_delta_q in
       let* uac := read_delta_q in
       if diff_uv_delta =? 1 then
         let* vdc := read_delta_q in let* vac := read_delta_q in SRet (udc, uac, vdc, vac)
       else SRet (udc, uac, udc, uac)) in
  let* q := f 1 in
  let* (qy, qu, qv) :=
    (if q =? 1 then
       let* qy := f 4 in
       let* qu := f 4 in
       let* qv := (if separate_uv_delta_q c =? 0 then SRet qu else f 4) in
       SRet (qy, qu, qv)
     else SRet (0, 0, 0)) in
  SRet (mkQuantization base ydc udc uac vdc vac q qy qu qv).

(** * 5.9.14 segmentation_params() *)
Record segmentation : Type := mkSegmentation {
  segmentation_enabled : Z; segmentation_update_map : Z; segmentation_temporal_update : Z;
  segmentation_update_data : Z; FeatureData : features }.
(** Bits, signedness and maximum of each feature. *)
Definition feature_table : list (Z * bool * Z) :=
  [(8, true, 255); (6, true, 63); (6, true, 63); (6, true, 63); (6, true, 63); (3, false, 7);
   (0, false, 0); (0, false, 0)].
Definition clip3 (lo hi x : Z) : Z := if x <? lo then lo else if hi <? x then hi else x.
Fixpoint segment_features (l : list (Z * bool * Z)) : sp (list (option Z)) :=
  match l with
  | [] => SRet []
  | (bitsToRead, signed, limit) :: l =>
    let* feature_enabled := f 1 in
    let* v :=
      (if feature_enabled =? 1 then
         if signed then
           let* feature_value := su (1 + bitsToRead) in SRet (Some (clip3 (- limit) limit feature_value))
         else if bitsToRead =? 0 then SRet (Some 0)
         else let* feature_value := f bitsToRead in SRet (Some (clip3 0 limit feature_value))
       else SRet None) in
    let* vs := segment_features l in
    SRet (v :: vs)
  end.
Definition no_features : features := repeat (repeat None 8) 8.
Definition segmentation_params (refs : slots) (g : general) (ridx : list Z) : sp segmentation :=
  let* en := f 1 in
  if en =? 1 then
    let* (um, tu, ud) :=
      (if primary_ref_frame g =? PRIMARY_REF_NONE then SRet (1, 0, 1)
       else
         let* um := f 1 in
         let* tu := (if um =? 1 then f 1 else SRet 0) in
         let* ud := f 1 in
         SRet (um, tu, ud)) in
    let* fd :=
      (if ud =? 1 then times 8 (segment_features feature_table)
       else let* r := slot refs (nth (Z.to_nat (primary_ref_frame g)) ridx 0) in SRet (SavedFeatures r)) in
    SRet (mkSegmentation 1 um tu ud fd)
  else SRet (mkSegmentation 0 0 0 0 no_features).
(** SegIdPreSkip and LastActiveSegId. *)
Definition is_some {A} (o : option A) : bool := match o with Some _ => true | None => false end.
Definition seg_active (l : list (option Z)) : bool := existsb is_some l.
Definition SegIdPreSkip (fd : features) : bool := existsb (fun l => seg_active (skipn 5 l)) fd.
Fixpoint last_active_from (i best : Z) (fd : features) : Z :=
  match fd with [] => best | l :: fd => last_active_from (i + 1) (if seg_active l then i else best) fd end.
Definition LastActiveSegId (fd : features) : Z := last_active_from 0 0 fd.

(** * 5.9.17 delta_q_params(), 5.9.18 delta_lf_params() *)
Record delta_params : Type := mkDeltaParams {
  delta_q_present : Z; delta_q_res : Z; delta_lf_present : Z; delta_lf_res : Z; delta_lf_multi : Z }.
Definition delta_section (base ibc : Z) : sp delta_params :=
  let* qp := (if 0 <? base then f 1 else SRet 0) in
  let* qr := (if qp =? 1 then f 2 else SRet 0) in
  if qp =? 1 then
    let* lp := (if ibc =? 0 then f 1 else SRet 0) in
    if lp =? 1 then
      let* lr := f 2 in let* lm := f 1 in SRet (mkDeltaParams qp qr lp lr lm)
    else SRet (mkDeltaParams qp qr lp 0 0)
  else SRet (mkDeltaParams 0 0 0 0 0).

(** * 5.9.2: qindex of each segment, LosslessArray, CodedLossless *)
(** 7.12.2 get_qidx(1, segmentId). *)
Definition seg_qidx (q : quantization) (l : list (option Z)) : Z :=
  match hd None l with Some data => clip3 0 255 (base_q_idx q + data) | None => base_q_idx q end.
Definition lossless_seg (q : quantization) (l : list (option Z)) : bool :=
  (seg_qidx q l =? 0) && (DeltaQYDc q =? 0) && (DeltaQUAc q =? 0) && (DeltaQUDc q =? 0) &&
  (DeltaQVAc q =? 0) && (DeltaQVDc q =? 0).
Definition CodedLossless (q : quantization) (fd : features) : bool := forallb (lossless_seg q) fd.

(** * 5.9.11 loop_filter_params() *)
Record loop_filter : Type := mkLoopFilter {
  loop_filter_level : Z * Z * Z * Z; loop_filter_sharpness : Z;
  loop_filter_delta_enabled : Z; loop_filter_delta_update : Z;
  loop_filter_ref_deltas : list Z; loop_filter_mode_deltas : list Z }.
(** INTRA, LAST, LAST2, LAST3, GOLDEN, BWDREF, ALTREF2, ALTREF. *)
Definition default_ref_deltas : list Z := [1; 0; 0; 0; -1; 0; -1; -1].
Definition default_mode_deltas : list Z := [0; 0].
Fixpoint delta_updates (l : list Z) : sp (list Z) :=
  match l with
  | [] => SRet []
  | d :: l =>
    let* update := f 1 in
    let* v := (if update =? 1 then su 7 else SRet d) in
    let* l := delta_updates l in
    SRet (v :: l)
  end.
(** When the filter is off (lossless or intra block copy) the levels are 0 and
    the deltas take their default values. *)
Definition loop_filter_params (s : sequence_header) (refs : slots) (g : general) (ridx : list Z)
    (lossless : bool) (ibc : Z) : sp loop_filter :=
  if lossless || (ibc =? 1) then
    SRet (mkLoopFilter (0, 0, 0, 0) 0 1 1 default_ref_deltas default_mode_deltas)
  else
    let* l0 := f 6 in
    let* l1 := f 6 in
    let* (l2, l3) :=
      (if (mono_chrome (color_ s) =? 0) && (negb (l0 =? 0) || negb (l1 =? 0)) then
         let* a := f 6 in let* b := f 6 in SRet (a, b)
       else SRet (0, 0)) in
    let* sharp := f 3 in
    let* (rd, md) :=
      (if primary_ref_frame g =? PRIMARY_REF_NONE then SRet (default_ref_deltas, default_mode_deltas)
       else let* r := slot refs (nth (Z.to_nat (primary_ref_frame g)) ridx 0) in
            SRet (SavedRefDeltas r, SavedModeDeltas r)) in
    let* en := f 1 in
    if en =? 1 then
      let* upd := f 1 in
      if upd =? 1 then
        let* rd := delta_updates rd in
        let* md := delta_updates md in
        SRet (mkLoopFilter (l0, l1, l2, l3) sharp 1 1 rd md)
      else SRet (mkLoopFilter (l0, l1, l2, l3) sharp 1 0 rd md)
    else SRet (mkLoopFilter (l0, l1, l2, l3) sharp 0 0 rd md).

(** * 5.9.19 cdef_params().  Strengths are the raw 6-bit pairs
    (pri_strength f(4), sec_strength f(2)); [None] when CDEF is off. *)
Definition cdef_pair : sp (Z * Z) := let* pri := f 4 in let* sec := f 2 in SRet (pri, sec).
Definition cdef_entry (mono : Z) : sp ((Z * Z) * option (Z * Z)) :=
  let* y := cdef_pair in
  if mono =? 1 then SRet (y, None) else let* uv := cdef_pair in SRet (y, Some uv).
Definition cdef_params (s : sequence_header) (lossless : bool) (ibc : Z)
  : sp (option (Z * Z * list ((Z * Z) * option (Z * Z)))) :=
  if lossless || (ibc =? 1) || (enable_cdef s =? 0) then SRet None
  else
    let* damping_minus_3 := f 2 in
    let* cdef_bits := f 2 in
    let* l := times (Z.to_nat (2 ^ cdef_bits)) (cdef_entry (mono_chrome (color_ s))) in
    SRet (Some (damping_minus_3, cdef_bits, l)).

(** * 5.9.20 lr_params().  Types are lr_type; log2 of the unit sizes for luma
    and chroma when some plane is restored. *)
Record restoration : Type := mkRestoration {
  lr_type_y : Z; lr_type_u : Z; lr_type_v : Z; log2_unit_sizes : option (Z * Z) }.
Definition lr_params (s : sequence_header) (lossless : bool) (superres ibc : Z) : sp restoration :=
  let c := color_ s in
  (* (D2) AllLossless is CodedLossless && FrameWidth == UpscaledWidth *)
  if (lossless && (superres =? 0)) || (ibc =? 1) || (enable_restoration s =? 0) then
    SRet (mkRestoration 0 0 0 None)
  else
    let* ty := f 2 in
    let* (tu, tv) := (if mono_chrome c =? 1 then SRet (0, 0)
                      else let* a := f 2 in let* b := f 2 in SRet (a, b)) in
    if (0 <? ty) || (0 <? tu) || (0 <? tv) then
      let* lr_unit_shift :=
        (if use_128x128_superblock s =? 1 then
           let* sh := f 1 in SRet (sh + 1)
         else
           let* sh := f 1 in
           if sh =? 1 then let* extra := f 1 in SRet (sh + extra) else SRet sh) in
      let* lr_uv_shift :=
        (if (subsampling_x c =? 1) && (subsampling_y c =? 1) && ((0 <? tu) || (0 <? tv)) then f 1
         else SRet 0) in
      (* RESTORATION_TILESIZE_MAX = 256 = 2^8: LoopRestorationSize[0] = 256 >> (2 - lr_unit_shift) *)
      SRet (mkRestoration ty tu tv (Some (8 - (2 - lr_unit_shift), 8 - (2 - lr_unit_shift) - lr_uv_shift)))
    else SRet (mkRestoration ty tu tv None).

(** * 5.9.22 skip_mode_params() *)
Fixpoint nearest (s : sequence_header) (refs : slots) (hint : Z) (i : Z) (ridx : list Z)
    (fwd bwd : option (Z * Z)) : sp (option (Z * Z) * option (Z * Z)) :=
  match ridx with
  | [] => SRet (fwd, bwd)
  | r :: l =>
    let* rf := slot refs r in
    let refHint := RefOrderHint rf in
    let fwd' := if get_relative_dist s refHint hint <? 0 then
                  match fwd with
                  | None => Some (i, refHint)
                  | Some (_, h) => if 0 <? get_relative_dist s refHint h then Some (i, refHint) else fwd
                  end
                else fwd in
    let bwd' := if 0 <? get_relative_dist s refHint hint then
                  match bwd with
                  | None => Some (i, refHint)
                  (* the specification tests get_relative_dist(refHint, backwardHint) < 0;
                     the mirrored form differs only at distance exactly -2^(bits-1) *)
                  | Some (_, h) => if 0 <? get_relative_dist s h refHint then Some (i, refHint) else bwd
                  end
                else bwd in
    nearest s refs hint (i + 1) l fwd' bwd'
  end.
Fixpoint second_nearest (s : sequence_header) (refs : slots) (hint : Z) (i : Z) (ridx : list Z)
    (best : option (Z * Z)) : sp (option (Z * Z)) :=
  match ridx with
  | [] => SRet best
  | r :: l =>
    let* rf := slot refs r in
    let refHint := RefOrderHint rf in
    second_nearest s refs hint (i + 1) l
      (if get_relative_dist s refHint hint <? 0 then
         match best with
         | None => Some (i, refHint)
         | Some (_, h) => if 0 <? get_relative_dist s refHint h then Some (i, refHint) else best
         end
       else best)
  end.
(** Indices (0 = LAST_FRAME) of SkipModeFrame[], [None]: not allowed. *)
Definition skip_mode_params (s : sequence_header) (refs : slots) (g : general) (ridx : list Z)
    (reference_select : Z) : sp (option (Z * Z)) :=
  if FrameIsIntra (frame_type g) || (reference_select =? 0) || (enable_order_hint (tools_ s) =? 0)
  then SRet None
  else
    let* (fwd, bwd) := nearest s refs (OrderHint g) 0 ridx None None in
    match fwd, bwd with
    | None, _ => SRet None
    | Some (i, _), Some (j, _) => SRet (Some (Z.min i j, Z.max i j))
    | Some (i, h), None =>
      let* second := second_nearest s refs h 0 ridx None in
      match second with
      | None => SRet None
      | Some (j, _) => SRet (Some (Z.min i j, Z.max i j))
      end
    end.

(** * 5.9.24 global_motion_params(), 5.9.25 read_global_param() *)
Definition IDENTITY : Z := 0.
Definition TRANSLATION : Z := 1.
Definition ROTZOOM : Z := 2.
Definition AFFINE : Z := 3.
Definition default_gm : list Z := [0; 0; 2 ^ 16; 0; 0; 2 ^ 16].
Definition read_global_param (type hp idx prev : Z) : sp Z :=
  let absBits := if idx <? 2 then if type =? TRANSLATION then 9 - (1 - hp) else 12 else 12 in
  let precBits := if idx <? 2 then if type =? TRANSLATION then 3 - (1 - hp) else 6 else 15 in
  let precDiff := 16 - precBits in
  let round := if idx mod 3 =? 2 then 2 ^ 16 else 0 in
  let sub := if idx mod 3 =? 2 then 2 ^ precBits else 0 in
  let mx := 2 ^ absBits in
  let r := prev / 2 ^ precDiff - sub in
  let* x := decode_signed_subexp_with_ref (- mx) (mx + 1) r in
  SRet (x * 2 ^ precDiff + round).
Definition global_param (refs : slots) (g : general) (rf : references) (ref : nat) : sp (Z * list Z) :=
  let* is_global := f 1 in
  if is_global =? 1 then
    let* is_rot_zoom := f 1 in
    let* type := (if is_rot_zoom =? 1 then SRet ROTZOOM
                  else let* is_translation := f 1 in
                       SRet (if is_translation =? 1 then TRANSLATION else AFFINE)) in
    let* prev := (if primary_ref_frame g =? PRIMARY_REF_NONE then SRet default_gm
                  else let* r := slot refs (nth (Z.to_nat (primary_ref_frame g)) (ref_frame_idx rf) 0) in
                       SRet (nth ref (SavedGmParams r) [])) in
    let param idx := read_global_param type (allow_high_precision_mv rf) idx (nth (Z.to_nat idx) prev 0) in
    let* (m2, m3) := (if ROTZOOM <=? type then let* a := param 2 in let* b := param 3 in SRet (a, b)
                      else SRet (2 ^ 16, 0)) in
    let* (m4, m5) := (if type =? AFFINE then let* a := param 4 in let* b := param 5 in SRet (a, b)
                      else SRet (- m3, m2)) in
    let* m0 := param 0 in
    let* m1 := param 1 in
    SRet (type, [m0; m1; m2; m3; m4; m5])
  else SRet (IDENTITY, default_gm).
Fixpoint global_params_from (refs : slots) (g : general) (rf : references) (n ref : nat) : sp (list (Z * list Z)) :=
  match n with
  | O => SRet []
  | S n => let* x := global_param refs g rf ref in
           let* l := global_params_from refs g rf n (S ref) in
           SRet (x :: l)
  end.
Definition global_motion_params (refs : slots) (g : general) (rf : references) : sp (list (Z * list Z)) :=
  if FrameIsIntra (frame_type g) then SRet (repeat (IDENTITY, default_gm) 7)
  else global_params_from refs g rf 7 0.

(** * 5.9.30 film_grain_params() *)
(** 6.8.20: point values are increasing. *)
Fixpoint points (n : nat) (prev : option Z) : sp (list (Z * Z)) :=
  match n with
  | O => SRet []
  | S n =>
    let* v := f 8 in
    let* _ := require (match prev with None => true | Some p => p <? v end) in
    let* sc := f 8 in
    let* l := points n (Some v) in
    SRet ((v, sc) :: l)
  end.
Definition mult_params (present : bool) : sp (option (Z * Z * Z)) :=
  if present then let* a := f 8 in let* b := f 8 in let* c := f 9 in SRet (Some (a, b, c)) else SRet None.
Definition nonempty {A} (l : list A) : bool := match l with [] => false | _ => true end.
Definition grain_data (s : sequence_header) (seed : Z) : sp film_grain :=
  let c := color_ s in
  let sub := (subsampling_x c =? 1) && (subsampling_y c =? 1) in
  let* num_y_points := f 4 in
  let* _ := require (num_y_points <=? 14) in
  let* py := points (Z.to_nat num_y_points) None in
  let* csfl := (if mono_chrome c =? 1 then SRet 0 else f 1) in
  let* (pcb, pcr) :=
    (if (mono_chrome c =? 1) || (csfl =? 1) || (sub && (num_y_points =? 0)) then SRet ([], [])
     else
       let* num_cb_points := f 4 in
       let* _ := require (num_cb_points <=? 10) in
       let* pcb := points (Z.to_nat num_cb_points) None in
       let* num_cr_points := f 4 in
       let* _ := require (num_cr_points <=? 10) in
       let* pcr := points (Z.to_nat num_cr_points) None in
       SRet (pcb, pcr)) in
  let* _ := require (negb (sub && xorb (nonempty pcb) (nonempty pcr))) in
  let* scal := f 2 in
  let* lag := f 2 in
  let numPosLuma := 2 * lag * (lag + 1) in
  let numPosChroma := if nonempty py then numPosLuma + 1 else numPosLuma in
  let* cy := (if nonempty py then times (Z.to_nat numPosLuma) (f 8) else SRet []) in
  let* ccb := (if (csfl =? 1) || nonempty pcb then times (Z.to_nat numPosChroma) (f 8) else SRet []) in
  let* ccr := (if (csfl =? 1) || nonempty pcr then times (Z.to_nat numPosChroma) (f 8) else SRet []) in
  let* shift := f 2 in
  let* gss := f 2 in
  let* cb := mult_params (nonempty pcb) in
  let* cr := mult_params (nonempty pcr) in
  let* ov := f 1 in
  let* cl := f 1 in
  SRet (mkFilmGrain seed py csfl pcb pcr scal lag cy ccb ccr shift gss cb cr ov cl).
Definition set_seed (fg : film_grain) (seed : Z) : film_grain :=
  mkFilmGrain seed (point_y fg) (chroma_scaling_from_luma fg) (point_cb fg) (point_cr fg)
    (grain_scaling_minus_8 fg) (ar_coeff_lag fg) (ar_coeffs_y_plus_128 fg) (ar_coeffs_cb_plus_128 fg)
    (ar_coeffs_cr_plus_128 fg) (ar_coeff_shift_minus_6 fg) (grain_scale_shift fg) (cb_params fg)
    (cr_params fg) (overlap_flag fg) (clip_to_restricted_range fg).
(** The coded apply_grain and update_grain, and the resulting parameters
    ([None] stands for apply_grain = 0).  With update_grain = 0 all syntax
    elements of film_grain_params(), including apply_grain, are loaded from the
    reference, so the result is [None] when the reference has no grain. *)
Definition film_grain_params (s : sequence_header) (refs : slots) (g : general) (ridx : list Z)
  : sp (Z * Z * option film_grain) :=
  if (film_grain_params_present s =? 0) || ((show_frame g =? 0) && (showable_frame g =? 0))
  then SRet (0, 0, None)
  else
    let* apply_grain := f 1 in
    if apply_grain =? 0 then SRet (0, 0, None) else
    let* seed := f 16 in
    let* update_grain := (if frame_type g =? INTER_FRAME then f 1 else SRet 1) in
    if update_grain =? 0 then
      let* film_grain_params_ref_idx := f 3 in
      let* _ := require (in_list film_grain_params_ref_idx ridx) in
      let* r := slot refs film_grain_params_ref_idx in
      SRet (1, 0, match SavedFilmGrain r with Some fg => Some (set_seed fg seed) | None => None end)
    else
      let* fg := grain_data s seed in
      SRet (1, 1, Some fg).

(** * 5.9.2 uncompressed_header() *)
Record coded_frame : Type := mkCodedFrame {
  general_ : general; references_ : references; disable_frame_end_update_cdf : Z;
  tiles_ : tiles; quantization_ : quantization; segmentation_ : segmentation;
  delta_ : delta_params; loop_filter_ : loop_filter;
  cdef_ : option (Z * Z * list ((Z * Z) * option (Z * Z)));
  restoration_ : restoration; tx_mode_select : option Z;   (* None: ONLY_4X4 *)
  reference_select : Z; skip_mode_frames : option (Z * Z); skip_mode_present : Z;
  allow_warped_motion : Z; reduced_tx_set : Z; gm_ : list (Z * list Z);
  apply_grain : Z; update_grain : Z; grain_ : option film_grain }.
Inductive uncompressed : Type :=
| ShowExisting (frame_to_show_map_idx frame_presentation_time display_frame_id : Z)
| Coded (fr : coded_frame).

Definition coded_frame_header (s : sequence_header) (refs : slots) (strict : bool) (temporal_id spatial_id : Z)
  : sp coded_frame :=
  let* g := general_part s temporal_id spatial_id in
  let* rf := reference_part s refs strict g in
  let ridx := ref_frame_idx rf in
  let* dfe := (if (reduced_still_picture_header s =? 1) || (disable_cdf_update g =? 1) then SRet 1 else f 1) in
  let* tl := tile_info s (FrameWidth (size_ rf)) (FrameHeight (size_ rf)) in
  let* q := quantization_params s in
  let* sg := segmentation_params refs g ridx in
  let* d := delta_section (base_q_idx q) (allow_intrabc rf) in
  let lossless := CodedLossless q (FeatureData sg) in
  let* lf := loop_filter_params s refs g ridx lossless (allow_intrabc rf) in
  let* cd := cdef_params s lossless (allow_intrabc rf) in
  let* lr := lr_params s lossless (use_superres (size_ rf)) (allow_intrabc rf) in
  let* tx := (if lossless then SRet None else let* b := f 1 in SRet (Some b)) in
  let* rs := (if FrameIsIntra (frame_type g) then SRet 0 else f 1) in
  let* sm := skip_mode_params s refs g ridx rs in
  let* smp := (match sm with Some _ => f 1 | None => SRet 0 end) in
  let* wm := (if FrameIsIntra (frame_type g) || (error_resilient_mode g =? 1) ||
                 (enable_warped_motion (tools_ s) =? 0) then SRet 0 else f 1) in
  let* rts := f 1 in
  let* gm := global_motion_params refs g rf in
  let* (ap, up, fg) := film_grain_params s refs g ridx in
  SRet (mkCodedFrame g rf dfe tl q sg d lf cd lr tx rs sm smp wm rts gm ap up fg).

Definition uncompressed_header (s : sequence_header) (refs : slots) (strict : bool) (temporal_id spatial_id : Z)
  : sp uncompressed :=
  let* show_existing_frame := (if reduced_still_picture_header s =? 1 then SRet 0 else f 1) in
  if show_existing_frame =? 1 then
    let* idx := f 3 in
    let* time := temporal_point s in
    let* fid :=
      (if frame_id_numbers_present_flag s =? 1 then
         let* display_frame_id := f (idLen s) in
         let* r := slot refs idx in
         let* _ := require (RefFrameId r =? display_frame_id) in
         SRet display_frame_id
       else SRet 0) in
    SRet (ShowExisting idx time fid)
  else
    let* fr := coded_frame_header s refs strict temporal_id spatial_id in
    SRet (Coded fr).

(** Model of frame header parsing: /repo/src/obu.c:341-1196.

    The header structure is zeroed before parsing (obu.c:1324), so fields that
    are not assigned are 0.  The flat C struct is grouped by parser section;
    fixed-size arrays are lists of that length.  Stores into narrow struct
    fields are not truncated in the model: the ranges proved about accepted
    headers (FrameProofs.v) show that every stored value fits. *)
From Coq Require Import ZArith List Bool.
From Verif Require Import Base.CInt GetBits.Model Obu.SeqModel.
Import ListNotations.
Open Scope Z_scope.
Local Open Scope rd_scope.

(** include/dav1d/headers.h:41-47, 60-120. *)
Definition MAX_TILE_COLS : Z := 64.
Definition MAX_TILE_ROWS : Z := 64.
Definition PRIMARY_REF_NONE : Z := 7.
Definition FT_KEY : Z := 0.
Definition FT_INTER : Z := 1.
Definition FT_INTRA : Z := 2.
Definition FT_SWITCH : Z := 3.
Definition FILTER_SWITCHABLE : Z := 4.
Definition TX_4X4_ONLY : Z := 0.
Definition TX_LARGEST : Z := 1.
Definition TX_SWITCHABLE : Z := 2.
Definition WM_IDENTITY : Z := 0.
Definition WM_TRANSLATION : Z := 1.
Definition WM_ROT_ZOOM : Z := 2.
Definition WM_AFFINE : Z := 3.

(** src/internal.h macros IS_INTER_OR_SWITCH / IS_KEY_OR_INTRA: frame_type & 1. *)
Definition is_inter_or_switch (ft : Z) : bool := z2b (Z.land ft 1).
Definition is_key_or_intra (ft : Z) : bool := negb (is_inter_or_switch ft).

(** headers.h:324-460, grouped. *)
Record fsize : Type := mkFsize {
  width0 : Z; width1 : Z; fheight : Z; render_width : Z; render_height : Z;
  sr_enabled : Z; sr_denom : Z; have_render_size : Z }.
Record tiling : Type := mkTiling {
  t_uniform : Z; t_n_bytes : Z; t_min_log2_cols : Z; t_max_log2_cols : Z; t_log2_cols : Z; t_cols : Z;
  t_min_log2_rows : Z; t_max_log2_rows : Z; t_log2_rows : Z; t_rows : Z;
  t_col_start_sb : list Z; t_row_start_sb : list Z;   (* t_cols + 1, t_rows + 1 entries *)
  t_update : Z }.
Record quant : Type := mkQuant {
  yac : Z; ydc_delta : Z; udc_delta : Z; uac_delta : Z; vdc_delta : Z; vac_delta : Z;
  qm : Z; qm_y : Z; qm_u : Z; qm_v : Z }.
Record segdata : Type := mkSegdata {
  sd_delta_q : Z; sd_delta_lf_y_v : Z; sd_delta_lf_y_h : Z; sd_delta_lf_u : Z; sd_delta_lf_v : Z;
  sd_ref : Z; sd_skip : Z; sd_globalmv : Z }.
Record segset : Type := mkSegset { ss_d : list segdata; ss_preskip : Z; ss_last_active_segid : Z }.
Record segm : Type := mkSegm {
  sg_enabled : Z; sg_update_map : Z; sg_temporal : Z; sg_update_data : Z; sg_data : segset }.
Record deltas : Type := mkDeltas {
  dq_present : Z; dq_res_log2 : Z; dlf_present : Z; dlf_res_log2 : Z; dlf_multi : Z }.
Record loopfilter : Type := mkLoopfilter {
  lf_level_y0 : Z; lf_level_y1 : Z; lf_level_u : Z; lf_level_v : Z;
  lf_mode_ref_delta_enabled : Z; lf_mode_ref_delta_update : Z;
  lf_mode_delta : list Z; lf_ref_delta : list Z; lf_sharpness : Z }.
Record cdefp : Type := mkCdefp {
  cd_damping : Z; cd_n_bits : Z; cd_y_strength : list Z; cd_uv_strength : list Z }.
Record lrp : Type := mkLrp {
  lr_type0 : Z; lr_type1 : Z; lr_type2 : Z; lr_unit_size0 : Z; lr_unit_size1 : Z }.
Record gmv : Type := mkGmv { gm_type : Z; gm_mat : list Z }.
Record fgdata : Type := mkFgdata {
  fg_seed : Z; fg_y_points : list (Z * Z); fg_csfl : Z;
  fg_u_points : list (Z * Z); fg_v_points : list (Z * Z);
  fg_scaling_shift : Z; fg_ar_coeff_lag : Z; fg_ar_coeffs_y : list Z;
  fg_ar_coeffs_u : list Z; fg_ar_coeffs_v : list Z;
  fg_ar_coeff_shift : Z; fg_grain_scale_shift : Z;
  fg_u_mult : Z * Z * Z; fg_v_mult : Z * Z * Z;   (* uv_mult, uv_luma_mult, uv_offset *)
  fg_overlap_flag : Z; fg_clip_to_restricted_range : Z }.
Record fprefix : Type := mkFprefix {
  frame_type : Z; show_frame : Z; showable_frame : Z; frame_presentation_delay : Z;
  error_resilient_mode : Z; disable_cdf_update : Z;
  allow_screen_content_tools : Z; fforce_integer_mv : Z; frame_id : Z;
  frame_size_override : Z; frame_offset : Z; primary_ref_frame : Z;
  buffer_removal_time_present : Z; buffer_removal_time : list Z }.   (* 32 entries *)
Record frefs : Type := mkFrefs {
  refresh_frame_flags : Z; fsz : fsize; allow_intrabc : Z; frame_ref_short_signaling : Z;
  refidx : list Z;   (* 7 entries *)
  hp : Z; subpel_filter_mode : Z; switchable_motion_mode : Z; use_ref_frame_mvs : Z }.
Record frame_hdr : Type := mkFrameHdr {
  f_temporal_id : Z; f_spatial_id : Z;
  show_existing_frame : Z; existing_frame_idx : Z;
  f_pre : fprefix; f_refs : frefs; refresh_context : Z; f_tiling : tiling; f_quant : quant;
  f_seg : segm; f_delta : deltas; f_qidx : list Z; f_lossless : list Z; all_lossless : Z;
  f_lf : loopfilter; f_cdef : cdefp; f_lr : lrp; txfm_mode : Z; switchable_comp_refs : Z;
  skip_mode_allowed : Z; skip_mode_enabled : Z; skip_mode_refs : Z * Z;
  warp_motion : Z; reduced_txtp_set : Z; f_gmv : list gmv;
  fg_present : Z; fg_update : Z; f_fg : fgdata }.

(** All-zero sub-structures. *)
Definition fsize0 : fsize := mkFsize 0 0 0 0 0 0 0 0.
Definition tiling0 : tiling := mkTiling 0 0 0 0 0 0 0 0 0 0 [] [] 0.
Definition quant0 : quant := mkQuant 0 0 0 0 0 0 0 0 0 0.
Definition segdata0 : segdata := mkSegdata 0 0 0 0 0 0 0 0.
Definition segset0 : segset := mkSegset (repeat segdata0 8) 0 0.
Definition segm0 : segm := mkSegm 0 0 0 0 segset0.
Definition deltas0 : deltas := mkDeltas 0 0 0 0 0.
Definition loopfilter0 : loopfilter := mkLoopfilter 0 0 0 0 0 0 [0; 0] (repeat 0 8) 0.
Definition cdefp0 : cdefp := mkCdefp 0 0 (repeat 0 8) (repeat 0 8).
Definition lrp0 : lrp := mkLrp 0 0 0 0 0.
Definition gmv0 : gmv := mkGmv 0 (repeat 0 6).
Definition fgdata0 : fgdata :=
  mkFgdata 0 [] 0 [] [] 0 0 (repeat 0 24) (repeat 0 28) (repeat 0 28) 0 0 (0, 0, 0) (0, 0, 0) 0 0.
Definition fprefix0 : fprefix := mkFprefix 0 0 0 0 0 0 0 0 0 0 0 0 0 (repeat 0 32).
Definition frefs0 : frefs := mkFrefs 0 fsize0 0 0 (repeat 0 7) 0 0 0 0.

(** c->refs[i].p.p.frame_hdr, NULL when the slot is empty. *)
Definition refs_t : Type := list (option frame_hdr).
(** Dereference c->refs[i].p.p.frame_hdr, [goto error] when it is NULL.  An
    index outside 0..7 is undefined. *)
Definition get_ref (refs : refs_t) (i : Z) : rd frame_hdr :=
  do r <- lift (rd_at refs i);
  match r with Some h => Ret h | None => err end.

(** obu.c:356-366, 379-387 super_res part of read_frame_size: enabled,
    width_scale_denominator, width[0]. *)
Definition parse_superres (seq : seq_hdr) (w1 : Z) : rd (Z * Z * Z) :=
  do en <- (if z2b (super_res seq) then bit else Ret 0);
  if z2b en then
    do b <- bits 3;
    let d := 9 + b in
    Ret (en, d, Z.max ((w1 * 8 + Z.shiftr d 1) / d) (Z.min 16 w1))
  else Ret (en, 8, w1).

(** obu.c:347-371: loop over the references that may give the size. *)
Fixpoint size_from_ref (refs : refs_t) (ridx : list Z) : rd (option frame_hdr) :=
  match ridx with
  | [] => Ret None
  | i :: l =>
    do b <- bit;
    if z2b b then do h <- get_ref refs i; Ret (Some h)
    else size_from_ref refs l
  end.

(** obu.c:341-397 read_frame_size. *)
Definition read_frame_size (seq : seq_hdr) (refs : refs_t) (override : Z) (ridx : list Z)
    (use_ref : bool) : rd fsize :=
  do r <- (if use_ref then size_from_ref refs ridx else Ret None);
  match r with
  | Some h =>
    let z := fsz (f_refs h) in
    do (en, d, w0) <- parse_superres seq (width1 z);
    Ret (mkFsize w0 (width1 z) (fheight z) (render_width z) (render_height z) en d 0)
  | None =>
    do (w1, ht) <-
      (if z2b override then
         do w <- bits (width_n_bits seq);
         do h <- bits (height_n_bits seq);
         Ret (w + 1, h + 1)
       else Ret (max_width seq, max_height seq));
    do (en, d, w0) <- parse_superres seq w1;
    do hrs <- bit;
    do (rw, rh) <-
      (if z2b hrs then
         do a <- bits 16;
         do b <- bits 16;
         Ret (a + 1, b + 1)
       else Ret (w1, ht));
    Ret (mkFsize w0 w1 ht rw rh en d hrs)
  end.

(** obu.c:399-403 tile_log2. *)
Fixpoint tile_log2_loop (fuel : nat) (sz tgt k : Z) : outcome Z :=
  match fuel with
  | O => Undef
  | S fuel =>
    if fits_int (Z.shiftl sz k) then
      if Z.shiftl sz k <? tgt then tile_log2_loop fuel sz tgt (k + 1) else Ok k
    else Undef
  end.
Definition tile_log2 (sz tgt : Z) : outcome Z := tile_log2_loop 32 sz tgt 0.

(** src/env.h:237-244 get_poc_diff; [diff & m] on a negative int is the two's
    complement [Z.land]. *)
Definition get_poc_diff (order_hint_n_bits poc0 poc1 : Z) : Z :=
  if negb (z2b order_hint_n_bits) then 0 else
  let mask := Z.shiftl 1 (order_hint_n_bits - 1) in
  let diff := poc0 - poc1 in
  Z.land diff (mask - 1) - Z.land diff mask.

(** obu.c:522-600: frame_ref_short_signaling.  [hints] is
    shifted_frame_offset, [cur] current_frame_offset. *)
Definition idx8 : list nat := [0; 1; 2; 3; 4; 5; 6; 7]%nat.
Definition hint_at (hints : list Z) (i : nat) : Z := nth i hints 0.
Definition used_at (used : list bool) (i : nat) : bool := nth i used false.
(** The loops at 541-549, 553-561, 565-573, 578-590: scan the slots in order,
    remember the last one satisfying the test.  [better hint best] is the
    comparison with the best value so far; state is (refidx, best). *)
Definition scan (hints : list Z) (used : list bool) (ok : Z -> bool) (better : Z -> Z -> bool)
    (init : Z * Z) : Z * Z :=
  fold_left (fun (st : Z * Z) i =>
    let hint := hint_at hints i in
    if negb (used_at used i) && ok hint && better hint (snd st) then (Z.of_nat i, hint) else st)
    idx8 init.
Definition mark (used : list bool) (idx : Z) : list bool := upd_nat used (Z.to_nat idx) true.
(** 575-592: one iteration of the loop over references still unset. *)
Definition fill_forward (hints : list Z) (cur : Z) (st : list Z * list bool) (i : nat)
  : list Z * list bool :=
  let '(ridx, used) := st in
  if nth i ridx 0 <? 0 then
    let '(j, latest) := scan hints used (fun h => h <? cur) (fun h b => b <=? h) (nth i ridx 0, -1) in
    (upd_nat ridx i j, if latest =? -1 then used else mark used j)
  else st.
Definition set_frame_refs (hints : list Z) (cur last gold : Z) : list Z :=
  let used := mark (mark (repeat false 8) last) gold in
  let '(r6, l6) := scan hints used (fun h => cur <=? h) (fun h b => b <=? h) (-1, -1) in
  let used := if l6 =? -1 then used else mark used r6 in
  let '(r4, e4) := scan hints used (fun h => cur <=? h) (fun h b => h <? b) (-1, INT_MAX) in
  let used := if e4 =? INT_MAX then used else mark used r4 in
  let '(r5, e5) := scan hints used (fun h => cur <=? h) (fun h b => h <? b) (-1, INT_MAX) in
  let used := if e5 =? INT_MAX then used else mark used r5 in
  let '(ridx, used) :=
    fold_left (fill_forward hints cur) [1; 2; 3; 4; 5; 6]%nat
              ([last; -1; -1; gold; r4; r5; r6], used) in
  let '(ref, _) := scan hints (repeat false 8) (fun _ => true) (fun h b => h <? b) (-1, INT_MAX) in
  map (fun r => if r <? 0 then ref else r) ridx.

(** obu.c:529-535: the 8 shifted order hints; an empty slot is an error. *)
Fixpoint shifted_offsets (refs : refs_t) (n cur offset : Z) : rd (list Z) :=
  match refs with
  | [] => Ret []
  | Some h :: l => do t <- shifted_offsets l n cur offset;
                   Ret (cur + get_poc_diff n (frame_offset (f_pre h)) offset :: t)
  | None :: _ => err
  end.

(** obu.c:601-612: reference indices and frame id checks.  [short] holds the
    indices set by short signalling. *)
Fixpoint parse_refidx (seq : seq_hdr) (refs : refs_t) (fid : Z) (n : nat) (short : option (list Z))
  : rd (list Z) :=
  match n with
  | O => Ret []
  | S n =>
    do i <- (match short with
             | Some l => Ret (hd 0 l)
             | None => bits 3
             end);
    do _ <- (if z2b (frame_id_numbers_present seq) then
               do d <- bits (delta_frame_id_n_bits seq);
               let delta_ref_frame_id := d + 1 in
               let ref_frame_id :=
                 Z.land (u32 (u32 (fid + Z.shiftl 1 (frame_id_n_bits seq)) - delta_ref_frame_id))
                        (Z.shiftl 1 (frame_id_n_bits seq) - 1) in
               do h <- get_ref refs i;
               if negb (frame_id (f_pre h) =? ref_frame_id) then err else Ret tt
             else Ret tt);
    do l <- parse_refidx seq refs fid n (match short with Some l => Some (tl l) | None => None end);
    Ret (i :: l)
  end.

(** [n] reads of [w] bits whose values are dropped (obu.c:503-505, 517-519). *)
Fixpoint skip_bits (n : nat) (w : Z) : rd unit :=
  match n with O => Ret tt | S n => do _ <- bits w; skip_bits n w end.

(** obu.c:476-492 buffer_removal_time. *)
Fixpoint parse_brt (seq : seq_hdr) (tid sid : Z) (ops : list op_point) (n : nat) {struct n} : rd (list Z) :=
  match n with
  | O => Ret []
  | S n =>
    match ops with
    | [] => Stuck
    | op :: ops =>
      do v <- (if z2b (op_decoder_model_param_present op) then
                 let in_temporal := Z.land (Z.shiftr (op_idc op) tid) 1 in
                 let in_spatial := Z.land (Z.shiftr (op_idc op) (sid + 8)) 1 in
                 if negb (z2b (op_idc op)) || (z2b in_temporal && z2b in_spatial)
                 then bits (buffer_removal_delay_length (sh_timing seq))
                 else Ret 0
               else Ret 0);
      do l <- parse_brt seq tid sid ops n;
      Ret (v :: l)
    end
  end.

(** obu.c:435-494: everything up to the reference handling. *)
Definition parse_prefix (seq : seq_hdr) (tid sid : Z) : rd fprefix :=
  let rsph := reduced_still_picture_header seq in
  let t := sh_timing seq in
  do ft <- (if z2b rsph then Ret FT_KEY else bits 2);
  do shf <- (if z2b rsph then Ret 1 else bit);
  do (fpd, sbl) <-
    (if z2b shf then
       do fpd <- (if z2b (decoder_model_info_present t) && negb (z2b (equal_picture_interval t))
                  then bits (frame_presentation_delay_length t) else Ret 0);
       Ret (fpd, b2z (negb (ft =? FT_KEY)))
     else do s <- bit; Ret (0, s));
  do erm <- (if ((ft =? FT_KEY) && z2b shf) || (ft =? FT_SWITCH) || z2b rsph then Ret 1 else bit);
  do dcu <- bit;
  do asct <- (if screen_content_tools (sh_tools seq) =? DAV1D_ADAPTIVE then bit
              else Ret (screen_content_tools (sh_tools seq)));
  do fim <- (if z2b asct then
               if force_integer_mv (sh_tools seq) =? DAV1D_ADAPTIVE then bit
               else Ret (force_integer_mv (sh_tools seq))
             else Ret 0);
  let fim := if is_key_or_intra ft then 1 else fim in
  do fid <- (if z2b (frame_id_numbers_present seq) then bits (frame_id_n_bits seq) else Ret 0);
  do fso <- (if z2b rsph then Ret 0 else if ft =? FT_SWITCH then Ret 1 else bit);
  do fo <- (if z2b (order_hint (sh_tools seq)) then bits (order_hint_n_bits (sh_tools seq)) else Ret 0);
  do prf <- (if negb (z2b erm) && is_inter_or_switch ft then bits 3 else Ret PRIMARY_REF_NONE);
  do (brtp, brt) <-
    (if z2b (decoder_model_info_present t) then
       do p <- bit;
       if z2b p then
         do l <- parse_brt seq tid sid (operating_points seq) (Z.to_nat (num_operating_points seq));
         Ret (p, l)
       else Ret (p, [])
     else Ret (0, []));
  Ret (mkFprefix ft shf sbl fpd erm dcu asct fim fid fso fo prf brtp (pad 32 0 brt)).

(** obu.c:496-627: refresh flags, references, frame size and the elements that
    depend on the frame type. *)
Definition parse_refs (seq : seq_hdr) (refs : refs_t) (strict : bool) (p : fprefix) : rd frefs :=
  let tl := sh_tools seq in
  let ft := frame_type p in
  if is_key_or_intra ft then
    do rff <- (if (ft =? FT_KEY) && z2b (show_frame p) then Ret 255 else bits 8);
    do _ <- (if negb (rff =? 255) && z2b (error_resilient_mode p) && z2b (order_hint tl)
             then skip_bits 8 (order_hint_n_bits tl) else Ret tt);
    if strict && (ft =? FT_INTRA) && (rff =? 255) then err else
    do sz <- read_frame_size seq refs (frame_size_override p) [] false;
    do ibc <- (if z2b (allow_screen_content_tools p) && negb (z2b (sr_enabled sz)) then bit else Ret 0);
    Ret (mkFrefs rff sz ibc 0 (repeat 0 7) 0 0 0 0)
  else
    do rff <- (if ft =? FT_SWITCH then Ret 255 else bits 8);
    do _ <- (if z2b (error_resilient_mode p) && z2b (order_hint tl)
             then skip_bits 8 (order_hint_n_bits tl) else Ret tt);
    do frss <- (if z2b (order_hint tl) then bit else Ret 0);
    do short <-
      (if z2b frss then
         do last <- bits 3;
         do gold <- bits 3;
         let cur := Z.shiftl 1 (order_hint_n_bits tl - 1) in
         do hints <- shifted_offsets refs (order_hint_n_bits tl) cur (frame_offset p);
         Ret (Some (set_frame_refs hints cur last gold))
       else Ret None);
    do ridx <- parse_refidx seq refs (frame_id p) 7 short;
    let use_ref := negb (z2b (error_resilient_mode p)) && z2b (frame_size_override p) in
    do sz <- read_frame_size seq refs (frame_size_override p) ridx use_ref;
    do hp <- (if negb (z2b (fforce_integer_mv p)) then bit else Ret 0);
    do sw <- bit;
    do sfm <- (if z2b sw then Ret FILTER_SWITCHABLE else bits 2);
    do smm <- bit;
    do urfm <- (if negb (z2b (error_resilient_mode p)) && z2b (ref_frame_mvs tl) &&
                   z2b (order_hint tl) && is_inter_or_switch ft then bit else Ret 0);
    Ret (mkFrefs rff sz 0 frss ridx hp sfm smm urfm).

(** obu.c:653-655, 664-666: increment a log2 count while bits are 1. *)
Fixpoint incr_log2 (fuel : nat) (k max : Z) : rd Z :=
  match fuel with
  | O => Stuck
  | S fuel => if k <? max then
                do b <- bit;
                if z2b b then incr_log2 fuel (k + 1) max else Ret k
              else Ret k
  end.
(** obu.c:657-659, 668-670: uniform tile starts.  The arrays have 65 entries. *)
Fixpoint uniform_starts (fuel : nat) (i sb tile sbn : Z) : rd (list Z) :=
  match fuel with
  | O => Stuck
  | S fuel =>
    if sb <? sbn then
      do _ <- assert (i <? MAX_TILE_COLS + 1);
      do l <- uniform_starts fuel (i + 1) (sb + tile) tile sbn;
      Ret (sb :: l)
    else Ret []
  end.
(** obu.c:674-682, 688-696: explicit tile sizes; returns the starts and the
    widest tile. *)
Fixpoint explicit_starts (fuel : nat) (i sb sbn maxsz widest : Z) : rd (list Z * Z) :=
  match fuel with
  | O => Stuck
  | S fuel =>
    if (sb <? sbn) && (i <? MAX_TILE_COLS) then
      let tile_sb := Z.min (sbn - sb) maxsz in
      do w <- (if 1 <? tile_sb then do v <- get_uniform tile_sb; Ret (1 + v) else Ret 1);
      do _ <- assert (i <? MAX_TILE_COLS + 1);
      do (l, wd) <- explicit_starts fuel (i + 1) (sb + w) sbn maxsz (Z.max widest w);
      Ret (sb :: l, wd)
    else Ret ([], widest)
  end.

(** obu.c:637-711 tile information. *)
Definition parse_tiling (seq : seq_hdr) (w0 h : Z) : rd tiling :=
  do uniform <- bit;
  let sbsz_min1 := Z.shiftl 64 (sb128 seq) - 1 in
  let sbsz_log2 := 6 + sb128 seq in
  let sbw := Z.shiftr (w0 + sbsz_min1) sbsz_log2 in
  let sbh := Z.shiftr (h + sbsz_min1) sbsz_log2 in
  let max_tile_width_sb := Z.shiftr 4096 sbsz_log2 in
  let max_tile_area_sb := Z.shiftr (4096 * 2304) (2 * sbsz_log2) in
  do min_log2_cols <- lift (tile_log2 max_tile_width_sb sbw);
  do max_log2_cols <- lift (tile_log2 1 (Z.min sbw MAX_TILE_COLS));
  do max_log2_rows <- lift (tile_log2 1 (Z.min sbh MAX_TILE_ROWS));
  do area_log2 <- lift (tile_log2 max_tile_area_sb (sbw * sbh));
  let min_log2_tiles := Z.max area_log2 min_log2_cols in
  do (min_log2_rows, log2_cols, log2_rows, cs, rs) <-
    (if z2b uniform then
       do log2_cols <- incr_log2 16 min_log2_cols max_log2_cols;
       let tile_w := 1 + Z.shiftr (sbw - 1) log2_cols in
       do cs <- uniform_starts (Z.to_nat sbw + 1) 0 0 tile_w sbw;
       let min_log2_rows := Z.max (min_log2_tiles - log2_cols) 0 in
       do log2_rows <- incr_log2 16 min_log2_rows max_log2_rows;
       let tile_h := 1 + Z.shiftr (sbh - 1) log2_rows in
       do rs <- uniform_starts (Z.to_nat sbh + 1) 0 0 tile_h sbh;
       Ret (min_log2_rows, log2_cols, log2_rows, cs, rs)
     else
       do (cs, widest) <- explicit_starts (Z.to_nat sbw + 1) 0 0 sbw max_tile_width_sb 0;
       do log2_cols <- lift (tile_log2 1 (zlen cs));
       let area := if z2b min_log2_tiles then Z.shiftr (sbw * sbh) (min_log2_tiles + 1) else sbw * sbh in
       do _ <- assert (negb (widest =? 0));
       let max_tile_height_sb := Z.max (area / widest) 1 in
       do (rs, _) <- explicit_starts (Z.to_nat sbh + 1) 0 0 sbh max_tile_height_sb 0;
       do log2_rows <- lift (tile_log2 1 (zlen rs));
       Ret (0, log2_cols, log2_rows, cs, rs));
  do _ <- assert ((zlen cs <? MAX_TILE_COLS + 1) && (zlen rs <? MAX_TILE_ROWS + 1));
  do (upd, nb) <-
    (if z2b log2_cols || z2b log2_rows then
       do upd <- bits (log2_cols + log2_rows);
       if zlen cs * zlen rs <=? upd then err else
       do nb <- bits 2;
       Ret (upd, nb + 1)
     else Ret (0, 0));
  Ret (mkTiling uniform nb min_log2_cols max_log2_cols log2_cols (zlen cs)
         min_log2_rows max_log2_rows log2_rows (zlen rs) (cs ++ [sbw]) (rs ++ [sbh]) upd).

(** dav1d_get_bit(gb) ? dav1d_get_sbits(gb, n) : 0. *)
Definition opt_sbits (n : Z) : rd Z := do b <- bit; if z2b b then sbits n else Ret 0.

(** obu.c:717-752 quantizer parameters. *)
Definition parse_quant (seq : seq_hdr) : rd quant :=
  let c := sh_color seq in
  do yac <- bits 8;
  do ydc <- opt_sbits 7;
  do (udc, uac, vdc, vac) <-
    (if negb (z2b (monochrome c)) then
       do diff <- (if z2b (separate_uv_delta_q c) then bit else Ret 0);
       do udc <- opt_sbits 7;
       do uac <- opt_sbits 7;
       if z2b diff then
         do vdc <- opt_sbits 7;
         do vac <- opt_sbits 7;
         Ret (udc, uac, vdc, vac)
       else Ret (udc, uac, udc, uac)
     else Ret (0, 0, 0, 0));
  do q <- bit;
  do (qy, qu, qv) <-
    (if z2b q then
       do qy <- bits 4;
       do qu <- bits 4;
       do qv <- (if z2b (separate_uv_delta_q c) then bits 4 else Ret qu);
       Ret (qy, qu, qv)
     else Ret (0, 0, 0));
  Ret (mkQuant yac ydc udc uac vdc vac q qy qu qv).

(** obu.c:773-830 one segment; returns (data, some feature present, preskip set). *)
Definition parse_segment : rd (segdata * bool * bool) :=
  do a <- bit; do dq <- (if z2b a then sbits 9 else Ret 0);
  do b <- bit; do lyv <- (if z2b b then sbits 7 else Ret 0);
  do c <- bit; do lyh <- (if z2b c then sbits 7 else Ret 0);
  do d <- bit; do lu <- (if z2b d then sbits 7 else Ret 0);
  do e <- bit; do lv <- (if z2b e then sbits 7 else Ret 0);
  do g <- bit; do rf <- (if z2b g then bits 3 else Ret (-1));
  do sk <- bit;
  do gl <- bit;
  Ret (mkSegdata dq lyv lyh lu lv rf sk gl,
       z2b a || z2b b || z2b c || z2b d || z2b e || z2b g || z2b sk || z2b gl,
       z2b g || z2b sk || z2b gl).
(** obu.c:770-831 loop over segments [i..7]. *)
Fixpoint parse_segments (n : nat) (i preskip last : Z) : rd segset :=
  match n with
  | O => Ret (mkSegset [] preskip last)
  | S n =>
    do (d, any, pre) <- parse_segment;
    do r <- parse_segments n (i + 1) (if pre then 1 else preskip) (if any then i else last);
    Ret (mkSegset (d :: ss_d r) (ss_preskip r) (ss_last_active_segid r))
  end.
(** obu.c:754-849 segmentation. *)
Definition parse_seg (refs : refs_t) (p : fprefix) (ridx : list Z) : rd segm :=
  do en <- bit;
  if z2b en then
    do (um, tp, ud) <-
      (if primary_ref_frame p =? PRIMARY_REF_NONE then Ret (1, 0, 1)
       else
         do um <- bit;
         do tp <- (if z2b um then bit else Ret 0);
         do ud <- bit;
         Ret (um, tp, ud));
    do sd <-
      (if z2b ud then parse_segments 8 0 0 (-1)
       else
         do _ <- assert (negb (primary_ref_frame p =? PRIMARY_REF_NONE));
         do pri <- lift (rd_at ridx (primary_ref_frame p));
         do h <- get_ref refs pri;
         Ret (sg_data (f_seg h)));
    Ret (mkSegm en um tp ud sd)
  else
    Ret (mkSegm en 0 0 0 (mkSegset (repeat (mkSegdata 0 0 0 0 0 (-1) 0 0) 8) 0 0)).

(** obu.c:851-861 delta q / delta lf. *)
Definition parse_delta (yac ibc : Z) : rd deltas :=
  do qp <- (if z2b yac then bit else Ret 0);
  do qr <- (if z2b qp then bits 2 else Ret 0);
  do lp <- (if z2b qp && negb (z2b ibc) then bit else Ret 0);
  do lr <- (if z2b lp then bits 2 else Ret 0);
  do lm <- (if z2b lp then bit else Ret 0);
  Ret (mkDeltas qp qr lp lr lm).

(** obu.c:864-875 lossless flags: qidx[8], lossless[8], all_lossless. *)
Definition qidx_of (q : quant) (s : segm) : list Z :=
  map (fun d => if z2b (sg_enabled s) then iclip_u8 (yac q + sd_delta_q d) else yac q) (ss_d (sg_data s)).
Definition delta_lossless (q : quant) : bool :=
  negb (z2b (ydc_delta q)) && negb (z2b (udc_delta q)) && negb (z2b (uac_delta q)) &&
  negb (z2b (vdc_delta q)) && negb (z2b (vac_delta q)).
Definition lossless_of (q : quant) (s : segm) : list Z :=
  map (fun x => b2z (negb (z2b x) && delta_lossless q)) (qidx_of q s).
Definition all_lossless_of (l : list Z) : Z := fold_left Z.land l 1.

(** obu.c:405-408. *)
Definition default_mode_delta : list Z := [0; 0].
Definition default_ref_delta : list Z := [1; 0; 0; 0; -1; 0; -1; -1].
(** obu.c:905-912: optional update of each delta. *)
Fixpoint update_deltas (l : list Z) : rd (list Z) :=
  match l with
  | [] => Ret []
  | d :: l =>
    do b <- bit;
    do v <- (if z2b b then sbits 7 else Ret d);
    do l <- update_deltas l;
    Ret (v :: l)
  end.
(** obu.c:877-916 loop filter. *)
Definition parse_lf (seq : seq_hdr) (refs : refs_t) (p : fprefix) (ridx : list Z) (lossless ibc : Z)
  : rd loopfilter :=
  if z2b lossless || z2b ibc then
    Ret (mkLoopfilter 0 0 0 0 1 1 default_mode_delta default_ref_delta 0)
  else
    do y0 <- bits 6;
    do y1 <- bits 6;
    do (u, v) <-
      (if negb (z2b (monochrome (sh_color seq))) && (z2b y0 || z2b y1) then
         do u <- bits 6;
         do v <- bits 6;
         Ret (u, v)
       else Ret (0, 0));
    do sharp <- bits 3;
    do (md, rfd) <-
      (if primary_ref_frame p =? PRIMARY_REF_NONE then Ret (default_mode_delta, default_ref_delta)
       else
         do pri <- lift (rd_at ridx (primary_ref_frame p));
         do h <- get_ref refs pri;
         Ret (lf_mode_delta (f_lf h), lf_ref_delta (f_lf h)));
    do en <- bit;
    do (upd, md, rfd) <-
      (if z2b en then
         do upd <- bit;
         if z2b upd then
           do rfd <- update_deltas rfd;
           do md <- update_deltas md;
           Ret (upd, md, rfd)
         else Ret (upd, md, rfd)
       else Ret (0, md, rfd));
    Ret (mkLoopfilter y0 y1 u v en upd md rfd sharp).

(** obu.c:926-931 CDEF strengths. *)
Fixpoint parse_strengths (n : nat) (mono : Z) : rd (list Z * list Z) :=
  match n with
  | O => Ret ([], [])
  | S n =>
    do y <- bits 6;
    do uv <- (if negb (z2b mono) then bits 6 else Ret 0);
    do (ly, luv) <- parse_strengths n mono;
    Ret (y :: ly, uv :: luv)
  end.
(** obu.c:922-937 CDEF. *)
Definition parse_cdef (seq : seq_hdr) (lossless ibc : Z) : rd cdefp :=
  if negb (z2b lossless) && z2b (cdef seq) && negb (z2b ibc) then
    do d <- bits 2;
    do n <- bits 2;
    do (ly, luv) <- parse_strengths (Z.to_nat (Z.shiftl 1 n)) (monochrome (sh_color seq));
    Ret (mkCdefp (d + 3) n (pad 8 0 ly) (pad 8 0 luv))
  else Ret (mkCdefp 0 0 (repeat 0 8) (repeat 0 8)).

(** obu.c:943-982 loop restoration. *)
Definition parse_lr (seq : seq_hdr) (lossless sren ibc : Z) : rd lrp :=
  let c := sh_color seq in
  if (negb (z2b lossless) || z2b sren) && z2b (restoration seq) && negb (z2b ibc) then
    do t0 <- bits 2;
    do (t1, t2) <-
      (if negb (z2b (monochrome c)) then
         do t1 <- bits 2;
         do t2 <- bits 2;
         Ret (t1, t2)
       else Ret (0, 0));
    if z2b t0 || z2b t1 || z2b t2 then
      let u0 := 6 + sb128 seq in
      do b <- bit;
      do u0 <- (if z2b b then
                  if negb (z2b (sb128 seq)) then do b2 <- bit; Ret (u0 + 1 + b2) else Ret (u0 + 1)
                else Ret u0);
      do u1 <- (if (z2b t1 || z2b t2) && (ss_hor c =? 1) && (ss_ver c =? 1)
                then do b <- bit; Ret (u0 - b) else Ret u0);
      Ret (mkLrp t0 t1 t2 u0 u1)
    else Ret (mkLrp t0 t1 t2 8 0)
  else Ret lrp0.

(** obu.c:1000-1025: reference frames just before and just after the current
    one.  State: (off_before, off_before_idx, off_after, off_after_idx), -1
    standing for both "no such frame" values. *)
Fixpoint scan_poc (refs : refs_t) (n poc : Z) (ridx : list Z) (i : Z) (st : Z * Z * Z * Z)
  : rd (Z * Z * Z * Z) :=
  match ridx with
  | [] => Ret st
  | r :: l =>
    do h <- get_ref refs r;
    let refpoc := frame_offset (f_pre h) in
    let '(ob, obi, oa, oai) := st in
    let diff := get_poc_diff n refpoc poc in
    let st :=
      if 0 <? diff then
        if (oa =? -1) || (0 <? get_poc_diff n oa refpoc) then (ob, obi, refpoc, i) else st
      else if (diff <? 0) && ((ob =? -1) || (0 <? get_poc_diff n refpoc ob))
      then (refpoc, i, oa, oai) else st in
    scan_poc refs n poc l (i + 1) st
  end.
(** obu.c:1032-1047: the second reference before. *)
Fixpoint scan_poc2 (refs : refs_t) (n ob : Z) (ridx : list Z) (i : Z) (st : Z * Z) : rd (Z * Z) :=
  match ridx with
  | [] => Ret st
  | r :: l =>
    do h <- get_ref refs r;
    let refpoc := frame_offset (f_pre h) in
    let st :=
      if get_poc_diff n refpoc ob <? 0 then
        if (fst st =? -1) || (0 <? get_poc_diff n refpoc (fst st)) then (refpoc, i) else st
      else st in
    scan_poc2 refs n ob l (i + 1) st
  end.
(** obu.c:996-1056: skip_mode_allowed and the two references. *)
Definition skip_mode (seq : seq_hdr) (refs : refs_t) (p : fprefix) (ridx : list Z) (scr : Z)
  : rd (option (Z * Z)) :=
  let n := order_hint_n_bits (sh_tools seq) in
  if z2b scr && is_inter_or_switch (frame_type p) && z2b (order_hint (sh_tools seq)) then
    do (ob, obi, oa, oai) <- scan_poc refs n (frame_offset p) ridx 0 (-1, 0, -1, 0);
    if negb (ob =? -1) && negb (oa =? -1) then
      Ret (Some (Z.min obi oai, Z.max obi oai))
    else if negb (ob =? -1) then
      do (ob2, ob2i) <- scan_poc2 refs n ob ridx 0 (-1, 0);
      if negb (ob2 =? -1) then Ret (Some (Z.min obi ob2i, Z.max obi ob2i)) else Ret None
    else Ret None
  else Ret None.

(** src/tables.c:388-398. *)
Definition default_wm : gmv := mkGmv WM_IDENTITY [0; 0; 65536; 0; 0; 65536].
Definition mat_at (m : gmv) (i : nat) : Z := nth i (gm_mat m) 0.
(** obu.c:1076-1124: one reference's global motion.  [>>] on negative ints is
    arithmetic; products stay far below 2^31. *)
Definition parse_gmv1 (refs : refs_t) (p : fprefix) (r : frefs) (i : nat) : rd gmv :=
  do b0 <- bit;
  do type <- (if negb (z2b b0) then Ret WM_IDENTITY
              else do b1 <- bit;
                   if z2b b1 then Ret WM_ROT_ZOOM
                   else do b2 <- bit; Ret (if z2b b2 then WM_TRANSLATION else WM_AFFINE));
  if type =? WM_IDENTITY then Ret default_wm else
  do rm <- (if primary_ref_frame p =? PRIMARY_REF_NONE then Ret default_wm
            else
              do pri <- lift (rd_at (refidx r) (primary_ref_frame p));
              do h <- get_ref refs pri;
              lift (rd_at (f_gmv h) (Z.of_nat i)));
  do (m2, m3, bits_, shift) <-
    (if WM_ROT_ZOOM <=? type then
       do a <- get_bits_subexp (Z.shiftr (mat_at rm 2 - 65536) 1) 12;
       do b <- get_bits_subexp (Z.shiftr (mat_at rm 3) 1) 12;
       Ret (65536 + 2 * a, 2 * b, 12, 10)
     else Ret (65536, 0, 9 - b2z (negb (z2b (hp r))), 13 + b2z (negb (z2b (hp r)))));
  do (m4, m5) <-
    (if type =? WM_AFFINE then
       do a <- get_bits_subexp (Z.shiftr (mat_at rm 4) 1) 12;
       do b <- get_bits_subexp (Z.shiftr (mat_at rm 5 - 65536) 1) 12;
       Ret (2 * a, 65536 + 2 * b)
     else Ret (- m3, m2));
  do a <- get_bits_subexp (Z.shiftr (mat_at rm 0) shift) bits_;
  do b <- get_bits_subexp (Z.shiftr (mat_at rm 1) shift) bits_;
  Ret (mkGmv type [a * Z.shiftl 1 shift; b * Z.shiftl 1 shift; m2; m3; m4; m5]).
Fixpoint parse_gmvs (refs : refs_t) (p : fprefix) (r : frefs) (n i : nat) : rd (list gmv) :=
  match n with
  | O => Ret []
  | S n => do g <- parse_gmv1 refs p r i;
           do l <- parse_gmvs refs p r n (S i);
           Ret (g :: l)
  end.

(** obu.c:1149-1154, 1163-1168: scaling points with increasing values; [max] is
    the size of the array. *)
Fixpoint parse_points (n : nat) (i prev max : Z) : rd (list (Z * Z)) :=
  match n with
  | O => Ret []
  | S n =>
    do _ <- assert (i <? max);
    do v <- bits 8;
    if z2b i && (v <=? prev) then err else
    do s <- bits 8;
    do l <- parse_points n (i + 1) v max;
    Ret ((v, s) :: l)
  end.
(** obu.c:1181-1183, 1187-1188: [n] coefficients, into an array of [max]. *)
Fixpoint parse_coeffs (n : nat) (i max : Z) : rd (list Z) :=
  match n with
  | O => Ret []
  | S n => do _ <- assert (i <? max);
           do v <- bits 8;
           do l <- parse_coeffs n (i + 1) max;
           Ret (v - 128 :: l)
  end.
Definition parse_mult (n : Z) : rd (Z * Z * Z) :=
  if z2b n then
    do a <- bits 8;
    do b <- bits 8;
    do c <- bits 9;
    Ret (a - 128, b - 128, c - 256)
  else Ret (0, 0, 0).
(** obu.c:1142-1203: explicit film grain parameters. *)
Definition parse_fgdata (seq : seq_hdr) (seed : Z) : rd fgdata :=
  let c := sh_color seq in
  do ny <- bits 4;
  if 14 <? ny then err else
  do yp <- parse_points (Z.to_nat ny) 0 0 14;
  do csfl <- (if negb (z2b (monochrome c)) then bit else Ret 0);
  do (nu, up, nv, vp) <-
    (if z2b (monochrome c) || z2b csfl || ((ss_ver c =? 1) && (ss_hor c =? 1) && negb (z2b ny))
     then Ret (0, [], 0, [])
     else
       do nu <- bits 4;
       if 10 <? nu then err else
       do up <- parse_points (Z.to_nat nu) 0 0 10;
       do nv <- bits 4;
       if 10 <? nv then err else
       do vp <- parse_points (Z.to_nat nv) 0 0 10;
       Ret (nu, up, nv, vp));
  if (ss_hor c =? 1) && (ss_ver c =? 1) && negb (eqb (z2b nu) (z2b nv)) then err else
  do ss <- bits 2;
  do lag <- bits 2;
  let num_y_pos := 2 * lag * (lag + 1) in
  do cy <- (if z2b ny then parse_coeffs (Z.to_nat num_y_pos) 0 24 else Ret []);
  let num_uv_pos := num_y_pos + b2z (z2b ny) in
  do cu <- (if z2b nu || z2b csfl then
              do l <- parse_coeffs (Z.to_nat num_uv_pos) 0 28;
              if negb (z2b ny) then do _ <- assert (num_uv_pos <? 28); Ret (l ++ [0]) else Ret l
            else Ret []);
  do cv <- (if z2b nv || z2b csfl then
              do l <- parse_coeffs (Z.to_nat num_uv_pos) 0 28;
              if negb (z2b ny) then do _ <- assert (num_uv_pos <? 28); Ret (l ++ [0]) else Ret l
            else Ret []);
  do acs <- bits 2;
  do gss <- bits 2;
  do um <- parse_mult nu;
  do vm <- parse_mult nv;
  do ov <- bit;
  do cl <- bit;
  Ret (mkFgdata seed yp csfl up vp (ss + 8) lag (pad 24 0 cy) (pad 28 0 cu) (pad 28 0 cv)
         (acs + 6) gss um vm ov cl).
Definition with_seed (d : fgdata) (seed : Z) : fgdata :=
  mkFgdata seed (fg_y_points d) (fg_csfl d) (fg_u_points d) (fg_v_points d) (fg_scaling_shift d)
    (fg_ar_coeff_lag d) (fg_ar_coeffs_y d) (fg_ar_coeffs_u d) (fg_ar_coeffs_v d) (fg_ar_coeff_shift d)
    (fg_grain_scale_shift d) (fg_u_mult d) (fg_v_mult d) (fg_overlap_flag d) (fg_clip_to_restricted_range d).
(** obu.c:1125-1186: present, update, data. *)
Definition parse_fg (seq : seq_hdr) (refs : refs_t) (p : fprefix) (ridx : list Z) : rd (Z * Z * fgdata) :=
  do pres <- (if z2b (film_grain_present seq) && (z2b (show_frame p) || z2b (showable_frame p))
              then bit else Ret 0);
  if z2b pres then
    do seed <- bits 16;
    do upd <- (if negb (frame_type p =? FT_INTER) then Ret 1 else bit);
    if negb (z2b upd) then
      do ri <- bits 3;
      if existsb (fun i => i =? ri) ridx then
        do h <- get_ref refs ri;
        Ret (pres, upd, with_seed (f_fg h) seed)
      else err
    else
      do d <- parse_fgdata seq seed;
      Ret (pres, upd, d)
  else Ret (pres, 0, fgdata0).

(** obu.c:410-1196 parse_frame_hdr. *)
Definition show_existing_hdr (tid sid idx fpd fid : Z) : frame_hdr :=
  mkFrameHdr tid sid 1 idx
    (mkFprefix 0 0 0 fpd 0 0 0 0 fid 0 0 0 0 (repeat 0 32)) frefs0 0 tiling0 quant0 segm0
    deltas0 (repeat 0 8) (repeat 0 8) 0 loopfilter0 cdefp0 lrp0 0 0 0 0 (0, 0) 0 0 (repeat gmv0 7) 0 0 fgdata0.
Definition parse_frame_hdr (seq : seq_hdr) (refs : refs_t) (strict : bool) (tid sid : Z) : rd frame_hdr :=
  let rsph := reduced_still_picture_header seq in
  let t := sh_timing seq in
  do sef <- (if negb (z2b rsph) then bit else Ret 0);
  if z2b sef then
    do idx <- bits 3;
    do fpd <- (if z2b (decoder_model_info_present t) && negb (z2b (equal_picture_interval t))
               then bits (frame_presentation_delay_length t) else Ret 0);
    do fid <- (if z2b (frame_id_numbers_present seq) then
                 do fid <- bits (frame_id_n_bits seq);
                 do h <- get_ref refs idx;
                 if negb (frame_id (f_pre h) =? fid) then err else Ret fid
               else Ret 0);
    Ret (show_existing_hdr tid sid idx fpd fid)
  else
    do p <- parse_prefix seq tid sid;
    do r <- parse_refs seq refs strict p;
    do rc <- (if negb (z2b rsph) && negb (z2b (disable_cdf_update p)) then
                do b <- bit; Ret (b2z (negb (z2b b)))
              else Ret 0);
    do tl <- parse_tiling seq (width0 (fsz r)) (fheight (fsz r));
    do q <- parse_quant seq;
    do sg <- parse_seg refs p (refidx r);
    do dl <- parse_delta (yac q) (allow_intrabc r);
    let lossless := lossless_of q sg in
    let al := all_lossless_of lossless in
    do lf <- parse_lf seq refs p (refidx r) al (allow_intrabc r);
    do cd <- parse_cdef seq al (allow_intrabc r);
    do lr <- parse_lr seq al (sr_enabled (fsz r)) (allow_intrabc r);
    do tx <- (if z2b al then Ret TX_4X4_ONLY
              else do b <- bit; Ret (if z2b b then TX_SWITCHABLE else TX_LARGEST));
    do scr <- (if is_inter_or_switch (frame_type p) then bit else Ret 0);
    do sm <- skip_mode seq refs p (refidx r) scr;
    do sme <- (match sm with Some _ => bit | None => Ret 0 end);
    do wm <- (if negb (z2b (error_resilient_mode p)) && is_inter_or_switch (frame_type p) &&
                 z2b (warped_motion (sh_tools seq)) then bit else Ret 0);
    do rts <- bit;
    do gm <- (if is_inter_or_switch (frame_type p) then parse_gmvs refs p r 7 0
              else Ret (repeat default_wm 7));
    do (fp, fu, fd) <- parse_fg seq refs p (refidx r);
    Ret (mkFrameHdr tid sid 0 0 p r rc tl q sg dl (qidx_of q sg) lossless al lf cd lr tx scr
           (match sm with Some _ => 1 | None => 0 end) sme (match sm with Some x => x | None => (0, 0) end)
           wm rts gm fp fu fd).

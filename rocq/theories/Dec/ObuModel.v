(** Model of dav1d_parse_obus and parse_tile_hdr, /repo/src/obu.c:1198-1738.

    A return value r >= 0 is the number of bytes consumed, r < 0 an error code.
    The debug printing and logging are left out; the checks of
    [n_tile_data + 1] and [n_itut_t35 + 1] against INT_MAX / sizeof are left out
    (they need more than 10^7 tile groups or messages). *)
From Coq Require Import ZArith List Bool.
From Verif Require Import Base.CInt GetBits.Model Obu.SeqModel Obu.FrameModel Dec.State Dec.Submit.
Import ListNotations.
Open Scope Z_scope.
Local Open Scope outcome_scope.

(** include/dav1d/headers.h:49-58, obu.c:39-46. *)
Definition OBU_SEQ_HDR : Z := 1.
Definition OBU_TD : Z := 2.
Definition OBU_FRAME_HDR : Z := 3.
Definition OBU_TILE_GRP : Z := 4.
Definition OBU_METADATA : Z := 5.
Definition OBU_FRAME : Z := 6.
Definition OBU_REDUNDANT_FRAME_HDR : Z := 7.
Definition OBU_PADDING : Z := 15.
Definition META_HDR_CLL : Z := 1.
Definition META_HDR_MDCV : Z := 2.
Definition META_ITUT_T35 : Z := 4.

(** obu.c:1220-1233: (type, has_extension, has_length_field, temporal_id, spatial_id). *)
Definition obu_fields (strict : bool) : rd (Z * Z * Z * Z * Z) :=
  (do forbidden <- bit;
   if strict && z2b forbidden then err else
   do type <- bits 4;
   do ext <- bit;
   do has_length <- bit;
   do _ <- bit;
   if z2b ext then
     do tid <- bits 3;
     do sid <- bits 2;
     do _ <- bits 3;
     Ret (type, ext, has_length, tid, sid)
   else Ret (type, ext, has_length, 0, 0))%rd.

(** gb.ptr_end = gb.ptr_start + e.  The memory the reader may touch is cut at the
    same place, so an access past the OBU counts as undefined even though it would
    still be inside the packet. *)
Definition gb_limit (c : gb) (e : Z) : gb :=
  {| gb_buf := firstn (Z.to_nat e) (gb_buf c); gb_ptr := gb_ptr c; gb_end := e;
     gb_state := gb_state c; gb_left := gb_left c; gb_err := gb_err c |}.

(** obu.c:1251-1259. *)
Definition layer_dropped (idc type ext tid sid : Z) : bool :=
  negb (type =? OBU_SEQ_HDR) && negb (type =? OBU_TD) && z2b ext && negb (idc =? 0) &&
  (negb (z2b (Z.land (Z.shiftr idc tid) 1)) || negb (z2b (Z.land (Z.shiftr idc (sid + 8)) 1))).

(** obu.c:1198-1211 parse_tile_hdr: (start, end). *)
Definition parse_tile_hdr (h : frame_hdr) : rd (Z * Z) :=
  let t := f_tiling h in
  let n_tiles := t_cols t * t_rows t in
  (do have <- (if 1 <? n_tiles then bit else Ret 0);
   if z2b have then
     do st <- bits (t_log2_cols t + t_log2_rows t);
     do en <- bits (t_log2_cols t + t_log2_rows t);
     Ret (st, en)
   else Ret (0, n_tiles - 1))%rd.

Fixpoint read_list (n : nat) (w : Z) : rd (list Z) :=
  match n with
  | O => Ret []
  | S n => (do v <- bits w; do l <- read_list n w; Ret (v :: l))%rd
  end.
(** obu.c:1411-1433. *)
Definition parse_cll (strict : bool) : rd (Z * Z) :=
  (do a <- bits 16; do b <- bits 16; do _ <- check_trailing_bits strict; Ret (a, b))%rd.
(** obu.c:1441-1488: primaries[3][2], white_point[2], max_luminance, min_luminance. *)
Definition parse_mdcv (strict : bool) : rd (list Z) :=
  (do l <- read_list 8 16; do mx <- bits 32; do mn <- bits 32;
   do _ <- check_trailing_bits strict; Ret (l ++ [mx; mn]))%rd.

Definition slice (l : list Z) (a b : Z) : list Z := firstn (Z.to_nat (b - a)) (skipn (Z.to_nat a) l).

(** obu.c:1496-1551: None is a malformed message (ignored). *)
Definition parse_itut (c : gb) : outcome (option itut) :=
  let! size := trailing_size (length (gb_buf c)) (gb_buf c) (gb_ptr c) (gb_end c - gb_ptr c) in
  let size := size - 1 in
  let! (cc, c) := get_bits c 8 in
  let size := size - 1 in
  let! (x, c) := (if cc =? 255 then get_bits c 8 else Ok (0, c)) in
  let size := if cc =? 255 then size - 1 else size in
  if size <=? 0 then Ok None else
  let! b := rd_at (gb_buf c) (gb_ptr c + size) in
  if negb (b =? 128) then Ok None else
  guard! gb_left c =? 0 in
  guard! gb_ptr c + size <=? gb_end c in
  Ok (Some (mkItut cc x (slice (gb_buf c) (gb_ptr c) (gb_ptr c + size)))).

(** Equality of sequence headers up to operating_parameter_info (obu.c:1291). *)
Definition op_point_dec (a b : op_point) : {a = b} + {a <> b}.
Proof. decide equality; apply Z.eq_dec. Defined.
Definition op_info_dec (a b : op_info) : {a = b} + {a <> b}.
Proof. decide equality; apply Z.eq_dec. Defined.
Definition timing_dec (a b : timing) : {a = b} + {a <> b}.
Proof. decide equality; apply Z.eq_dec. Defined.
Definition tools_dec (a b : tools) : {a = b} + {a <> b}.
Proof. decide equality; apply Z.eq_dec. Defined.
Definition color_dec (a b : color) : {a = b} + {a <> b}.
Proof. decide equality; apply Z.eq_dec. Defined.
Definition seq_hdr_dec (a b : seq_hdr) : {a = b} + {a <> b}.
Proof.
  decide equality; first [apply Z.eq_dec | apply color_dec | apply tools_dec | apply timing_dec
    | apply (list_eq_dec op_info_dec) | apply (list_eq_dec op_point_dec)].
Defined.
Definition without_op_info (q : seq_hdr) : seq_hdr :=
  mkSeqHdr (profile q) (still_picture q) (reduced_still_picture_header q) (sh_timing q)
    (display_model_info_present q) (num_operating_points q) (operating_points q) []
    (width_n_bits q) (height_n_bits q) (max_width q) (max_height q)
    (frame_id_numbers_present q) (delta_frame_id_n_bits q) (frame_id_n_bits q)
    (sb128 q) (filter_intra q) (intra_edge_filter q) (sh_tools q) (super_res q) (cdef q)
    (restoration q) (sh_color q) (film_grain_present q).
Definition same_sequence (a b : seq_hdr) : bool :=
  if seq_hdr_dec (without_op_info a) (without_op_info b) then true else false.
Definition same_op_info (a b : seq_hdr) : bool :=
  if list_eq_dec op_info_dec (operating_parameter_info a) (operating_parameter_info b)
  then true else false.

(** obu.c:1274-1316 after a successful parse_seq_hdr. *)
Definition new_seq_hdr (s : settings) (q : seq_hdr) (d : dec) : dec :=
  let op_idx := if s_operating_point s <? num_operating_points q then s_operating_point s else 0 in
  let idc := op_idc (nth (Z.to_nat op_idx) (operating_points q) op_point0) in
  let mask := Z.shiftr idc 8 in
  let d := w_max_sid (if z2b mask then ulog2 mask else 0) (w_idc idc d) in
  let flag x d := w_frame_flags (Z.lor (d_frame_flags d) x) d in
  let d :=
    match d_seq d with
    | None => flag PF_NEW_SEQUENCE (w_fhdr None d)
    | Some old =>
      if negb (same_sequence q old) then
        flag PF_NEW_SEQUENCE
          (w_refs (repeat slot0 8) (w_cll None (w_mdcv None (w_fhdr None d))))
      else if negb (same_op_info q old) then flag PF_NEW_OP_PARAMS_INFO d
      else d
    end in
  w_seq (Some q) d.

(** How the switch over the OBU type ends: fall out of it, [goto error], or return. *)
Inductive sw : Type := SwGo (d : dec) | SwErr (d : dec) | SwRet (r : Z) (d : dec).

(** obu.c:1358-1397 case DAV1D_OBU_TILE_GRP. *)
Definition tile_group (m : props) (c : gb) (d : dec) : outcome sw :=
  match d_fhdr d with
  | None => Ok (SwErr d)
  | Some h =>
    let! (r, c) := exec (parse_tile_hdr h) c in
    match r with
    | inr _ => Undef
    | inl (st, en) =>
      let! c := gb_align c in
      if gb_err c then Ok (SwErr d) else
      if (en <? st) || negb (st =? d_n_tiles d) then Ok (SwErr (w_n_tiles 0 (w_tiles [] d))) else
      let t := mkTgrp st en (slice (gb_buf c) (gb_ptr c) (gb_end c)) m in
      Ok (SwGo (w_n_tiles (d_n_tiles d + (1 + en - st)) (w_tiles (d_tiles d ++ [t]) d)))
    end
  end.

Definition slot_hdr (x : slot) : option frame_hdr := option_map tp_hdr (r_pic x).
Definition slot_hdrs (d : dec) : refs_t := map slot_hdr (d_refs d).

(** obu.c:1321-1357. *)
Definition frame_header (s : settings) (type tid sid : Z) (m : props) (c : gb) (d : dec) : outcome sw :=
  match d_seq d with
  | None => Ok (SwErr d)
  | Some q =>
    let! (r, c) := exec (parse_frame_hdr q (slot_hdrs d) (s_strict s) tid sid) c in
    match r with
    | inr _ => Ok (SwErr (w_fhdr None d))
    | inl h =>
      let d := w_n_tiles 0 (w_tiles [] (w_fhdr (Some h) d)) in
      let! (ok, c) :=
        (if type =? OBU_FRAME then Ok (true, c)
         else let! (r, c) := exec (check_trailing_bits (s_strict s)) c in
              Ok (match r with inl _ => true | inr _ => false end, c)) in
      if negb ok then Ok (SwErr (w_fhdr None d)) else
      if negb (s_frame_size_limit s =? 0) &&
         (s_frame_size_limit s <? width1 (fsz (f_refs h)) * fheight (fsz (f_refs h)))
      then Ok (SwRet ERANGE_ (w_fhdr None d)) else
      if negb (type =? OBU_FRAME) then Ok (SwGo d) else
      if z2b (show_existing_frame h) then Ok (SwErr (w_fhdr None d)) else
      let! c := gb_align c in
      tile_group m c d
    end
  end.

(** obu.c:1399-1572 case DAV1D_OBU_METADATA. *)
Definition metadata (s : settings) (c : gb) (d : dec) : outcome sw :=
  let! (r, c) := exec get_uleb128 c in
  match r with
  | inr _ => Undef
  | inl t =>
    if gb_err c then Ok (SwErr d) else
    if t =? META_HDR_CLL then
      let! (r, c) := exec (parse_cll (s_strict s)) c in
      Ok (match r with inl x => SwGo (w_cll (Some x) d) | inr _ => SwErr d end)
    else if t =? META_HDR_MDCV then
      let! (r, c) := exec (parse_mdcv (s_strict s)) c in
      Ok (match r with inl x => SwGo (w_mdcv (Some x) d) | inr _ => SwErr d end)
    else if t =? META_ITUT_T35 then
      let! x := parse_itut c in
      Ok (SwGo (match x with Some x => w_itut (d_itut d ++ [x]) d | None => d end))
    else Ok (SwGo d)
  end.

(** obu.c:1261-1583 the switch. *)
Definition obu_switch (s : settings) (type tid sid : Z) (m : props) (c : gb) (d : dec) : outcome sw :=
  if type =? OBU_SEQ_HDR then
    let! (r, c) := exec (parse_seq_hdr (s_strict s)) c in
    Ok (match r with inl q => SwGo (new_seq_hdr s q d) | inr _ => SwErr d end)
  else if (type =? OBU_REDUNDANT_FRAME_HDR) && negb (is_none (d_fhdr d)) then Ok (SwGo d)
  else if (type =? OBU_REDUNDANT_FRAME_HDR) || (type =? OBU_FRAME) || (type =? OBU_FRAME_HDR) then
    frame_header s type tid sid m c d
  else if type =? OBU_TILE_GRP then tile_group m c d
  else if type =? OBU_METADATA then metadata s c d
  else if type =? OBU_TD then
    Ok (SwGo (w_frame_flags (Z.lor (d_frame_flags d) PF_NEW_TEMPORAL_UNIT) d))
  else Ok (SwGo d).

(** obu.c:1709-1729 label skip. *)
Definition hdr_only (q : seq_hdr) (h : frame_hdr) : tpic :=
  mkTpic h q None props0 None None [] 0 0 0 false.
Definition skip_frame (q : seq_hdr) (h : frame_hdr) (d : dec) : dec :=
  w_n_tiles 0 (w_fhdr None
    (w_refs (refresh_slots 0 (refresh_frame_flags (f_refs h))
       (fun x => mkSlot (Some (hdr_only q h)) (r_cdf x) (r_segmap x) (r_refmvs x)) (d_refs d)) d)).

(** dav1d_picture_copy_props (picture.c:164-188) with the context's metadata. *)
Definition copy_props (m : props) (d : dec) (p : tpic) : tpic :=
  mkTpic (tp_hdr p) (tp_seq p) (tp_buf p) m (d_cll d) (d_mdcv d) (d_itut d)
    (tp_visible p) (tp_showable p) (tp_flags p) (tp_bad p).
Definition set_visible (p : tpic) : tpic :=
  mkTpic (tp_hdr p) (tp_seq p) (tp_buf p) (tp_props p) (tp_cll p) (tp_mdcv p) (tp_itut p)
    1 (tp_showable p) (tp_flags p) (tp_bad p).
Definition unshowable (p : tpic) : tpic :=
  mkTpic (tp_hdr p) (tp_seq p) (tp_buf p) (tp_props p) (tp_cll p) (tp_mdcv p) (tp_itut p)
    (tp_visible p) 0 (tp_flags p) (tp_bad p).

(** obu.c:1683-1703: a key frame shown again refreshes all slots. *)
Definition key_refresh (r : Z) (p : tpic) (d : dec) : dec :=
  let sl := slot_at d r in
  let q := Some (unshowable p) in
  w_refs (upd_nth (map (fun _ => mkSlot q (r_cdf sl) (r_segmap sl) None) (d_refs d)) (Z.to_nat r)
            (mkSlot q (r_cdf sl) (r_segmap sl) (r_refmvs sl))) d.

(** obu.c:1590-1602 and 1610-1627: frames dropped by decode_frame_type. *)
Definition dft_drops_shown (s : settings) (ft : Z) : bool :=
  ((ft =? FT_INTER) || (ft =? FT_SWITCH)) && (DFT_REFERENCE <? s_decode_frame_type s) ||
  (ft =? FT_INTRA) && (DFT_INTRA <? s_decode_frame_type s).
Definition dft_drops (s : settings) (h : frame_hdr) : bool :=
  let ft := frame_type (f_pre h) in
  let unref := (s_decode_frame_type s =? DFT_REFERENCE) && (refresh_frame_flags (f_refs h) =? 0) in
  ((ft =? FT_INTER) || (ft =? FT_SWITCH)) && ((DFT_REFERENCE <? s_decode_frame_type s) || unref) ||
  (ft =? FT_INTRA) && ((DFT_INTRA <? s_decode_frame_type s) || unref).

(** Result of an OBU: return value, state, events.  [goto error] records the
    packet's properties. *)
Definition obu_error (m : props) (d : dec) (e : list ev) : outcome (Z * dec * list ev) :=
  Ok (EINVAL_, w_err_props m d, e).

(** obu.c:1586-1706 show_existing_frame. *)
Definition show_existing (s : settings) (n : Z) (q : seq_hdr) (h : frame_hdr) (m : props) (d : dec)
  : outcome (Z * dec * list ev) :=
  let r := existing_frame_idx h in
  match r_pic (slot_at d r) with
  | None => obu_error m d []
  | Some p =>
    if dft_drops_shown s (frame_type (f_pre (tp_hdr p))) then
      Ok (n, skip_frame q h d, [EvSkip h])
    else if negb (has_data p) then obu_error m d []
    else if s_strict s && negb (z2b (tp_showable p)) then obu_error m d []
    else
      let finish d :=
        let d := w_itut [] d in
        let d := if frame_type (f_pre (tp_hdr p)) =? FT_KEY then key_refresh r p d else d in
        w_fhdr None d in
      if s_n_fc s =? 1 then
        let x := copy_props m d p in
        let! d := put_out x d in
        Ok (n, finish d, [EvShow r p; EvOut x])
      else
        let i := d_next d in
        let! (d, e) := ring_take s d in
        let f := nth i (d_fc d) fctx0 in
        let x := set_visible (copy_props m d p) in
        Ok (n, finish (w_fc (upd_nth (d_fc d) i (mkFctx (fc_ret f) (fc_err f) (Some x))) d), e ++ [EvShow r p])
  end.

(** obu.c:1707-1730 complete frame. *)
Definition frame_complete (o : oracle) (s : settings) (n : Z) (q : seq_hdr) (h : frame_hdr) (m : props)
  (d : dec) : outcome (Z * dec * list ev) :=
  if dft_drops s h then Ok (n, skip_frame q h d, [EvSkip h])
  else if is_none (hd_error (d_tiles d)) then obu_error m d []
  else
    let! (r, d, e) := submit_frame o s q h m d in
    if r <? 0 then Ok (r, d, e)
    else guard! is_none (hd_error (d_tiles d)) in
         Ok (n, w_n_tiles 0 (w_fhdr None d), e).

(** obu.c:1585-1732 after the switch; [n] is the size of the OBU. *)
Definition after_switch (o : oracle) (s : settings) (n : Z) (m : props) (d : dec)
  : outcome (Z * dec * list ev) :=
  match d_seq d, d_fhdr d with
  | Some q, Some h =>
    if z2b (show_existing_frame h) then show_existing s n q h m d
    else if d_n_tiles d =? t_cols (f_tiling h) * t_rows (f_tiling h)
    then frame_complete o s n q h m d
    else Ok (n, d, [])
  | _, _ => Ok (n, d, [])
  end.

(** obu.c:1217-1248: header and size of the OBU at the start of [buf].  None is
    [goto error]; otherwise (type, has_extension, temporal_id, spatial_id) and the
    reader, at the start of the payload and limited to it. *)
Definition obu_open (strict : bool) (buf : list Z) : outcome (option (Z * Z * Z * Z * gb)) :=
  let! c := gb_init buf (zlen buf) in
  let! (r, c) := exec (obu_fields strict) c in
  match r with
  | inr _ => Ok None
  | inl (type, ext, has_length, tid, sid) =>
    let! l :=
      (if z2b has_length then
         let! (r, c) := exec get_uleb128 c in
         match r with
         | inr _ => Undef
         | inl len => Ok (if gb_end c - gb_ptr c <? len then None
                          else Some (gb_limit c (gb_ptr c + len)))
         end
       else Ok (Some c)) in
    match l with
    | None => Ok None
    | Some c =>
      if gb_err c then Ok None else
      guard! gb_left c =? 0 in                                      (* assert *)
      Ok (Some (type, ext, tid, sid, c))
    end
  end.

(** obu.c:1213-1738 dav1d_parse_obus. *)
Definition parse_obus (o : oracle) (s : settings) (buf : list Z) (m : props) (d : dec)
  : outcome (Z * dec * list ev) :=
  let! r := obu_open (s_strict s) buf in
  match r with
  | None => obu_error m d []
  | Some (type, ext, tid, sid, c) =>
    if layer_dropped (d_idc d) type ext tid sid then Ok (gb_end c, d, []) else
    let! x := obu_switch s type tid sid m c d in
    match x with
    | SwErr d => obu_error m d []
    | SwRet r d => Ok (r, d, [])
    | SwGo d => after_switch o s (gb_end c) m d
    end
  end.

(** Model of sequence header parsing: /repo/src/obu.c:48-341. *)
From Coq Require Import ZArith List Bool.
From Verif Require Import Base.CInt GetBits.Model.
Import ListNotations.
Open Scope Z_scope.
Local Open Scope rd_scope.

Definition EINVAL_ : Z := -22.   (* DAV1D_ERR(EINVAL), include/dav1d/common.h:56-60 *)
Definition ENOENT_ : Z := -2.    (* DAV1D_ERR(ENOENT) *)
Definition EAGAIN_ : Z := -11.   (* DAV1D_ERR(EAGAIN) *)
Definition ENOMEM_ : Z := -12.
Definition ERANGE_ : Z := -34.
Definition ENOPROTOOPT_ : Z := -92.

(** /repo/include/dav1d/headers.h enumerators used by the parser. *)
Definition DAV1D_ADAPTIVE : Z := 2.
Definition I400 : Z := 0.
Definition I420 : Z := 1.
Definition I422 : Z := 2.
Definition I444 : Z := 3.
Definition PRI_BT709 : Z := 1.
Definition PRI_UNKNOWN : Z := 2.
Definition TRC_SRGB : Z := 13.
Definition TRC_UNKNOWN : Z := 2.
Definition MC_IDENTITY : Z := 0.
Definition MC_UNKNOWN : Z := 2.
Definition CHR_UNKNOWN : Z := 0.

(** headers.h Dav1dSequenceHeaderOperatingPoint. *)
Record op_point : Type := mkOpPoint {
  op_major_level : Z; op_minor_level : Z; op_initial_display_delay : Z; op_idc : Z; op_tier : Z;
  op_decoder_model_param_present : Z; op_display_model_param_present : Z }.
(** headers.h Dav1dSequenceHeaderOperatingParameterInfo. *)
Record op_info : Type := mkOpInfo {
  oi_decoder_buffer_delay : Z; oi_encoder_buffer_delay : Z; oi_low_delay_mode : Z }.
Definition op_point0 : op_point := mkOpPoint 0 0 0 0 0 0 0.
Definition op_info0 : op_info := mkOpInfo 0 0 0.

(** headers.h Dav1dSequenceHeader; the flat struct is grouped by the section of
    the parser that fills it. *)
Record timing : Type := mkTiming {
  timing_info_present : Z; num_units_in_tick : Z; time_scale : Z; equal_picture_interval : Z;
  num_ticks_per_picture : Z; decoder_model_info_present : Z;
  encoder_decoder_buffer_delay_length : Z; num_units_in_decoding_tick : Z;
  buffer_removal_delay_length : Z; frame_presentation_delay_length : Z }.
Definition timing0 : timing := mkTiming 0 0 0 0 0 0 0 0 0 0.
Record tools : Type := mkTools {
  inter_intra : Z; masked_compound : Z; warped_motion : Z; dual_filter : Z; order_hint : Z;
  jnt_comp : Z; ref_frame_mvs : Z; screen_content_tools : Z; force_integer_mv : Z;
  order_hint_n_bits : Z }.
Record color : Type := mkColor {
  hbd : Z; monochrome : Z; color_description_present : Z; pri : Z; trc : Z; mtrx : Z;
  color_range : Z; layout : Z; ss_hor : Z; ss_ver : Z; chr : Z; separate_uv_delta_q : Z }.
Record seq_hdr : Type := mkSeqHdr {
  profile : Z; still_picture : Z; reduced_still_picture_header : Z;
  sh_timing : timing;
  display_model_info_present : Z;
  num_operating_points : Z;
  operating_points : list op_point;          (* 32 entries *)
  operating_parameter_info : list op_info;   (* 32 entries *)
  width_n_bits : Z; height_n_bits : Z; max_width : Z; max_height : Z;
  frame_id_numbers_present : Z; delta_frame_id_n_bits : Z; frame_id_n_bits : Z;
  sb128 : Z; filter_intra : Z; intra_edge_filter : Z;
  sh_tools : tools;
  super_res : Z; cdef : Z; restoration : Z;
  sh_color : color;
  film_grain_present : Z }.

Definition err {A} : rd A := Fail EINVAL_.

(** obu.c:48-70 check_trailing_bits. *)
Definition check_trailing_bits (strict : bool) : rd unit :=
  do trailing_one_bit <- bit;
  do e <- get_error;
  if e then err else
  if negb strict then Ret tt else
  if negb (z2b trailing_one_bit) then err else
  do r <- rest_is_zero;
  if r then Ret tt else err.

(** obu.c:104-127 timing information. *)
Definition parse_timing (strict : bool) : rd timing :=
  do tip <- bit;
  if z2b tip then
    do nuit <- bits 32;
    do ts <- bits 32;
    if strict && (negb (z2b nuit) || negb (z2b ts)) then err else
    do epi <- bit;
    do ntpp <- (if z2b epi then
                  do v <- get_vlc;
                  if v =? 4294967295 then err else Ret (u32 (v + 1))
                else Ret 0);
    do dmip <- bit;
    if z2b dmip then
      do edbdl <- bits 5;
      do nuidt <- bits 32;
      if strict && negb (z2b nuidt) then err else
      do brdl <- bits 5;
      do fpdl <- bits 5;
      Ret (mkTiming tip nuit ts epi ntpp dmip (edbdl + 1) nuidt (brdl + 1) (fpdl + 1))
    else Ret (mkTiming tip nuit ts epi ntpp dmip 0 0 0 0)
  else Ret timing0.

(** obu.c:135-161 one iteration of the operating point loop. *)
Definition parse_op (t : timing) (dispmip : Z) : rd (op_point * op_info) :=
  do idc <- bits 12;
  if z2b idc && (negb (z2b (Z.land idc 255)) || negb (z2b (Z.land idc 3840))) then err else
  do maj <- bits 3;
  let maj := 2 + maj in
  do mino <- bits 2;
  do tier <- (if 3 <? maj then bit else Ret 0);
  do (dmpp, oi) <-
    (if z2b (decoder_model_info_present t) then
       do dmpp <- bit;
       if z2b dmpp then
         do dbd <- bits (encoder_decoder_buffer_delay_length t);
         do ebd <- bits (encoder_decoder_buffer_delay_length t);
         do ldm <- bit;
         Ret (dmpp, mkOpInfo dbd ebd ldm)
       else Ret (dmpp, op_info0)
     else Ret (0, op_info0));
  do dispp <- (if z2b dispmip then bit else Ret 0);
  do idd <- (if z2b dispp then do v <- bits 4; Ret (v + 1) else Ret 10);
  Ret (mkOpPoint maj mino idd idc tier dmpp dispp, oi).
(** obu.c:135: the loop; writes beyond the 32 array entries would be a failed
    store.  [n] is the number of iterations left. *)
Fixpoint parse_ops (n : nat) (i : Z) (t : timing) (dispmip : Z) : rd (list op_point * list op_info) :=
  match n with
  | O => Ret ([], [])
  | S n =>
    do _ <- assert (i <? 32);
    do (op, oi) <- parse_op t dispmip;
    do (ops, ois) <- parse_ops n (i + 1) t dispmip;
    Ret (op :: ops, oi :: ois)
  end.
Definition pad {A} (n : nat) (x : A) (l : list A) : list A := l ++ repeat x (n - length l).

(** obu.c:98-167. *)
Definition parse_op_section (strict : bool) (rsph : Z)
  : rd (timing * Z * Z * list op_point * list op_info) :=
  if z2b rsph then
    do maj <- bits 3;
    do mino <- bits 2;
    Ret (timing0, 0, 1, pad 32 op_point0 [mkOpPoint maj mino 10 0 0 0 0], pad 32 op_info0 [])
  else
    do t <- parse_timing strict;
    do dispmip <- bit;
    do n <- bits 5;
    let n := n + 1 in
    do (ops, ois) <- parse_ops (Z.to_nat n) 0 t dispmip;
    Ret (t, dispmip, n, pad 32 op_point0 ops, pad 32 op_info0 ois).

(** obu.c:176-182. *)
Definition parse_frame_ids (rsph : Z) : rd (Z * Z * Z) :=
  if negb (z2b rsph) then
    do p <- bit;
    if z2b p then
      do d <- bits 4;
      let d := d + 2 in
      do a <- bits 3;
      Ret (p, d, a + d + 1)
    else Ret (p, 0, 0)
  else Ret (0, 0, 0).

(** obu.c:191-213. *)
Definition parse_tools (rsph : Z) : rd tools :=
  if z2b rsph then Ret (mkTools 0 0 0 0 0 0 0 DAV1D_ADAPTIVE DAV1D_ADAPTIVE 0) else
  do ii <- bit;
  do mc <- bit;
  do wm <- bit;
  do df <- bit;
  do oh <- bit;
  do (jc, rm) <- (if z2b oh then do jc <- bit; do rm <- bit; Ret (jc, rm) else Ret (0, 0));
  do b <- bit;
  do sct <- (if z2b b then Ret DAV1D_ADAPTIVE else bit);
  do fim <- (if z2b sct then
               do b <- bit; if z2b b then Ret DAV1D_ADAPTIVE else bit
             else Ret 2);
  do ohb <- (if z2b oh then do v <- bits 3; Ret (v + 1) else Ret 0);
  Ret (mkTools ii mc wm df oh jc rm sct fim ohb).

(** obu.c:222-281 colour configuration.  [hbd] is uint8_t: the sum is at most 2. *)
Definition parse_color (strict : bool) (profile : Z) : rd color :=
  do hbd <- bit;
  do hbd <- (if (profile =? 2) && z2b hbd then do b <- bit; Ret (hbd + b) else Ret hbd);
  do mono <- (if negb (profile =? 1) then bit else Ret 0);
  do cdp <- bit;
  do (pri, trc, mtrx) <-
    (if z2b cdp then do p <- bits 8; do t <- bits 8; do m <- bits 8; Ret (p, t, m)
     else Ret (PRI_UNKNOWN, TRC_UNKNOWN, MC_UNKNOWN));
  do (range, layout, ssh, ssv, chr) <-
    (if z2b mono then do r <- bit; Ret (r, I400, 1, 1, CHR_UNKNOWN)
     else if (pri =? PRI_BT709) && (trc =? TRC_SRGB) && (mtrx =? MC_IDENTITY) then
       if negb (profile =? 1) && negb ((profile =? 2) && (hbd =? 2)) then err
       else Ret (1, I444, 0, 0, CHR_UNKNOWN)
     else
       do r <- bit;
       do (layout, ssh, ssv) <-
         (if profile =? 0 then Ret (I420, 1, 1)
          else if profile =? 1 then Ret (I444, 0, 0)
          else if profile =? 2 then
            do (ssh, ssv) <-
              (if hbd =? 2 then
                 do h <- bit;
                 do v <- (if z2b h then bit else Ret 0);
                 Ret (h, v)
               else Ret (1, 0));
            Ret (if z2b ssh then if z2b ssv then I420 else I422 else I444, ssh, ssv)
          else Ret (0, 0, 0));
       do chr <- (if z2b (Z.land ssh ssv) then bits 2 else Ret CHR_UNKNOWN);
       Ret (r, layout, ssh, ssv, chr));
  if strict && (mtrx =? MC_IDENTITY) && negb (layout =? I444) then err else
  do uvd <- (if negb (z2b mono) then bit else Ret 0);
  Ret (mkColor hbd mono cdp pri trc mtrx range layout ssh ssv chr uvd).

(** obu.c:72-286 parse_seq_hdr without the final check_trailing_bits. *)
Definition parse_seq_body (strict : bool) : rd seq_hdr :=
  do profile <- bits 3;
  if 2 <? profile then err else
  do still <- bit;
  do rsph <- bit;
  if z2b rsph && negb (z2b still) then err else
  do (t, dispmip, n, ops, ois) <- parse_op_section strict rsph;
  do wnb <- bits 4; let wnb := wnb + 1 in
  do hnb <- bits 4; let hnb := hnb + 1 in
  do mw <- bits wnb; let mw := mw + 1 in
  do mh <- bits hnb; let mh := mh + 1 in
  do (fidp, dfid, fid) <- parse_frame_ids rsph;
  do sb <- bit;
  do fi <- bit;
  do ief <- bit;
  do tl <- parse_tools rsph;
  do sr <- bit;
  do cd <- bit;
  do rs <- bit;
  do col <- parse_color strict profile;
  do fg <- bit;
  Ret (mkSeqHdr profile still rsph t dispmip n ops ois wnb hnb mw mh fidp dfid fid sb fi ief tl
                sr cd rs col fg).
(** obu.c:72-300 parse_seq_hdr. *)
Definition parse_seq_hdr (strict : bool) : rd seq_hdr :=
  do h <- parse_seq_body strict;
  do _ <- check_trailing_bits strict;
  Ret h.

Local Open Scope outcome_scope.

(** obu.c:314-325, the OBU header read by dav1d_parse_sequence_header, ending
    with the optional size; [inr] never occurs. *)
Definition obu_head : rd (Z * Z) :=
  (do _ <- bit;
   do type <- bits 4;
   do ext <- bit;
   do has_length <- bit;
   do _ <- bits (1 + 8 * ext);
   Ret (type, has_length))%rd.

Definition gb_setptr (c : gb) (p : Z) : gb :=
  {| gb_buf := gb_buf c; gb_ptr := p; gb_end := gb_end c;
     gb_state := gb_state c; gb_left := gb_left c; gb_err := gb_err c |}.

(** obu.c:313-338 the do-while loop.  [inl] carries the header [*out] as last
    written (it is left in an indeterminate state when an error is returned). *)
Fixpoint psh_loop (fuel : nat) (c : gb) (res : option seq_hdr) : outcome (option seq_hdr + Z) :=
  match fuel with
  | O => Undef
  | S fuel =>
    let! (r, c) := exec obu_head c in
    match r with
    | inr e => Ok (inr e)
    | inl (type, has_length) =>
      (* obu.c:320-325 *)
      let! (c, obu_end) :=
        (if z2b has_length then
           let! (r, c) := exec get_uleb128 c in
           match r with
           | inr _ => Undef
           | inl len =>
             Ok (c, if gb_end c - gb_ptr c <? len then None else Some (gb_ptr c + len))
           end
         else Ok (c, Some (gb_end c))) in
      match obu_end with
      | None => Ok (inr EINVAL_)
      | Some obu_end =>
        (* obu.c:327-331 *)
        let! x :=
          (if type =? 1 then
             let! (r, c) := exec (parse_seq_hdr false) c in
             match r with
             | inr e => Ok (inr e)
             | inl h => if obu_end <? gb_ptr c then Ok (inr EINVAL_)
                        else let! c := gb_align c in Ok (inl (c, Some h))
             end
           else Ok (inl (c, res))) in
        match x with
        | inr e => Ok (inr e)
        | inl (c, res) =>
          if gb_err c then Ok (inr EINVAL_) else
          guard! (gb_state c =? 0) && (gb_left c =? 0) in      (* assert *)
          let c := gb_setptr c obu_end in
          if gb_ptr c <? gb_end c then psh_loop fuel c res else Ok (inl res)
        end
      end
    end
  end.

(** obu.c:302-341 dav1d_parse_sequence_header(out, ptr, sz): [inl h] is a
    return value 0 with [*out = h].  SIZE_MAX / 2 is 2^63 - 1. *)
Definition parse_sequence_header (buf : list Z) (sz : Z) : outcome (seq_hdr + Z) :=
  if negb ((0 <? sz) && (sz <=? 2 ^ 63 - 1)) then Ok (inr EINVAL_) else
  let! c := gb_init buf sz in
  let! r := psh_loop (Z.to_nat sz) c None in
  match r with
  | inl (Some h) => Ok (inl h)
  | inl None => Ok (inr ENOENT_)
  | inr e => Ok (inr e)
  end.

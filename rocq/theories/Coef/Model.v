(** Model of decode_coefs, /repo/src/recon_tmpl.c:320-720: the coefficients of one
    transform block are decoded, dequantised and stored.

    The reads from the arithmetic decoder (/repo/src/msac.c) are requests that name
    the probability table; see Prog.v.  An [assert] that fails is undefined.  Left out:
    the debug output. *)
From Coq Require Import ZArith List Bool.
From Verif Require Import Base.CInt Itx.ScanTables Itx.Txfm2d Coef.Prog.
Import ListNotations.
Open Scope Z_scope.
Open Scope prog_scope.

(** The tables of ts->cdf (/repo/src/cdf.h:36-111), with their indices. *)
Inductive cdf : Type :=
| C_skip (ctx sctx : Z)                       (* coef.skip *)
| C_txtp_intra1 (min mode : Z) | C_txtp_intra2 (min mode : Z)
| C_txtp_inter1 (min : Z) | C_txtp_inter2 | C_txtp_inter3 (min : Z)
| C_eob_bin (sz chroma : Z) (is_1d : option Z)(* coef.eob_bin_16 .. eob_bin_1024 *)
| C_eob_hi_bit (ctx chroma bin : Z)
| C_eob_base_tok (ctx chroma i : Z)
| C_base_tok (ctx chroma i : Z)
| C_br_tok (ctx chroma i : Z)
| C_dc_sign (chroma i : Z)
| C_equi.                                     (* dav1d_msac_decode_bool_equi *)
Definition P := prog cdf.

(** tables.c:129-167 dav1d_txfm_dimensions: the fields min, max and ctx *)
Definition tx_min : list Z := [0; 1; 2; 3; 4; 0; 0; 1; 1; 2; 2; 3; 3; 0; 0; 1; 1; 2; 2].
Definition tx_max : list Z := [0; 1; 2; 3; 4; 1; 1; 2; 2; 3; 3; 4; 4; 2; 2; 3; 3; 4; 4].
Definition tx_ctx : list Z := [0; 1; 2; 3; 4; 1; 1; 2; 2; 3; 3; 4; 4; 1; 1; 2; 2; 3; 3].
(** tables.c:104-127 dav1d_block_dimensions (in the order of enum BlockSize,
    levels.h:138-162): the binary logarithms of width and height in units of 4 *)
Definition block_log : list (Z * Z) :=
  [ (5, 5); (5, 4); (4, 5); (4, 4); (4, 3); (4, 2); (3, 4); (3, 3); (3, 2); (3, 1); (2, 4); (2, 3); (2, 2);
    (2, 1); (2, 0); (1, 3); (1, 2); (1, 1); (1, 0); (0, 2); (0, 1); (0, 0) ].
(** tables.c:197-213 dav1d_txtp_from_uvmode; CFL_PRED is left 0 *)
Definition txtp_from_uvmode : list Z :=
  [ DCT_DCT; ADST_DCT; DCT_ADST; DCT_DCT; ADST_ADST; ADST_DCT; DCT_ADST; DCT_ADST; ADST_DCT; ADST_ADST; ADST_DCT;
    DCT_ADST; ADST_ADST; 0 ].
(** tables.c:236-248 *)
Definition tx_types_per_set : list Z :=
  [ IDTX; DCT_DCT; ADST_ADST; ADST_DCT; DCT_ADST;
    IDTX; DCT_DCT; V_DCT; H_DCT; ADST_ADST; ADST_DCT; DCT_ADST;
    IDTX; V_DCT; H_DCT; DCT_DCT; ADST_DCT; DCT_ADST; FLIPADST_DCT;
    DCT_FLIPADST; ADST_ADST; FLIPADST_FLIPADST; ADST_FLIPADST; FLIPADST_ADST;
    IDTX; V_DCT; H_DCT; V_ADST; H_ADST; V_FLIPADST; H_FLIPADST;
    DCT_DCT; ADST_DCT; DCT_ADST; FLIPADST_DCT; DCT_FLIPADST;
    ADST_ADST; FLIPADST_FLIPADST; ADST_FLIPADST; FLIPADST_ADST ].
(** tables.c:275-295 *)
Definition lo_ctx_offsets_tbl : list (list (list Z)) :=
  [ [ [ 0; 1; 6; 6; 21 ]; [ 1; 6; 6; 21; 21 ]; [ 6; 6; 21; 21; 21 ]; [ 6; 21; 21; 21; 21 ]; [ 21; 21; 21; 21; 21 ] ];
    [ [ 0; 16; 6; 6; 21 ]; [ 16; 16; 6; 21; 21 ]; [ 16; 16; 21; 21; 21 ]; [ 16; 16; 21; 21; 21 ]; [ 16; 16; 21; 21; 21 ] ];
    [ [ 0; 11; 11; 11; 11 ]; [ 11; 11; 11; 11; 11 ]; [ 6; 6; 21; 21; 21 ]; [ 6; 21; 21; 21; 21 ]; [ 21; 21; 21; 21; 21 ] ] ].
(** tables.c:297-303 *)
Definition skip_ctx_tbl : list (list Z) :=
  [ [ 1; 2; 2; 2; 3 ]; [ 2; 4; 4; 4; 5 ]; [ 2; 4; 4; 4; 5 ]; [ 2; 4; 4; 4; 5 ]; [ 3; 5; 5; 5; 6 ] ].
(** tables.c:356-358; levels.h:108-133: VERT_PRED = 1, HOR_PRED = 2, HOR_DOWN_PRED = 6 *)
Definition filter_mode_to_y_mode : list Z := [0; 1; 2; 6; 0].
Definition FILTER_PRED : Z := 13.
(** include/dav1d/headers.h: enum Dav1dPixelLayout *)
Definition I420 : Z := 1. Definition I444 : Z := 3.

Section READS.
Open Scope outcome_scope.
(** [n] bytes of [a] from [o] on as an integer; the code reads them in the byte
    order of the machine, here little endian. *)
Fixpoint le (n : nat) (a : list Z) (o : Z) : outcome Z :=
  match n with
  | O => Ok 0
  | S n => let! b := rd_at a o in let! r := le n a (o + 1) in Ok (b + 256 * r)
  end.

(** recon_tmpl.c:58-134 get_skip_ctx.
    :71-93 whether any of the contexts of a chroma block is set *)
Definition merge_chroma (l : Z) (a : list Z) : outcome Z :=
  match l with
  | 0 => let! v := le 1 a 0 in Ok (b2z (negb (v =? 0x40)))
  | 1 => let! v := le 2 a 0 in Ok (b2z (negb (v =? 0x4040)))
  | 2 => let! v := le 4 a 0 in Ok (b2z (negb (v =? 0x40404040)))
  | 3 => let! v := le 8 a 0 in Ok (b2z (negb (v =? 0x4040404040404040)))
  | _ => Undef
  end.
(** :101-112 *)
Definition merge_luma (l : Z) (a : list Z) : outcome Z :=
  let! v :=
    match l with
    | 0 => le 1 a 0
    | 1 => le 2 a 0
    | 2 => le 4 a 0
    | 3 => let! v := le 4 a 0 in let! w := le 4 a 4 in Ok (Z.lor v w)
    | 4 => let! tmp := le 8 a 0 in let! w := le 8 a 8 in
           let tmp := Z.lor tmp w in Ok (Z.lor (u32 (Z.shiftr tmp 32)) (u32 tmp))
    | _ => Undef
    end in
  let v := if 2 <=? l then Z.lor v (Z.shiftr v 16) else v in
  Ok (if 1 <=? l then Z.lor v (Z.shiftr v 8) else v).
Definition get_skip_ctx (t_dim : txinfo) (bs : Z) (a l : list Z) (chroma : bool) (layout : Z) : outcome Z :=
  let! b_dim := rd_at block_log bs in
  let (b2, b3) := b_dim in
  if chroma then
    let ss_ver := layout =? I420 in
    let ss_hor := negb (layout =? I444) in
    let not_one_blk := (ti_lw t_dim <? b2 - b2z (negb (b2 =? 0) && ss_hor)) ||
                       (ti_lh t_dim <? b3 - b2z (negb (b3 =? 0) && ss_ver)) in
    let! ca := merge_chroma (ti_lw t_dim) a in
    let! cl := merge_chroma (ti_lh t_dim) l in
    Ok (7 + b2z not_one_blk * 3 + ca + cl)
  else if (b2 =? ti_lw t_dim) && (b3 =? ti_lh t_dim) then Ok 0
  else
    let! la := merge_luma (ti_lw t_dim) a in
    let! ll := merge_luma (ti_lh t_dim) l in
    let! r := rd_at skip_ctx_tbl (Z.min (Z.land la 0x3F) 4) in
    rd_at r (Z.min (Z.land ll 0x3F) 4).

(** :136-297 get_dc_sign_ctx *)
Definition mask64 : Z := 0xC0C0C0C0C0C0C0C0.
Definition mask32 : Z := 0xC0C0C0C0.
Definition mul64 : Z := 0x0101010101010101.
Definition mul32 : Z := 0x01010101.
(** the low [n] bytes of a masked sum: [( *(type * ) p & mask)] *)
Definition m8 (a : list Z) (o : Z) : outcome Z := let! v := le 1 a o in Ok (Z.land v mask32).
Definition m16 (a : list Z) (o : Z) : outcome Z := let! v := le 2 a o in Ok (Z.land v mask32).
Definition m32 (a : list Z) (o : Z) : outcome Z := let! v := le 4 a o in Ok (Z.land v mask32).
Definition m64 (a : list Z) (o : Z) : outcome Z := let! v := le 8 a o in Ok (Z.land v mask64).
(** [t *= 0x04040404U; s = (int) (t >> 24) - ..] *)
Definition fin4 (t : Z) : Z := Z.shiftr (u32 (t * 0x04040404)) 24.
(** [t *= (uint32_t) mul; t >> 24] *)
Definition fin32 (t : Z) : Z := Z.shiftr (u32 (t * mul32)) 24.
(** [t *= mul; t >> 56] *)
Definition fin64 (t : Z) : Z := Z.shiftr (u64 (t * mul64)) 56.
Definition dc_sum (tx : Z) (a l : list Z) : outcome Z :=
  match tx with
  | 0 => let! p := le 1 a 0 in let! q := le 1 l 0 in Ok (Z.shiftr p 6 + Z.shiftr q 6 - 1 - 1)
  | 1 => let! p := m16 a 0 in let! q := m16 l 0 in Ok (fin4 (u32 (p + q)) - 2 - 2)
  | 2 => let! p := m32 a 0 in let! q := m32 l 0 in Ok (fin32 (u32 (Z.shiftr p 6 + Z.shiftr q 6)) - 4 - 4)
  | 3 => let! p := m64 a 0 in let! q := m64 l 0 in Ok (fin64 (u64 (Z.shiftr p 6 + Z.shiftr q 6)) - 8 - 8)
  | 4 => let! p := m64 a 0 in let! p' := m64 a 8 in let! q := m64 l 0 in let! q' := m64 l 8 in
         Ok (fin64 (u64 (Z.shiftr p 6 + Z.shiftr p' 6 + Z.shiftr q 6 + Z.shiftr q' 6)) - 16 - 16)
  | 5 => let! p := m8 a 0 in let! q := m16 l 0 in Ok (fin4 (u32 (p + q)) - 1 - 2)
  | 6 => let! p := m16 a 0 in let! q := m8 l 0 in Ok (fin4 (u32 (p + q)) - 2 - 1)
  | 7 => let! p := m16 a 0 in let! q := m32 l 0 in Ok (fin32 (Z.shiftr (u32 (p + q)) 6) - 2 - 4)
  | 8 => let! p := m32 a 0 in let! q := m16 l 0 in Ok (fin32 (Z.shiftr (u32 (p + q)) 6) - 4 - 2)
  | 9 => let! p := m32 a 0 in let! q := m64 l 0 in Ok (fin64 (Z.shiftr (u64 (p + q)) 6) - 4 - 8)
  | 10 => let! p := m64 a 0 in let! q := m32 l 0 in Ok (fin64 (Z.shiftr (u64 (p + q)) 6) - 8 - 4)
  | 11 => let! p := m64 a 0 in let! q := m64 l 0 in let! q' := m64 l 8 in
          Ok (fin64 (u64 (Z.shiftr p 6 + Z.shiftr q 6 + Z.shiftr q' 6)) - 8 - 16)
  | 12 => let! p := m64 a 0 in let! p' := m64 a 8 in let! q := m64 l 0 in
          Ok (fin64 (u64 (Z.shiftr p 6 + Z.shiftr p' 6 + Z.shiftr q 6)) - 16 - 8)
  | 13 => let! p := m8 a 0 in let! q := m32 l 0 in Ok (fin32 (Z.shiftr (u32 (p + q)) 6) - 1 - 4)
  | 14 => let! p := m32 a 0 in let! q := m8 l 0 in Ok (fin32 (Z.shiftr (u32 (p + q)) 6) - 4 - 1)
  | 15 => let! p := m16 a 0 in let! q := m64 l 0 in Ok (fin64 (Z.shiftr (u64 (p + q)) 6) - 2 - 8)
  | 16 => let! p := m64 a 0 in let! q := m16 l 0 in Ok (fin64 (Z.shiftr (u64 (p + q)) 6) - 8 - 2)
  | 17 => let! p := m32 a 0 in let! q := m64 l 0 in let! q' := m64 l 8 in
          Ok (fin64 (u64 (Z.shiftr (u64 (p + q)) 6 + Z.shiftr q' 6)) - 4 - 16)
  | 18 => let! p := m64 a 0 in let! q := m32 l 0 in let! p' := m64 a 8 in
          Ok (fin64 (u64 (Z.shiftr (u64 (p + q)) 6 + Z.shiftr p' 6)) - 16 - 4)
  | _ => Undef
  end.
Definition get_dc_sign_ctx (tx : Z) (a l : list Z) : outcome Z :=
  let! s := dc_sum tx a l in Ok (b2z (negb (s =? 0)) + b2z (0 <? s)).

(** :299-318 get_lo_ctx: the context and *hi_mag.  [o]: where the pointer points *)
Definition get_lo_ctx (levels : list Z) (o : Z) (tx_class : txclass) (ctx_offsets : option (list (list Z)))
    (x y stride : Z) : outcome (Z * Z) :=
  let! v1 := rd_at levels (o + 0 * stride + 1) in
  let! v2 := rd_at levels (o + 1 * stride + 0) in
  let mag := v1 + v2 in
  match tx_class with
  | TX_CLASS_2D =>
    let! v3 := rd_at levels (o + 1 * stride + 1) in
    let hi_mag := mag + v3 in
    let! v4 := rd_at levels (o + 0 * stride + 2) in
    let! v5 := rd_at levels (o + 2 * stride + 0) in
    let mag := hi_mag + (v4 + v5) in
    match ctx_offsets with
    | Some t => let! r := rd_at t (Z.min y 4) in let! offset := rd_at r (Z.min x 4) in
                Ok (offset + (if 512 <? mag then 4 else Z.shiftr (mag + 64) 7), hi_mag)
    | None => Undef
    end
  | _ =>
    let! v3 := rd_at levels (o + 0 * stride + 2) in
    let hi_mag := mag + v3 in
    let! v4 := rd_at levels (o + 0 * stride + 3) in
    let! v5 := rd_at levels (o + 0 * stride + 4) in
    let mag := hi_mag + (v4 + v5) in
    let offset := 26 + (if 1 <? y then 10 else y * 5) in
    Ok (offset + (if 512 <? mag then 4 else Z.shiftr (mag + 64) 7), hi_mag)
  end.

(** env.h:120-133 get_uv_inter_txtp *)
Definition get_uv_inter_txtp (max min ytxtp : Z) : outcome Z :=
  guard! (0 <=? ytxtp) && (ytxtp <? 31) in
  Ok (if max =? TX_32X32 then if ytxtp =? IDTX then IDTX else DCT_DCT
      else if (min =? TX_16X16) &&
              negb (Z.land (Z.shiftl 1 ytxtp)
                     (Z.lor (Z.lor (Z.lor (Z.shiftl 1 H_FLIPADST) (Z.shiftl 1 V_FLIPADST)) (Z.shiftl 1 H_ADST)) (Z.shiftl 1 V_ADST)) =? 0)
      then DCT_DCT else ytxtp).

(** the position of scan index [i]: rc, x, y (recon_tmpl.c:470-476, 495-501) *)
Definition scan_pos (tx_class : txclass) (scan : list Z) (shift shift2 mask i : Z) : outcome (Z * Z * Z) :=
  match tx_class with
  | TX_CLASS_2D => let! rc := rd_at scan i in Ok (rc, Z.shiftr rc shift, Z.land rc mask)
  | TX_CLASS_H => Ok (i, Z.land i mask, Z.shiftr i shift)
  | TX_CLASS_V => let x := Z.land i mask in let y := Z.shiftr i shift in Ok (Z.lor (Z.shiftl x shift2) y, x, y)
  end.
End READS.

(** msac.c:187-201 dav1d_msac_decode_hi_tok_c; hi_cdf is the table *)
Definition decode_hi_tok (c : cdf) : P Z :=
  let* tok_br := read c 3 in
  if tok_br =? 3 then
    let* tok_br := read c 3 in
    if tok_br =? 3 then
      let* tok_br := read c 3 in
      if tok_br =? 3 then let* v := read c 3 in Ret (12 + v)
      else Ret (9 + tok_br)
    else Ret (6 + tok_br)
  else Ret (3 + tok_br).

(** msac.h:88-95 dav1d_msac_decode_bools *)
Fixpoint decode_bools (n : nat) (v : Z) : P Z :=
  match n with
  | O => Ret v
  | S n => let* b := read C_equi 1 in decode_bools n (Z.lor (u32 (Z.shiftl v 1)) b)
  end.

(** recon_tmpl.c:48-56 read_golomb *)
Fixpoint golomb_len (n : nat) (len : Z) : P Z :=
  let* b := read C_equi 1 in
  if (b =? 0) && (len <? 32) then match n with O => Stop | S n => golomb_len n (len + 1) end
  else Ret len.
Fixpoint golomb_val (n : nat) (val : Z) : P Z :=
  match n with
  | O => Ret val
  | S n => let* b := read C_equi 1 in golomb_val n (u32 (u32 (Z.shiftl val 1) + b))
  end.
Definition read_golomb : P Z :=
  let* len := golomb_len 32 0 in
  let* val := golomb_val (Z.to_nat len) 1 in
  Ret (u32 (val - 1)).

(** what does not change during the call *)
Record env : Type := mkEnv {
  e_lossless : bool;                          (* segmentation.lossless[seg_id] *)
  e_tx : Z; e_bs : Z; e_intra : bool; e_plane : Z; e_layout : Z;
  e_reduced : bool;                           (* frame_hdr->reduced_txtp_set *)
  e_qidx : Z;                                 (* segmentation.qidx[seg_id] *)
  e_y_mode : Z; e_y_angle : Z; e_uv_mode : Z; (* of the block *)
  e_dq : Z * Z;                               (* ts->dq[seg_id][plane] *)
  e_qm : option (list Z);                     (* f->qm[tx][plane] *)
  e_bpc : Z;                                  (* f->cur.p.bpc *)
  e_a : list Z; e_l : list Z
}.

Section DECODE.
Variable e : env.
Definition chroma : Z := b2z (negb (e_plane e =? 0)).

(** (coef): int16_t in the 8 bit build, else int32_t *)
Definition to_coef (v : Z) : Z := if e_bpc e =? 8 then s16 v else s32 v.

(** :350-400 the transform type *)
Definition read_txtp (txtp : Z) : P Z :=
  lift* tmax := rd_at tx_max (e_tx e) in
  lift* tmin := rd_at tx_min (e_tx e) in
  if e_lossless e then guard* tmax =? TX_4X4 in Ret WHT_WHT
  else if TX_64X64 <=? tmax + b2z (e_intra e) then Ret DCT_DCT
  else if chroma =? 1 then
    if e_intra e then lift (rd_at txtp_from_uvmode (e_uv_mode e)) else lift (get_uv_inter_txtp tmax tmin txtp)
  else if e_qidx e =? 0 then Ret DCT_DCT
  else if e_intra e then
    lift* y_mode_nofilt := (if e_y_mode e =? FILTER_PRED then rd_at filter_mode_to_y_mode (e_y_angle e) else Ok (e_y_mode e)) in
    if e_reduced e || (tmin =? TX_16X16) then
      guard* (tmin <? 3) in
      let* idx := read (C_txtp_intra2 tmin y_mode_nofilt) 4 in lift (rd_at tx_types_per_set (idx + 0))
    else
      guard* (tmin <? 2) in
      let* idx := read (C_txtp_intra1 tmin y_mode_nofilt) 6 in lift (rd_at tx_types_per_set (idx + 5))
  else
    if e_reduced e || (tmax =? TX_32X32) then
      guard* (tmin <? 4) in
      let* idx := read (C_txtp_inter3 tmin) 1 in Ret (Z.land (idx - 1) IDTX)
    else if tmin =? TX_16X16 then
      let* idx := read C_txtp_inter2 11 in lift (rd_at tx_types_per_set (idx + 12))
    else
      guard* (tmin <? 2) in
      let* idx := read (C_txtp_inter1 tmin) 15 in lift (rd_at tx_types_per_set (idx + 24)).

(** :402-441 the end of block *)
Definition read_eob (tx2dszctx ctx is_1d : Z) : P Z :=
  guard* (0 <=? tx2dszctx) && (tx2dszctx <=? 6) in
  let* eob_bin := read (C_eob_bin tx2dszctx chroma (if tx2dszctx <? 5 then Some is_1d else None)) (4 + tx2dszctx) in
  if 1 <? eob_bin then
    guard* eob_bin <? 11 in
    let* eob_hi_bit := read (C_eob_hi_bit ctx chroma eob_bin) 1 in
    let* v := decode_bools (Z.to_nat (eob_bin - 2)) 0 in
    Ret (Z.lor (Z.shiftl (Z.lor eob_hi_bit 2) (eob_bin - 2)) v)
  else Ret eob_bin.

Record st : Type := mkSt { s_rc : Z; s_cf : list Z; s_levels : list Z }.

Section CLASS.
Variables (tx_class : txclass) (scan : list Z) (lo_ctx_offsets : option (list (list Z))).
Variables (stride shift shift2 mask ctx0 : Z).          (* ctx0: t_dim->ctx *)
Definition is2d : bool := match tx_class with TX_CLASS_2D => true | _ => false end.
Definition hi_cdf (ctx : Z) : P cdf := guard* (0 <=? ctx) && (ctx <? 21) in Ret (C_br_tok (Z.min ctx0 3) chroma ctx).
Definition lo_cdf (ctx : Z) : P cdf := guard* (0 <=? ctx) && (ctx <? 41) in Ret (C_base_tok ctx0 chroma ctx).

(** :493-530 the coefficients of the scan indices [i], .., 1 *)
Definition ac_tok (i : Z) (s : st) : P st :=
  lift* p := scan_pos tx_class scan shift shift2 mask i in
  let '(rc_i, x, y) := p in
  guard* (0 <=? x) && (x <? 32) && (0 <=? y) && (y <? 32) in
  let level := x * stride + y in
  lift* cm := get_lo_ctx (s_levels s) level tx_class lo_ctx_offsets x y stride in
  let (ctx, mag) := cm in
  let y := if is2d then Z.lor y x else y in
  let* c := lo_cdf ctx in
  let* tok := read c 3 in
  if tok =? 3 then
    let mag := Z.land mag 63 in
    let ctx := (if b2z is2d <? y then 14 else 7) + (if 12 <? mag then 6 else Z.shiftr (mag + 1) 1) in
    let* c := hi_cdf ctx in
    let* tok := decode_hi_tok c in
    lift* levels := wr_at (s_levels s) level (u8 (tok + Z.shiftl 3 6)) in
    lift* cf := wr_at (s_cf s) rc_i (to_coef (Z.lor (Z.shiftl tok 11) (s_rc s))) in
    Ret (mkSt rc_i cf levels)
  else
    let tok := tok * 0x17ff41 in
    lift* levels := wr_at (s_levels s) level (u8 tok) in
    let tok := Z.land (Z.shiftr tok 9) (u32 (s_rc s + u32 (Z.lnot 0x7ff))) in
    lift* cf := wr_at (s_cf s) rc_i (to_coef tok) in
    Ret (mkSt (if tok =? 0 then s_rc s else rc_i) cf levels).
Fixpoint ac_toks (n : nat) (s : st) : P st :=
  match n with
  | O => Ret s
  | S n' => let* s := ac_tok (Z.of_nat n) s in ac_toks n' s
  end.

(** :457-551; the result is (dc_tok, rc, cf) *)
Definition class_toks (eob tx2dszctx : Z) (cf levels : list Z) : P (Z * Z * list Z) :=
  let ctx := 1 + b2z (Z.shiftl 2 tx2dszctx <? eob) + b2z (Z.shiftl 4 tx2dszctx <? eob) in
  let* eob_tok := read (C_eob_base_tok ctx0 chroma ctx) 2 in
  lift* p := scan_pos tx_class scan shift shift2 mask eob in
  let '(rc, x, y) := p in
  let* tl :=
    if eob_tok =? 2 then
      let ctx := if (if is2d then 1 <? Z.lor x y else negb (y =? 0)) then 14 else 7 in
      let* c := hi_cdf ctx in
      let* tok := decode_hi_tok c in
      Ret (tok, tok + Z.shiftl 3 6)
    else Ret (eob_tok + 1, (eob_tok + 1) * 0x41) in
  let (tok, level_tok) := tl in
  lift* cf := wr_at cf rc (to_coef (Z.shiftl tok 11)) in
  lift* levels := wr_at levels (x * stride + y) (u8 level_tok) in
  let* s := ac_toks (Z.to_nat (eob - 1)) (mkSt rc cf levels) in
  let levels := s_levels s in
  (* dc *)
  lift* cm := (if is2d then Ok (0, 0) else get_lo_ctx levels 0 tx_class lo_ctx_offsets 0 0 stride) in
  let (ctx, mag) := cm in
  let* c := lo_cdf ctx in
  let* dc_tok := read c 3 in
  if dc_tok =? 3 then
    lift* mag :=
      (if is2d then
         obind (rd_at levels (0 * stride + 1)) (fun v1 =>
         obind (rd_at levels (1 * stride + 0)) (fun v2 =>
         obind (rd_at levels (1 * stride + 1)) (fun v3 => Ok (v1 + v2 + v3))))
       else Ok mag) in
    let mag := Z.land mag 63 in
    let ctx := if 12 <? mag then 6 else Z.shiftr (mag + 1) 1 in
    let* c := hi_cdf ctx in
    let* dc_tok := decode_hi_tok c in
    Ret (dc_tok, s_rc s, s_cf s)
  else Ret (dc_tok, s_rc s, s_cf s).
End CLASS.

(** :443-600 all tokens *)
Definition read_toks (txtp eob : Z) (cf : list Z) : P (Z * Z * list Z) :=
  lift* t_dim := rd_at txfm_dimensions (e_tx e) in
  lift* ctx := rd_at tx_ctx (e_tx e) in
  lift* tx_class := rd_at tx_type_class txtp in
  let slw := Z.min (ti_lw t_dim) TX_32X32 in let slh := Z.min (ti_lh t_dim) TX_32X32 in
  let tx2dszctx := slw + slh in
  if eob =? 0 then
    let* tok_br := read (C_eob_base_tok ctx chroma 0) 2 in
    if tok_br =? 2 then
      let* c := hi_cdf ctx 0 in
      let* dc_tok := decode_hi_tok c in Ret (dc_tok, 0, cf)
    else Ret (1 + tok_br, 0, cf)
  else
    match tx_class with
    | TX_CLASS_2D =>
      let nonsquare_tx := b2z (RTX_4X8 <=? e_tx e) in
      lift* lo := rd_at lo_ctx_offsets_tbl (nonsquare_tx + Z.land (e_tx e) nonsquare_tx) in
      lift* scan := rd_at scans (e_tx e) in
      let stride := Z.shiftl 4 slh in
      guard* stride * (Z.shiftl 4 slw + 2) <=? 32 * 34 in
      class_toks TX_CLASS_2D scan (Some lo) stride (slh + 2) 0 (Z.shiftl 4 slh - 1) ctx eob tx2dszctx cf
        (repeat 0 (Z.to_nat (stride * (Z.shiftl 4 slw + 2))))
    | TX_CLASS_H =>
      let stride := 16 in
      guard* stride * (Z.shiftl 4 slh + 2) <=? 32 * 34 in
      class_toks TX_CLASS_H [] None stride (slh + 2) 0 (Z.shiftl 4 slh - 1) ctx eob tx2dszctx cf
        (repeat 0 (Z.to_nat (stride * (Z.shiftl 4 slh + 2))))
    | TX_CLASS_V =>
      let stride := 16 in
      guard* stride * (Z.shiftl 4 slw + 2) <=? 32 * 34 in
      class_toks TX_CLASS_V [] None stride (slw + 2) (slh + 2) (Z.shiftl 4 slw - 1) ctx eob tx2dszctx cf
        (repeat 0 (Z.to_nat (stride * (Z.shiftl 4 slw + 2))))
    end.

Definition cf_max : Z := s32 (u32 (Z.lnot (u32 (Z.shiftl (u32 (Z.lnot 127)) (e_bpc e))))).
Section RESIDUAL.
Variables (qm : option (list Z)) (dq_shift : Z).

(** one coefficient with token [tok]: the token with the Golomb part, and the
    dequantised magnitude.  [dq]: the quantizer.  With a matrix :625-643, 652-675;
    without :685-698, 710-731. *)
Definition dequant (rc tok dq sign : Z) : P (Z * Z) :=
  match qm with
  | Some qm_tbl =>
    lift* q := rd_at qm_tbl rc in
    guard* fits_int (dq * q + 16) in
    let dq := Z.shiftr (dq * q + 16) 5 in
    let* td :=
      if tok =? 15 then
        let* g := read_golomb in
        let tok := Z.land (u32 (g + 15)) 0xfffff in
        Ret (tok, Z.land (u32 (dq * tok)) 0xffffff)
      else
        let dq := u32 (dq * tok) in
        guard* dq <=? 0xffffff in Ret (tok, dq) in
    let (tok, dq) := td in
    let dq := Z.shiftr dq dq_shift in
    Ret (tok, Z.min dq (cf_max + sign))
  | None =>
    if tok =? 15 then
      let* g := read_golomb in
      let tok := Z.land (u32 (g + 15)) 0xfffff in
      let dq := Z.shiftr (Z.land (u32 (dq * tok)) 0xffffff) dq_shift in
      Ret (tok, Z.min dq (cf_max + sign))
    else
      let dq := Z.shiftr (u32 (dq * tok)) dq_shift in
      guard* dq <=? cf_max in Ret (tok, dq)
  end.

(** the do-while loops :650-678 and :706-737: (cul_level, cf) *)
Fixpoint ac_coefs (n : nat) (rc cul_level : Z) (cf : list Z) : P (Z * list Z) :=
  match n with
  | O => Stop
  | S n =>
    let* sign := read C_equi 1 in
    lift* rc_tok := rd_at cf rc in
    let rc_tok := u32 rc_tok in
    let* td := dequant rc (if Z.shiftl 15 11 <=? rc_tok then 15 else Z.shiftr rc_tok 11) (snd (e_dq e)) sign in
    let (tok, dq) := td in
    let cul_level := u32 (cul_level + tok) in
    lift* cf := wr_at cf rc (to_coef (if sign =? 1 then - dq else dq)) in
    let rc := Z.land rc_tok 0x3ff in
    if rc =? 0 then Ret (cul_level, cf) else ac_coefs n rc cul_level cf
  end.

(** :609-738: ( *res_ctx, cf) *)
Definition residual (dc_tok rc : Z) (cf : list Z) : P (Z * list Z) :=
  let* r :=
    if dc_tok =? 0 then
      let* r := ac_coefs (length cf) rc 0 cf in
      let (cul_level, cf) := r in Ret (cul_level, Z.shiftl 1 6, cf)
    else
      lift* dc_sign_ctx := get_dc_sign_ctx (e_tx e) (e_a e) (e_l e) in
      let* dc_sign := read (C_dc_sign chroma dc_sign_ctx) 1 in
      let dc_sign_level := Z.land (dc_sign - 1) (Z.shiftl 2 6) in
      let* td := dequant 0 dc_tok (fst (e_dq e)) dc_sign in
      let (tok, dq) := td in
      let cul_level := tok in
      lift* cf := wr_at cf 0 (to_coef (if dc_sign =? 1 then - dq else dq)) in
      if rc =? 0 then Ret (cul_level, dc_sign_level, cf)
      else let* r := ac_coefs (length cf) rc cul_level cf in
           let (cul_level, cf) := r in Ret (cul_level, dc_sign_level, cf) in
  let '(cul_level, dc_sign_level, cf) := r in
  Ret (Z.lor (Z.min cul_level 63) dc_sign_level, cf).
End RESIDUAL.

(** the result: the returned eob, *txtp, *res_ctx and cf *)
Definition decode_coefs (txtp : Z) (cf : list Z) : P (Z * Z * Z * list Z) :=
  lift* t_dim := rd_at txfm_dimensions (e_tx e) in
  lift* ctx := rd_at tx_ctx (e_tx e) in
  lift* sctx := get_skip_ctx t_dim (e_bs e) (e_a e) (e_l e) (chroma =? 1) (e_layout e) in
  let* all_skip := read (C_skip ctx sctx) 1 in
  if all_skip =? 1 then Ret (-1, b2z (e_lossless e) * WHT_WHT, 0x40, cf)
  else
    let* txtp := read_txtp txtp in
    let slw := Z.min (ti_lw t_dim) TX_32X32 in let slh := Z.min (ti_lh t_dim) TX_32X32 in
    lift* tx_class := rd_at tx_type_class txtp in
    let* eob := read_eob (slw + slh) ctx (match tx_class with TX_CLASS_2D => 0 | _ => 1 end) in
    let* t := read_toks txtp eob cf in
    let '(dc_tok, rc, cf) := t in
    let qm := if txtp <? IDTX then e_qm e else None in
    let* r := residual qm (Z.max 0 (ctx - 2)) dc_tok rc cf in
    let (res_ctx, cf) := r in
    Ret (eob, txtp, res_ctx, cf).
End DECODE.

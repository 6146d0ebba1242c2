(** The two-dimensional inverse transforms: /repo/src/itx_tmpl.c and the tables
    they use (itx_1d.c:1019-1060, scan.c:282-375, tables.c:129-168).

    Simplifications: the destination is the [h] rows of [w] pixels of the
    block; the temporary array [tmp[64 * 64]] is kept as its rows, row [y]
    being [tmp[y * w .. y * w + w - 1]] (the 1-D functions only touch the
    elements [c[k * stride]], see Lang.v), with elements never written kept as
    uninitialised. *)
From Coq Require Import ZArith List Bool.
From Verif.Base Require Import CInt.
From Verif.Itx Require Import Lang Txfm1d ScanTables.
Import ListNotations.
Open Scope Z_scope.
Open Scope outcome_scope.

(** ** Tables *)

(** levels.h:62-78 enum RectTxfmSize. *)
Definition TX_4X4 := 0. Definition TX_8X8 := 1. Definition TX_16X16 := 2.
Definition TX_32X32 := 3. Definition TX_64X64 := 4.
Definition RTX_4X8 := 5. Definition RTX_8X4 := 6. Definition RTX_8X16 := 7.
Definition RTX_16X8 := 8. Definition RTX_16X32 := 9. Definition RTX_32X16 := 10.
Definition RTX_32X64 := 11. Definition RTX_64X32 := 12. Definition RTX_4X16 := 13.
Definition RTX_16X4 := 14. Definition RTX_8X32 := 15. Definition RTX_32X8 := 16.
Definition RTX_16X64 := 17. Definition RTX_64X16 := 18.

(** tables.c:129-168 dav1d_txfm_dimensions: w, h (in units of 4), lw, lh. *)
Record txinfo := { ti_w : Z; ti_h : Z; ti_lw : Z; ti_lh : Z }.
Definition ti (w h lw lh : Z) : txinfo := {| ti_w := w; ti_h := h; ti_lw := lw; ti_lh := lh |}.
Definition txfm_dimensions : list txinfo :=
  [ ti 1 1 0 0; ti 2 2 1 1; ti 4 4 2 2; ti 8 8 3 3; ti 16 16 4 4;
    ti 1 2 0 1; ti 2 1 1 0; ti 2 4 1 2; ti 4 2 2 1; ti 4 8 2 3; ti 8 4 3 2;
    ti 8 16 3 4; ti 16 8 4 3; ti 1 4 0 2; ti 4 1 2 0; ti 2 8 1 3; ti 8 2 3 1;
    ti 4 16 2 4; ti 16 4 4 2 ].

(** levels.h:80-100 enum TxfmType. *)
Definition DCT_DCT := 0. Definition ADST_DCT := 1. Definition DCT_ADST := 2. Definition ADST_ADST := 3.
Definition FLIPADST_DCT := 4. Definition DCT_FLIPADST := 5. Definition FLIPADST_FLIPADST := 6.
Definition ADST_FLIPADST := 7. Definition FLIPADST_ADST := 8. Definition IDTX := 9.
Definition V_DCT := 10. Definition H_DCT := 11. Definition V_ADST := 12. Definition H_ADST := 13.
Definition V_FLIPADST := 14. Definition H_FLIPADST := 15. Definition WHT_WHT := 16.

(** itx_1d.h:34-40 enum Tx1dType and itx_1d.c:1043-1060 dav1d_tx1d_types. *)
Inductive tx1d := DCT | ADST | IDENTITY | FLIPADST.
Definition tx1d_types : list (tx1d * tx1d) :=
  [ (DCT, DCT); (ADST, DCT); (DCT, ADST); (ADST, ADST); (FLIPADST, DCT); (DCT, FLIPADST);
    (FLIPADST, FLIPADST); (ADST, FLIPADST); (FLIPADST, ADST); (IDENTITY, IDENTITY);
    (DCT, IDENTITY); (IDENTITY, DCT); (ADST, IDENTITY); (IDENTITY, ADST);
    (FLIPADST, IDENTITY); (IDENTITY, FLIPADST) ].

(** itx_1d.c:1019-1041 dav1d_tx1d_fns; the entries left out are null. *)
Definition tx1d_fns (l : Z) (t : tx1d) : option (list block) :=
  match l, t with
  | 0, DCT => Some inv_dct4
  | 0, ADST => Some (inv_adst adst4_body)
  | 0, FLIPADST => Some (inv_flipadst 4 adst4_body)
  | 0, IDENTITY => Some inv_identity4
  | 1, DCT => Some inv_dct8
  | 1, ADST => Some (inv_adst adst8_body)
  | 1, FLIPADST => Some (inv_flipadst 8 adst8_body)
  | 1, IDENTITY => Some inv_identity8
  | 2, DCT => Some inv_dct16
  | 2, ADST => Some (inv_adst adst16_body)
  | 2, FLIPADST => Some (inv_flipadst 16 adst16_body)
  | 2, IDENTITY => Some inv_identity16
  | 3, DCT => Some inv_dct32
  | 3, IDENTITY => Some inv_identity32
  | 4, DCT => Some inv_dct64
  | _, _ => None
  end.
Definition tx1d_eqb (a b : tx1d) : bool :=
  match a, b with
  | DCT, DCT | ADST, ADST | IDENTITY, IDENTITY | FLIPADST, FLIPADST => true
  | _, _ => false
  end.

(** scan.c:282-302 dav1d_scans. *)
Definition scans : list (list Z) :=
  [ scan_4x4; scan_8x8; scan_16x16; scan_32x32; scan_32x32; scan_4x8; scan_8x4; scan_8x16; scan_16x8;
    scan_16x32; scan_32x16; scan_32x32; scan_32x32; scan_4x16; scan_16x4; scan_8x32; scan_32x8;
    scan_16x32; scan_32x16 ].

(** scan.c:319-331 init_tbl: the running maximum of [rc & (h - 1)]. *)
Fixpoint init_tbl_from (max_col h : Z) (scan : list Z) : list Z :=
  match scan with
  | [] => []
  | rc :: scan =>
      let rcx := Z.land rc (h - 1) in
      let max_col := Z.max max_col rcx in
      max_col :: init_tbl_from max_col h scan
  end.
Definition init_tbl (scan : list Z) (w h : Z) : list Z :=
  init_tbl_from 0 h (firstn (Z.to_nat (w * h)) scan).

(** scan.c:333-375 dav1d_last_nonzero_col_from_eob. *)
Definition last_nonzero_col_from_eob : list (list Z) :=
  [ init_tbl scan_4x4 4 4; init_tbl scan_8x8 8 8; init_tbl scan_16x16 16 16; init_tbl scan_32x32 32 32;
    init_tbl scan_32x32 32 32;
    init_tbl scan_4x8 4 8; init_tbl scan_8x4 8 4; init_tbl scan_8x16 8 16; init_tbl scan_16x8 16 8;
    init_tbl scan_16x32 16 32; init_tbl scan_32x16 32 16;
    init_tbl scan_32x32 32 32; init_tbl scan_32x32 32 32;
    init_tbl scan_4x16 4 16; init_tbl scan_16x4 16 4; init_tbl scan_8x32 8 32; init_tbl scan_32x8 32 8;
    init_tbl scan_16x32 16 32; init_tbl scan_32x16 32 16 ].

(** ** inv_txfm_add_c *)

Fixpoint omap {A B} (f : A -> outcome B) (l : list A) : outcome (list B) :=
  match l with
  | [] => Ok []
  | a :: l => let! b := f a in let! r := omap f l in Ok (b :: r)
  end.
Definition zseq (n : Z) : list Z := map Z.of_nat (seq 0 (Z.to_nat n)).
Definition ck (v : Z) : outcome Z := if fits_int v then Ok v else Undef.

(** [bd8]: the 8 bit build of the template ([BITDEPTH == 8]); otherwise
    [bitdepth_max] is the run-time parameter. *)
Definition iclip_pixel (bd8 : bool) (bitdepth_max v : Z) : Z :=
  if bd8 then iclip_u8 v else iclip v 0 bitdepth_max.

(** (a * 181 + 128) >> 8 *)
Definition mul181 (a : Z) : outcome Z :=
  let! p := ck (a * 181) in let! q := ck (p + 128) in Ok (Z.shiftr q 8).

(** itx_tmpl.c:82-88 the clipping bounds. *)
Definition row_clip_min (bd8 : bool) (bitdepth_max : Z) : Z :=
  if bd8 then -32768 else s32 (u32 (Z.shiftl (u32 (Z.lnot bitdepth_max)) 7)).
Definition col_clip_min (bd8 : bool) (bitdepth_max : Z) : Z :=
  if bd8 then -32768 else s32 (u32 (Z.shiftl (u32 (Z.lnot bitdepth_max)) 5)).

(** itx_tmpl.c:59-70 the block with only a DC coefficient. *)
Definition dc_only (bd8 : bool) (bitdepth_max : Z) (dst : list (list Z)) (coeff : list Z)
    (is_rect2 : bool) (shift : Z) : outcome (list (list Z) * list Z) :=
  let rnd := Z.shiftr (Z.shiftl 1 shift) 1 in
  let! dc := rd_at coeff 0 in
  let! coeff := wr_at coeff 0 0 in
  let! dc := if is_rect2 then mul181 dc else Ok dc in
  let! dc := mul181 dc in
  let! dc := ck (dc + rnd) in
  let dc := Z.shiftr dc shift in
  let! p := ck (dc * 181) in
  let! p := ck (p + 128) in
  let! p := ck (p + 2048) in
  let dc := Z.shiftr p 12 in
  let! dst := omap (omap (fun px => let! v := ck (px + dc) in Ok (iclip_pixel bd8 bitdepth_max v))) dst in
  Ok (dst, coeff).

(** itx_tmpl.c:92-101 last_nonzero_col. *)
Definition last_nonzero_col (tx : Z) (t_dim : txinfo) (first_1d second_1d : tx1d) (eob sh : Z) : outcome Z :=
  if tx1d_eqb second_1d IDENTITY && negb (tx1d_eqb first_1d IDENTITY) then
    Ok (Z.min (sh - 1) eob)
  else if tx1d_eqb first_1d IDENTITY && negb (tx1d_eqb second_1d IDENTITY) then
    Ok (Z.shiftr eob (ti_lw t_dim + 2))
  else
    let! tbl := rd_at last_nonzero_col_from_eob tx in rd_at tbl eob.

(** itx_tmpl.c:72-121 everything else. *)
Definition elt (l : list (option Z)) (i : Z) : outcome Z := rd_init l i.

Definition general (bd8 : bool) (bitdepth_max : Z) (dst : list (list Z)) (coeff : list Z)
    (eob tx : Z) (shift : Z) (txtp : Z) : outcome (list (list Z) * list Z) :=
  let! t_dim := rd_at txfm_dimensions tx in
  let w := 4 * ti_w t_dim in let h := 4 * ti_h t_dim in
  let is_rect2 := (w * 2 =? h) || (h * 2 =? w) in
  let rnd := Z.shiftr (Z.shiftl 1 shift) 1 in
  let! txtps := rd_at tx1d_types txtp in
  let first_1d := fst txtps in let second_1d := snd txtps in
  match tx1d_fns (ti_lw t_dim) first_1d, tx1d_fns (ti_lh t_dim) second_1d with
  | Some first_1d_fn, Some second_1d_fn =>
      let sh := Z.min h 32 in let sw := Z.min w 32 in
      let row_min := row_clip_min bd8 bitdepth_max in
      let col_min := col_clip_min bd8 bitdepth_max in
      let row_max := Z.lnot row_min in
      let col_max := Z.lnot col_min in
      let! lnc := last_nonzero_col tx t_dim first_1d second_1d eob sh in
      guard! lnc <? sh in
      (* rows *)
      let! rows := omap (fun y =>
          let! v := omap (fun x =>
              let! cf := rd_at coeff (y + x * sh) in
              if is_rect2 then mul181 cf else Ok cf) (zseq sw) in
          run_c row_min row_max first_1d_fn (map Some v ++ repeat None (Z.to_nat (w - sw))))
        (zseq (lnc + 1)) in
      let rows := rows ++ repeat (repeat (Some 0) (Z.to_nat w)) (Z.to_nat (sh - lnc - 1)) in
      (* memset(coeff, 0, sizeof( *coeff) * sw * sh) *)
      guard! sw * sh <=? zlen coeff in
      let coeff := repeat 0 (Z.to_nat (sw * sh)) ++ skipn (Z.to_nat (sw * sh)) coeff in
      (* rounding and clipping *)
      let! rows := omap (fun row => omap (fun x =>
          let! v := elt row x in
          let! v := ck (v + rnd) in
          Ok (iclip (Z.shiftr v shift) col_min col_max)) (zseq w)) rows in
      (* columns *)
      let! cols := omap (fun x =>
          let! v := omap (fun row => rd_at row x) rows in
          run_c col_min col_max second_1d_fn (map Some v ++ repeat None (Z.to_nat (h - sh)))) (zseq w) in
      (* output *)
      let! dst := omap (fun y =>
          let! drow := rd_at dst y in
          omap (fun x =>
            let! px := rd_at drow x in
            let! col := rd_at cols x in
            let! c := elt col y in
            let! c := ck (c + 8) in
            let! v := ck (px + Z.shiftr c 4) in
            Ok (iclip_pixel bd8 bitdepth_max v)) (zseq w)) (zseq h) in
      Ok (dst, coeff)
  | _, _ => Undef
  end.

(** itx_tmpl.c:42-122 *)
Definition inv_txfm_add (bd8 : bool) (bitdepth_max : Z) (dst : list (list Z)) (coeff : list Z)
    (eob tx shift txtp : Z) : outcome (list (list Z) * list Z) :=
  let! t_dim := rd_at txfm_dimensions tx in
  let w := 4 * ti_w t_dim in let h := 4 * ti_h t_dim in
  let has_dconly := b2z (txtp =? DCT_DCT) in
  guard! (4 <=? w) && (w <=? 64) && (4 <=? h) && (h <=? 64) && (0 <=? eob) in
  let is_rect2 := (w * 2 =? h) || (h * 2 =? w) in
  if eob <? has_dconly then dc_only bd8 bitdepth_max dst coeff is_rect2 shift
  else general bd8 bitdepth_max dst coeff eob tx shift txtp.

(** itx_tmpl.c:183-204 inv_txfm_add_wht_wht_4x4_c. *)
Definition inv_txfm_add_wht (bd8 : bool) (bitdepth_max : Z) (dst : list (list Z)) (coeff : list Z)
    : outcome (list (list Z) * list Z) :=
  let! rows := omap (fun y =>
      let! v := omap (fun x => let! cf := rd_at coeff (y + x * 4) in Ok (Z.shiftr cf 2)) (zseq 4) in
      run_c 0 0 inv_wht4 (map Some v)) (zseq 4) in
  guard! 16 <=? zlen coeff in
  let coeff := repeat 0 16 ++ skipn 16 coeff in
  let! cols := omap (fun x =>
      let! v := omap (fun row => elt row x) rows in
      run_c 0 0 inv_wht4 (map Some v)) (zseq 4) in
  let! dst := omap (fun y =>
      let! drow := rd_at dst y in
      omap (fun x =>
        let! px := rd_at drow x in
        let! col := rd_at cols x in
        let! c := elt col y in
        let! v := ck (px + c) in
        Ok (iclip_pixel bd8 bitdepth_max v)) (zseq 4)) (zseq 4) in
  Ok (dst, coeff).

(** ** The function table filled by dav1d_itx_dsp_init (itx_tmpl.c:135-181,
    219-291).  The macros name a function by the transforms of the rows and of
    the columns; the entry of the table for "vertical, horizontal" is the
    function with the two exchanged. *)
Definition swapped_type (txtp : Z) : Z :=
  nth (Z.to_nat txtp)
    [ DCT_DCT; DCT_ADST; ADST_DCT; ADST_ADST; DCT_FLIPADST; FLIPADST_DCT; FLIPADST_FLIPADST;
      FLIPADST_ADST; ADST_FLIPADST; IDTX; H_DCT; V_DCT; H_ADST; V_ADST; H_FLIPADST; V_FLIPADST ] 0.

(** The classes of transform types instantiated: inv_txfm_fn84, 16, 32, 64. *)
Inductive txset := Fn84 | Fn16 | Fn32 | Fn64.
Definition in_set (s : txset) (txtp : Z) : bool :=
  match s with
  | Fn84 => (0 <=? txtp) && (txtp <=? H_FLIPADST)
  | Fn16 => (0 <=? txtp) && (txtp <=? H_DCT)
  | Fn32 => (txtp =? DCT_DCT) || (txtp =? IDTX)
  | Fn64 => txtp =? DCT_DCT
  end.
(** itx_tmpl.c:161-181 the size, its set, and its shift. *)
Definition tx_fns : list (txset * Z) :=
  [ (Fn84, 0); (Fn84, 1); (Fn16, 2); (Fn32, 2); (Fn64, 2);
    (Fn84, 0); (Fn84, 0); (Fn84, 1); (Fn84, 1); (Fn32, 1); (Fn32, 1);
    (Fn64, 1); (Fn64, 1); (Fn84, 1); (Fn84, 1); (Fn32, 2); (Fn32, 2);
    (Fn64, 2); (Fn64, 2) ].

(** c->itxfm_add[tx][txtp]; calling an entry that is not set is undefined. *)
Definition itxfm_add (bd8 : bool) (bitdepth_max : Z) (tx txtp : Z) (dst : list (list Z)) (coeff : list Z)
    (eob : Z) : outcome (list (list Z) * list Z) :=
  if txtp =? WHT_WHT then
    guard! tx =? TX_4X4 in inv_txfm_add_wht bd8 bitdepth_max dst coeff
  else
    let! e := rd_at tx_fns tx in
    guard! in_set (fst e) txtp in
    inv_txfm_add bd8 bitdepth_max dst coeff eob tx (snd e) (swapped_type txtp).

(** ** Where the coefficient of scan index [i] goes.
    tables.c:305-323 dav1d_tx_type_class; recon_tmpl.c:441-447, 470-476 and
    529-560 (the position computed by DECODE_COEFS_CLASS). *)
Inductive txclass := TX_CLASS_2D | TX_CLASS_H | TX_CLASS_V.
Definition tx_type_class : list txclass :=
  [ TX_CLASS_2D; TX_CLASS_2D; TX_CLASS_2D; TX_CLASS_2D; TX_CLASS_2D; TX_CLASS_2D; TX_CLASS_2D; TX_CLASS_2D;
    TX_CLASS_2D; TX_CLASS_2D; TX_CLASS_V; TX_CLASS_H; TX_CLASS_V; TX_CLASS_H; TX_CLASS_V; TX_CLASS_H;
    TX_CLASS_2D ].
Definition coef_rc (tx txtp i : Z) : outcome Z :=
  let! t_dim := rd_at txfm_dimensions tx in
  let! tx_class := rd_at tx_type_class txtp in
  let slw := Z.min (ti_lw t_dim) TX_32X32 in let slh := Z.min (ti_lh t_dim) TX_32X32 in
  match tx_class with
  | TX_CLASS_2D => let! scan := rd_at scans tx in rd_at scan i
  | TX_CLASS_H => Ok i
  | TX_CLASS_V =>
      let shift := slw + 2 in let shift2 := slh + 2 in
      let mask := Z.shiftl 4 slw - 1 in
      let x := Z.land i mask in let y := Z.shiftr i shift in
      Ok (Z.lor (Z.shiftl x shift2) y)
  end.

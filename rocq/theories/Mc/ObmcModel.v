(** Blending of predictions: the blend functions of src/mc_tmpl.c, overlapped motion compensation (obmc(),
    src/recon_tmpl.c:1055-1115) and the inter-intra blend of dav1d_recon_b_inter. *)
From Coq Require Import ZArith List Bool.
From Verif Require Import Base.CInt Base.Loop Mc.Model Mc.MaskModel.
Import ListNotations.
Open Scope Z_scope.
Local Open Scope outcome_scope.

(** dav1d_obmc_masks: src/tables.c:808-822 *)
Definition obmc_masks : list Z :=
  [ 0; 0;
    19; 0;
    25; 14; 5; 0;
    28; 22; 16; 11; 7; 3; 0; 0;
    30; 27; 24; 21; 18; 15; 12; 10; 8; 6; 4; 3; 0; 0; 0; 0;
    31; 29; 28; 26; 24; 23; 21; 20; 19; 17; 16; 14; 13; 12; 11; 9;
    8; 7; 6; 5; 4; 4; 3; 2; 0; 0; 0; 0; 0; 0; 0; 0 ].
(** dav1d_block_dimensions: src/tables.c:104-127 *)
Definition block_dimensions : list (Z * Z * Z * Z) :=
  [ (32, 32, 5, 5); (32, 16, 5, 4); (16, 32, 4, 5); (16, 16, 4, 4); (16, 8, 4, 3); (16, 4, 4, 2); (8, 16, 3, 4); (8, 8, 3, 3);
    (8, 4, 3, 2); (8, 2, 3, 1); (4, 16, 2, 4); (4, 8, 2, 3); (4, 4, 2, 2); (4, 2, 2, 1); (4, 1, 2, 0); (2, 8, 1, 3); (2, 4, 1, 2);
    (2, 2, 1, 1); (2, 1, 1, 0); (1, 4, 0, 2); (1, 2, 0, 1); (1, 1, 0, 0) ].

Section Blend.
Variables (bd rows stride : Z).
(** storing to a pixel *)
Definition px (v : Z) : Z := if bd =? 8 then u8 v else u16 v.
(** blend_px, blend_c, blend_v_c, blend_h_c: src/mc_tmpl.c:641-681; the destination is at (y0, x0) *)
Definition blend_px (a b m : Z) : Z := Z.shiftr (a * (64 - m) + b * m + 32) 6.
Definition blend1 (y0 x0 : Z) (tmp : Z -> Z -> outcome Z) (m y x : Z) (d : plane) : outcome plane :=
  let! a := rd2 rows stride d (y0 + y) (x0 + x) in let! b := tmp y x in
  wr2 rows stride d (y0 + y) (x0 + x) (px (blend_px a b m)).
Definition blend_c (y0 x0 : Z) (tmp : Z -> Z -> outcome Z) (w h : Z) (mask : Z -> outcome Z) (d : plane) : outcome plane :=
  guard! 1 <=? h in
  for_ 0 h (fun y d => for_ 0 w (fun x d => let! m := mask (y * w + x) in blend1 y0 x0 tmp m y x d) d) d.
Definition blend_v_c (y0 x0 : Z) (tmp : Z -> Z -> outcome Z) (w h : Z) (d : plane) : outcome plane :=
  guard! 1 <=? h in
  for_ 0 h (fun y d => for_ 0 (Z.shiftr (w * 3) 2) (fun x d => let! m := rd_at obmc_masks (w + x) in blend1 y0 x0 tmp m y x d) d) d.
Definition blend_h_c (y0 x0 : Z) (tmp : Z -> Z -> outcome Z) (w h0 : Z) (d : plane) : outcome plane :=
  let h := Z.shiftr (h0 * 3) 2 in
  guard! 1 <=? h in
  for_ 0 h (fun y d => let! m := rd_at obmc_masks (h0 + y) in for_ 0 w (fun x d => blend1 y0 x0 tmp m y x d) d) d.
End Blend.

(** * obmc *)
Record refmvs_block : Type := { r_bs : Z; r_ref0 : Z; r_mvx : Z; r_mvy : Z }.
Record obmc_in : Type := {
  o_f : Z -> mc_in;                               (* by the number of the reference; the current frame is the same in all *)
  o_ref : Z -> Z -> Z -> Z -> outcome Z;          (* f->refp[].p.data: reference, plane, row, column *)
  o_r : Z -> Z -> outcome refmvs_block;           (* t->rt.r[][] *)
  o_a : Z -> Z -> outcome Z;                      (* t->a->filter[][] *)
  o_l : Z -> Z -> outcome Z;                      (* t->l.filter[][] *)
  o_layout : Z; o_bd : Z; o_bx : Z; o_by : Z; o_row_start : Z; o_col_start : Z }.
Definition LAP_SIZE := 128 * 32.
Section Obmc.
Variables (k : obmc_in) (rows stride y0 x0 : Z) (b_dim : Z * Z * Z * Z) (pl bx4 by4 w4 h4 : Z).
Let ss_ver := b2z (ss_ver_of (o_layout k) pl).
Let ss_hor := b2z (ss_hor_of (o_layout k) pl).
Let h_mul := Z.shiftr 4 ss_hor.
Let v_mul := Z.shiftr 4 ss_ver.
Let bw4 := fst (fst (fst b_dim)).
Let bh4 := snd (fst (fst b_dim)).
Let lw := snd (fst b_dim).
Let lh := snd b_dim.
Definition r_row (y : Z) : Z := Z.land (o_by k) 31 + 5 + y.
Definition filter32 (f : Z -> Z -> outcome Z) (i : Z) : outcome Z :=
  guard! (0 <=? i) && (i <? 32) in
  let! f1 := f 1 i in let! f0 := f 0 i in let! row := rd_at filter_2d_tbl f1 in rd_at row f0.
Fixpoint obmc_above (fuel : nat) (i x : Z) (d : plane) : outcome plane :=
  match fuel with
  | O => Undef
  | S fuel =>
    if (x <? w4) && (i <? Z.min lw 4) then
      let! a_r := o_r k (r_row (-1)) (o_bx k + x + 1) in
      let! a_b_dim := rd_at block_dimensions (r_bs a_r) in
      let step4 := iclip (fst (fst (fst a_b_dim))) 2 16 in
      if 0 <? r_ref0 a_r then
        let ow4 := Z.min step4 bw4 in
        let oh4 := Z.shiftr (Z.min bh4 16) 1 in
        let w := ow4 * h_mul in
        let! filter := filter32 (o_a k) (bx4 + x + 1) in
        let! lap := mc (o_f k (r_ref0 a_r - 1)) true (st_px (LAP_SIZE / w) w 0 0) plane0 ow4 (Z.shiftr (oh4 * 3 + 3) 2)
          (o_bx k + x) (o_by k) pl (r_mvx a_r) (r_mvy a_r) (o_ref k (r_ref0 a_r - 1) pl) filter in
        let! d := blend_h_c (o_bd k) rows stride y0 (x0 + x * h_mul) (rd2 (LAP_SIZE / w) w lap) (h_mul * ow4) (v_mul * oh4) d in
        obmc_above fuel (i + 1) (x + step4) d
      else obmc_above fuel i (x + step4) d
    else Ok d
  end.
Fixpoint obmc_left (fuel : nat) (i y : Z) (d : plane) : outcome plane :=
  match fuel with
  | O => Undef
  | S fuel =>
    if (y <? h4) && (i <? Z.min lh 4) then
      let! l_r := o_r k (r_row (y + 1)) (o_bx k - 1) in
      let! l_b_dim := rd_at block_dimensions (r_bs l_r) in
      let step4 := iclip (snd (fst (fst l_b_dim))) 2 16 in
      if 0 <? r_ref0 l_r then
        let ow4 := Z.shiftr (Z.min bw4 16) 1 in
        let oh4 := Z.min step4 bh4 in
        let w := h_mul * ow4 in
        let! filter := filter32 (o_l k) (by4 + y + 1) in
        let! lap := mc (o_f k (r_ref0 l_r - 1)) true (st_px (LAP_SIZE / w) w 0 0) plane0 ow4 oh4
          (o_bx k) (o_by k + y) pl (r_mvx l_r) (r_mvy l_r) (o_ref k (r_ref0 l_r - 1) pl) filter in
        let! d := blend_v_c (o_bd k) rows stride (y0 + y * v_mul) x0 (rd2 (LAP_SIZE / w) w lap) w (v_mul * oh4) d in
        obmc_left fuel (i + 1) (y + step4) d
      else obmc_left fuel i (y + step4) d
    else Ok d
  end.
(** the loops advance by at least 2 each time *)
Definition obmc (d : plane) : outcome plane :=
  guard! (Z.land (o_bx k) 1 =? 0) && (Z.land (o_by k) 1 =? 0) in
  let! d := if (o_row_start k <? o_by k) && ((pl =? 0) || (16 <=? bw4 * h_mul + bh4 * v_mul)) then obmc_above 17 0 0 d else Ok d in
  if o_col_start k <? o_bx k then obmc_left 17 0 0 d else Ok d.
End Obmc.

(** The inter-intra blend: src/recon_tmpl.c:1641-1642, 1758-1759, with the intra prediction in [tmp] *)
Definition interintra_blend (m : masks) (bd rows stride y0 x0 l bs : Z) (t : ii_type) (tmp : Z -> Z -> outcome Z) (w h : Z) (d : plane) : outcome plane :=
  blend_c bd rows stride y0 x0 tmp w h (ii_mask m l bs t) d.

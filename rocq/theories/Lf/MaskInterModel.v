(** Model of the luma masks of an inter block in dav1d: decomp_tx and mask_edges_inter of src/lf_mask.c, and the luma
    part of dav1d_create_lf_mask_inter.

    Simplifications, besides those of Lf/MaskModel.v:
    - txa[e][s] are four arrays of 32x32 cells; a pointer into txa is the row and column it points to, and a write has
      to stay inside of the 32 rows and 32 columns;
    - the rows that decomp_tx writes are written together as a rectangle;
    - t_dim->sub is written with the logarithms of the sizes: the longer side is halved, or both when they are equal;
    - a loop over x = 0; x < w4; x += w counts the steps. *)
From Coq Require Import ZArith List Bool.
From Verif Require Import Base.CInt Base.Loop Lf.Model Lf.MaskModel.
Import ListNotations.
Open Scope Z_scope.
Local Open Scope outcome_scope.

Definition grid : Type := Z -> Z -> option Z.
Record txa : Type := Txa { tx0 : grid; st0 : grid; tx1 : grid; st1 : grid }.
Definition set_rect (g : grid) (r0 c0 h w b : Z) : outcome grid :=
  guard! (0 <=? r0) && (r0 + h <=? 32) && (0 <=? c0) && (c0 + w <=? 32) in
  Ok (fun r c => if ((c0 <=? c) && (c <? c0 + w)) && ((r0 <=? r) && (r <? r0 + h)) then Some b else g r c).
Definition rd_grid (g : grid) (r c : Z) : outcome Z :=
  guard! (0 <=? r) && (r <? 32) && (0 <=? c) && (c <? 32) in
  match g r c with Some b => Ok b | None => Undef end.
(** lines 66-78 *)
Definition decomp_leaf (lw lh oy ox : Z) (t : txa) : outcome txa :=
  let! g0 := set_rect (tx0 t) oy ox (2 ^ lh) (2 ^ lw) (Z.min 2 lw) in
  let! g1 := set_rect (tx1 t) oy ox (2 ^ lh) (2 ^ lw) (Z.min 2 lh) in
  let! s0 := set_rect (st0 t) oy ox (2 ^ lh) 1 (2 ^ lw) in
  let! s1 := set_rect (st1 t) oy ox 1 (2 ^ lw) (2 ^ lh) in
  Ok (Txa g0 s0 g1 s1).
(** decomp_tx: lines 39-77; [k] is 2 - depth. tx_masks has two elements, and a shift by 32 or more is undefined *)
Fixpoint decomp_tx (k : nat) (tx_masks : Z -> Z) (depth lw lh oy ox y_off x_off : Z) (t : txa) : outcome txa :=
  match k with
  | O => decomp_leaf lw lh oy ox t
  | S k =>
    let! is_split := (if (lw =? 0) && (lh =? 0) then Ok 0
      else guard! (0 <=? depth) && (depth <? 2) && (y_off * 4 + x_off <? 32) in Ok (Z.land (Z.shiftr (tx_masks depth) (y_off * 4 + x_off)) 1)) in
    if negb (is_split =? 0) then
      let sw := if lw >=? lh then lw - 1 else lw in let sh := if lh >=? lw then lh - 1 else lh in
      let htw4 := Z.shiftr (2 ^ lw) 1 in let hth4 := Z.shiftr (2 ^ lh) 1 in
      let! t := decomp_tx k tx_masks (depth + 1) sw sh oy ox (y_off * 2 + 0) (x_off * 2 + 0) t in
      let! t := (if 2 ^ lw >=? 2 ^ lh then decomp_tx k tx_masks (depth + 1) sw sh oy (ox + htw4) (y_off * 2 + 0) (x_off * 2 + 1) t else Ok t) in
      if 2 ^ lh >=? 2 ^ lw then
        let! t := decomp_tx k tx_masks (depth + 1) sw sh (oy + hth4) ox (y_off * 2 + 1) (x_off * 2 + 0) t in
        if 2 ^ lw >=? 2 ^ lh then decomp_tx k tx_masks (depth + 1) sw sh (oy + hth4) (ox + htw4) (y_off * 2 + 1) (x_off * 2 + 1) t else Ok t
      else Ok t
    else decomp_leaf lw lh oy ox t
  end.
(** lines 90-94 *)
Definition decomp_block (tx_masks : Z -> Z) (w4 h4 lw lh : Z) (t : txa) : outcome txa :=
  for_ 0 ((h4 + 2 ^ lh - 1) / 2 ^ lh) (fun y_off t => for_ 0 ((w4 + 2 ^ lw - 1) / 2 ^ lw) (fun x_off t =>
    decomp_tx 2 tx_masks 0 lw lh (y_off * 2 ^ lh) (x_off * 2 ^ lw) y_off x_off t) t) t.
(** lines 97-102 and 105-109: [tx y] is the size at the first column (row) *)
Definition first_edge (x p0 len nctx : Z) (tx : Z -> outcome Z) (ctx : arr) (m : masks) : outcome masks :=
  for_ 0 len (fun y m =>
    let mask := u32 (Z.shiftl 1 (p0 + y)) in
    let sidx := b2z (mask >=? 0x10000) in
    let smask := Z.shiftr mask (Z.shiftl sidx 4) in
    let! a := tx y in
    let! v := rd1 nctx ctx y in
    or_at 3 m x (Z.min a v) sidx smask) m.
(** lines 118-123 and 135-140: the loop over x, from [x], with at most [k] steps *)
Fixpoint walk (k : nat) (x0 w sidx smask : Z) (tx st : Z -> outcome Z) (x ltx : Z) (m : masks) : outcome masks :=
  if x <? w then
    match k with
    | O => Undef
    | S k =>
      let! rtx := tx x in
      let! m := or_at 3 m (x0 + x) (Z.min rtx ltx) sidx smask in
      let! step := st x in
      walk k x0 w sidx smask tx st (x + step) rtx m
    end
  else Ok m.
(** lines 113-124 and 129-141 *)
Definition inner_walk (x0 w p0 len : Z) (tx st : Z -> Z -> outcome Z) (m : masks) : outcome masks :=
  for_ 0 len (fun y m =>
    let mask := u32 (Z.shiftl 1 (p0 + y)) in
    let sidx := b2z (mask >=? 0x10000) in
    let smask := Z.shiftr mask (Z.shiftl sidx 4) in
    let! ltx := tx y 0 in
    let! step := st y 0 in
    walk 32 x0 w sidx smask (tx y) (st y) step ltx m) m.
(** mask_edges_inter: lines 79-144 *)
Definition mask_edges_inter (by4 bx4 w4 h4 : Z) (skip : bool) (lw lh : Z) (tx_masks : Z -> Z) (na nl : Z) (ms : masks * masks) (a l : arr) : outcome (masks * masks * arr * arr) :=
  let g : grid := fun _ _ => None in
  let! t := decomp_block tx_masks w4 h4 lw lh (Txa g g g g) in
  let! m0 := first_edge bx4 by4 h4 nl (fun y => rd_grid (tx0 t) y 0) l (fst ms) in
  let! m1 := first_edge by4 bx4 w4 na (fun x => rd_grid (tx1 t) 0 x) a (snd ms) in
  let! ms := (if negb skip then
      let! m0 := inner_walk bx4 w4 by4 h4 (fun y x => rd_grid (tx0 t) y x) (fun y x => rd_grid (st0 t) y x) m0 in
      let! m1 := inner_walk by4 h4 bx4 w4 (fun x y => rd_grid (tx1 t) y x) (fun x y => rd_grid (st1 t) y x) m1 in
      Ok (m0, m1)
    else Ok (m0, m1)) in
  let! l := for_ 0 h4 (fun y l => let! v := rd_grid (tx0 t) y (w4 - 1) in wr1 nl l y v) l in
  let! a := for_ 0 w4 (fun x a => let! v := rd_grid (tx1 t) (h4 - 1) x in wr1 na a x v) a in
  Ok (fst ms, snd ms, a, l).
(** The luma part of dav1d_create_lf_mask_inter, lines 336-355 *)
Definition create_luma_inter (nrows stride bx by_ iw ih bw bh : Z) (skip : bool) (lw lh : Z) (tx_masks : Z -> Z) (na nl : Z) (lvl : Z -> Z) (ms : masks * masks) (v : cache) (ay ly : arr) : outcome (masks * masks * cache * arr * arr) :=
  let bw4 := Z.min (iw - bx) bw in let bh4 := Z.min (ih - by_) bh in
  let bx4 := Z.land bx 31 in let by4 := Z.land by_ 31 in
  if negb (bw4 =? 0) && negb (bh4 =? 0) then
    let! v := fill_cache nrows stride by_ bx bh4 bw4 0 (lvl 0) 1 (lvl 1) v in
    let! r := mask_edges_inter by4 bx4 bw4 bh4 skip lw lh tx_masks na nl ms ay ly in
    let '(m0, m1, a, l) := r in Ok (m0, m1, v, a, l)
  else Ok (fst ms, snd ms, v, ay, ly).

(** Model of the masks of the loop filter in dav1d: src/lf_mask.c (mask_edges_intra, mask_edges_chroma,
    dav1d_create_lf_mask_intra, the parts of dav1d_create_lf_mask_inter that are the same) and the masks at tile
    boundaries of src/lf_apply_tmpl.c.

    Simplifications:
    - [masks] is uint16_t[32][3][2] ([32][2][2] for chroma) of one direction; every access checks the three indices;
    - a running mask that is doubled in a loop is written as a shift by the loop counter;
    - a loop over x = step; x < w; x += step counts the steps;
    - the size of a transform is the logarithm of its width and height in units of four samples;
    - level_cache is an array of b4_stride x rows cells; a pointer into it is the cell it points to;
    - dav1d_memset_likely_pow2 is memset. *)
From Coq Require Import ZArith List Bool.
From Verif Require Import Base.CInt Base.Loop Lf.Model.
Import ListNotations.
Open Scope Z_scope.
Local Open Scope outcome_scope.

(** m[x][i][s] |= v, where the arrays have [n] masks *)
Definition or_at (n : Z) (m : masks) (x i s v : Z) : outcome masks :=
  let! o := rdm n m x i s in
  Ok (fun x' i' s' => if (x' =? x) && (i' =? i) && (s' =? s) then u16 (Z.lor o v) else m x' i' s').
(** lines 157-163 and 166-170, with their copies of lines 213-219 and 222-226 *)
Definition block_edge (n vmax vbits x p0 len c nctx : Z) (ctx : arr) (m : masks) : outcome masks :=
  for_ 0 len (fun y m =>
    let mask := u32 (Z.shiftl 1 (p0 + y)) in
    let sidx := b2z (mask >=? vmax) in
    let smask := Z.shiftr mask (Z.shiftl sidx vbits) in
    let! v := rd1 nctx ctx y in
    or_at n m x (Z.min c v) sidx smask) m.
(** lines 173-180 and 185-193, with their copies of lines 230-237 and 242-249 *)
Definition inner_edges (n vmask x0 w step p0 len c : Z) (m : masks) : outcome masks :=
  let t := u32 (Z.shiftl 1 p0) in
  let inner := u32 (u64 (Z.shiftl t len) - t) in
  let inner1 := Z.land inner (2 ^ vmask - 1) in
  let inner2 := Z.shiftr inner vmask in
  for_ 1 ((w + step - 1) / step) (fun k m =>
    let! m := (if negb (inner1 =? 0) then or_at n m (x0 + k * step) c 0 inner1 else Ok m) in
    if negb (inner2 =? 0) then or_at n m (x0 + k * step) c 1 inner2 else Ok m) m.
(** mask_edges_intra: lines 147-198. The contexts [a] and [l] have [na] and [nl] elements. *)
Definition mask_edges_intra (by4 bx4 w4 h4 lw lh na nl : Z) (ms : masks * masks) (a l : arr) : outcome (masks * masks * arr * arr) :=
  let twl4c := Z.min 2 lw in let thl4c := Z.min 2 lh in
  let! m0 := block_edge 3 0x10000 4 bx4 by4 h4 twl4c nl l (fst ms) in
  let! m1 := block_edge 3 0x10000 4 by4 bx4 w4 thl4c na a (snd ms) in
  let! m0 := inner_edges 3 16 bx4 w4 (2 ^ lw) by4 h4 twl4c m0 in
  let! m1 := inner_edges 3 16 by4 h4 (2 ^ lh) bx4 w4 thl4c m1 in
  let! a := memset1 na a 0 thl4c w4 in
  let! l := memset1 nl l 0 twl4c h4 in
  Ok (m0, m1, a, l).
(** mask_edges_chroma: lines 200-255 *)
Definition mask_edges_chroma (cby4 cbx4 cw4 ch4 : Z) (skip_inter : bool) (lw lh na nl ss_hor ss_ver : Z) (ms : masks * masks) (a l : arr) : outcome (masks * masks * arr * arr) :=
  let twl4c := b2z (negb (lw =? 0)) in let thl4c := b2z (negb (lh =? 0)) in
  let vbits := 4 - ss_ver in let hbits := 4 - ss_hor in
  let vmask := Z.shiftr 16 ss_ver in let hmask := Z.shiftr 16 ss_hor in
  let vmax := Z.shiftl 1 vmask in let hmax := Z.shiftl 1 hmask in
  let! m0 := block_edge 2 vmax vbits cbx4 cby4 ch4 twl4c nl l (fst ms) in
  let! m1 := block_edge 2 hmax hbits cby4 cbx4 cw4 thl4c na a (snd ms) in
  let! ms := (if negb skip_inter then
      let! m0 := inner_edges 2 vmask cbx4 cw4 (2 ^ lw) cby4 ch4 twl4c m0 in
      let! m1 := inner_edges 2 hmask cby4 ch4 (2 ^ lh) cbx4 cw4 thl4c m1 in
      Ok (m0, m1)
    else Ok (m0, m1)) in
  let! a := memset1 na a 0 thl4c cw4 in
  let! l := memset1 nl l 0 twl4c ch4 in
  Ok (fst ms, snd ms, a, l).

(** level_cache[r * b4_stride + c][i] *)
Definition cache : Type := Z -> Z -> Z -> option Z.
Definition set_cache (nrows stride : Z) (v : cache) (r c i b : Z) : outcome cache :=
  guard! (0 <=? r) && (r <? nrows) && (0 <=? c) && (c <? stride) in
  Ok (fun r' c' i' => if (r' =? r) && (c' =? c) && (i' =? i) then Some b else v r' c' i').
(** lines 280-287 and 305-313 *)
Definition fill_cache (nrows stride r0 c0 h w i0 b0 i1 b1 : Z) (v : cache) : outcome cache :=
  for_ 0 h (fun y v => for_ 0 w (fun x v =>
    let! v := set_cache nrows stride v (r0 + y) (c0 + x) i0 b0 in
    set_cache nrows stride v (r0 + y) (c0 + x) i1 b1) v) v.
(** The luma part of dav1d_create_lf_mask_intra, lines 270-290: [bw] x [bh] is the size of the block, [lvl i] is
    filter_level[i][0][0], [ay] and [ly] are the contexts at the block. *)
Definition create_luma_intra (nrows stride bx by_ iw ih bw bh lw lh na nl : Z) (lvl : Z -> Z) (ms : masks * masks) (v : cache) (ay ly : arr) : outcome (masks * masks * cache * arr * arr) :=
  let bw4 := Z.min (iw - bx) bw in let bh4 := Z.min (ih - by_) bh in
  let bx4 := Z.land bx 31 in let by4 := Z.land by_ 31 in
  if negb (bw4 =? 0) && negb (bh4 =? 0) then
    let! v := fill_cache nrows stride by_ bx bh4 bw4 0 (lvl 0) 1 (lvl 1) v in
    let! r := mask_edges_intra by4 bx4 bw4 bh4 lw lh na nl ms ay ly in
    let '(m0, m1, a, l) := r in Ok (m0, m1, v, a, l)
  else Ok (fst ms, snd ms, v, ay, ly).
(** The chroma part, lines 292-319 and 357-383 *)
Definition create_chroma (nrows stride bx by_ iw ih bw bh : Z) (skip : bool) (lw lh ss_hor ss_ver na nl : Z) (lvl : Z -> Z) (ms : masks * masks) (v : cache) (auv luv : arr) : outcome (masks * masks * cache * arr * arr) :=
  let bx4 := Z.land bx 31 in let by4 := Z.land by_ 31 in
  let cbw4 := Z.min (Z.shiftr (iw + ss_hor) ss_hor - Z.shiftr bx ss_hor) (Z.shiftr (bw + ss_hor) ss_hor) in
  let cbh4 := Z.min (Z.shiftr (ih + ss_ver) ss_ver - Z.shiftr by_ ss_ver) (Z.shiftr (bh + ss_ver) ss_ver) in
  if (cbw4 =? 0) || (cbh4 =? 0) then Ok (fst ms, snd ms, v, auv, luv) else
  let cbx4 := Z.shiftr bx4 ss_hor in let cby4 := Z.shiftr by4 ss_ver in
  let! v := fill_cache nrows stride (Z.shiftr by_ ss_ver) (Z.shiftr bx ss_hor) cbh4 cbw4 2 (lvl 2) 3 (lvl 3) v in
  let! r := mask_edges_chroma cby4 cbx4 cbw4 cbh4 skip lw lh na nl ss_hor ss_ver ms auv luv in
  let '(m0, m1, a, l) := r in Ok (m0, m1, v, a, l).

(** * The masks at tile boundaries: src/lf_apply_tmpl.c *)
(** m[x][i][s] &= ~v *)
Definition clear_at (n : Z) (m : masks) (x i s v : Z) : outcome masks :=
  let! o := rdm n m x i s in
  Ok (fun x' i' s' => if (x' =? x) && (i' =? i) && (s' =? s) then Z.land o (Z.lnot v) else m x' i' s').
(** lines 344-353 and 381-390: one element [p] of column (or row) [x]; [lv] is the size on the other side *)
Definition fix_luma (m : masks) (x p lv : Z) : outcome masks :=
  let mask := u32 (Z.shiftl 1 p) in
  let sidx := b2z (mask >=? 0x10000) in
  let smask := Z.shiftr mask (Z.shiftl sidx 4) in
  let! b2 := rdm 3 m x 2 sidx in let! b1 := rdm 3 m x 1 sidx in
  let idx := 2 * b2z (negb (Z.land b2 smask =? 0)) + b2z (negb (Z.land b1 smask =? 0)) in
  let! m := clear_at 3 m x 2 sidx smask in let! m := clear_at 3 m x 1 sidx smask in let! m := clear_at 3 m x 0 sidx smask in
  or_at 3 m x (Z.min idx lv) sidx smask.
(** lines 357-366 and 396-404 *)
Definition fix_chroma (ss : Z) (m : masks) (x p lv : Z) : outcome masks :=
  let mask := u32 (Z.shiftl 1 p) in
  let sidx := b2z (mask >=? Z.shiftl 1 (Z.shiftr 16 ss)) in
  let smask := Z.shiftr mask (Z.shiftl sidx (4 - ss)) in
  let! b1 := rdm 2 m x 1 sidx in
  let idx := b2z (negb (Z.land b1 smask =? 0)) in
  let! m := clear_at 2 m x 1 sidx smask in let! m := clear_at 2 m x 0 sidx smask in
  or_at 2 m x (Z.min idx lv) sidx smask.
(** A column (or row) of a superblock, elements [lo] to [hi] *)
Definition fix_line_luma (x lo hi nlpf : Z) (lpf : arr) (m : masks) : outcome masks :=
  for_ lo hi (fun p m => let! lv := rd1 nlpf lpf (p - lo) in fix_luma m x p lv) m.
Definition fix_line_chroma (ss x lo hi nlpf : Z) (lpf : arr) (m : masks) : outcome masks :=
  for_ lo hi (fun p m => let! lv := rd1 nlpf lpf (p - lo) in fix_chroma ss m x p lv) m.

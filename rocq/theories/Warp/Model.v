(** Local warped motion: find_matching_ref, derive_warpmv (src/decode.c:191-338) and src/warpmv.c. *)
From Coq Require Import ZArith List Bool.
From Verif Require Import Base.CInt Base.Loop Mc.ObmcModel.
Import ListNotations.
Open Scope Z_scope.
Local Open Scope outcome_scope.

(** An int64_t value *)
Definition ck64 (v : Z) : outcome Z := if (- 2 ^ 63 <=? v) && (v <? 2 ^ 63) then Ok v else Undef.
(** ctz *)
Definition ctz (x : Z) : outcome Z := if x =? 0 then Undef else Ok (Z.log2 (Z.land x (- x))).

(** div_lut: src/warpmv.c:36-61 *)
Definition div_lut : list Z :=
  [ 16384; 16320; 16257; 16194; 16132; 16070; 16009; 15948; 15888; 15828; 15768; 15709; 15650; 15592; 15534; 15477;
    15420; 15364; 15308; 15252; 15197; 15142; 15087; 15033; 14980; 14926; 14873; 14821; 14769; 14717; 14665; 14614;
    14564; 14513; 14463; 14413; 14364; 14315; 14266; 14218; 14170; 14122; 14075; 14028; 13981; 13935; 13888; 13843;
    13797; 13752; 13707; 13662; 13618; 13574; 13530; 13487; 13443; 13400; 13358; 13315; 13273; 13231; 13190; 13148;
    13107; 13066; 13026; 12985; 12945; 12906; 12866; 12827; 12788; 12749; 12710; 12672; 12633; 12596; 12558; 12520;
    12483; 12446; 12409; 12373; 12336; 12300; 12264; 12228; 12193; 12157; 12122; 12087; 12053; 12018; 11984; 11950;
    11916; 11882; 11848; 11815; 11782; 11749; 11716; 11683; 11651; 11619; 11586; 11555; 11523; 11491; 11460; 11429;
    11398; 11367; 11336; 11305; 11275; 11245; 11215; 11185; 11155; 11125; 11096; 11067; 11038; 11009; 10980; 10951;
    10923; 10894; 10866; 10838; 10810; 10782; 10755; 10727; 10700; 10673; 10645; 10618; 10592; 10565; 10538; 10512;
    10486; 10460; 10434; 10408; 10382; 10356; 10331; 10305; 10280; 10255; 10230; 10205; 10180; 10156; 10131; 10107;
    10082; 10058; 10034; 10010; 9986; 9963; 9939; 9916; 9892; 9869; 9846; 9823; 9800; 9777; 9754; 9732;
    9709; 9687; 9664; 9642; 9620; 9598; 9576; 9554; 9533; 9511; 9489; 9468; 9447; 9425; 9404; 9383;
    9362; 9341; 9321; 9300; 9279; 9259; 9239; 9218; 9198; 9178; 9158; 9138; 9118; 9098; 9079; 9059;
    9039; 9020; 9001; 8981; 8962; 8943; 8924; 8905; 8886; 8867; 8849; 8830; 8812; 8793; 8775; 8756;
    8738; 8720; 8702; 8684; 8666; 8648; 8630; 8613; 8595; 8577; 8560; 8542; 8525; 8508; 8490; 8473;
    8456; 8439; 8422; 8405; 8389; 8372; 8355; 8339; 8322; 8306; 8289; 8273; 8257; 8240; 8224; 8208;
    8192 ].

(** * src/warpmv.c *)
(** The Dav1dWarpedMotionParams: matrix[6] and u.p *)
Record shear : Type := { sh_alpha : Z; sh_beta : Z; sh_gamma : Z; sh_delta : Z }.
Record matrix : Type := { m0 : Z; m1 : Z; m2 : Z; m3 : Z; m4 : Z; m5 : Z }.

(** iclip_wmp: 63-67; the result is stored in an int16_t *)
Definition iclip_wmp (v : Z) : Z :=
  let cv := iclip v (-32768) 32767 in apply_sign (Z.shiftr (Z.abs cv + 32) 6) cv * 64.
(** resolve_divisor_32: 69-78, and resolve_divisor_64: 105-114: the result and *shift *)
Definition resolve_divisor (d : Z) : outcome (Z * Z) :=
  guard! 0 <? d in
  let shift := ulog2 d in
  let e := d - Z.shiftl 1 shift in
  let f := if 8 <? shift then Z.shiftr (e + Z.shiftl 1 (shift - 9)) (shift - 8) else Z.shiftl e (8 - shift) in
  guard! f <=? 256 in
  let! y := rd_at div_lut f in Ok (y, shift + 14).
(** apply_sign64((int) ((llabs(v) + rnd) >> shift), v), the result in an int *)
Definition div_round (v rnd shift : Z) : outcome Z :=
  let! v := ck64 v in let! s := ck64 (Z.abs v + rnd) in
  let q := s32 (Z.shiftr s shift) in
  if v <? 0 then ck (- q) else ck q.

(** dav1d_get_shear_params: 80-103; returns the result and the parameters stored, if any *)
Definition get_shear_params (m : matrix) : outcome (bool * option shear) :=
  if m2 m <=? 0 then Ok (true, None) else
  let! a0 := ck (m2 m - 65536) in
  let alpha := s16 (iclip_wmp a0) in
  let beta := s16 (iclip_wmp (m3 m)) in
  let! (y0, shift) := resolve_divisor (Z.abs (m2 m)) in
  let y := apply_sign y0 (m2 m) in
  guard! shift <? 31 in
  let rnd := Z.shiftr (Z.shiftl 1 shift) 1 in
  let! v1 := div_round (m4 m * 65536 * y) rnd shift in
  let gamma := s16 (iclip_wmp v1) in
  let! v2 := div_round (m3 m * m4 m * y) rnd shift in
  let! d1 := ck (m5 m - v2) in let! d0 := ck (d1 - 65536) in
  let delta := s16 (iclip_wmp d0) in
  Ok ((65536 <=? 4 * Z.abs alpha + 7 * Z.abs beta) || (65536 <=? 4 * Z.abs gamma + 4 * Z.abs delta),
      Some {| sh_alpha := alpha; sh_beta := beta; sh_gamma := gamma; sh_delta := delta |}).

(** get_mult_shift_ndiag, get_mult_shift_diag: 116-134 *)
Definition get_mult_shift (lo hi px idet shift : Z) : outcome Z :=
  let! v2 := div_round (px * idet) (Z.shiftr (Z.shiftl 1 shift) 1) shift in Ok (iclip v2 lo hi).
Definition get_mult_shift_ndiag := get_mult_shift (-8191) 8191.
Definition get_mult_shift_diag := get_mult_shift 57345 73727.

(** mat[0] and mat[1]: 141-151 and 212-215 *)
Definition mat_trans (bw4 bh4 mvx mvy bx4 by4 : Z) (a2 a3 a4 a5 : Z) : outcome (Z * Z) :=
  let rsuy := 2 * bh4 - 1 in
  let rsux := 2 * bw4 - 1 in
  let! isuy := ck (by4 * 4 + rsuy) in
  let! isux := ck (bx4 * 4 + rsux) in
  let! p := ck (isux * (a2 - 65536)) in let! q := ck (isuy * a3) in let! s := ck (p + q) in
  let! t := ck (mvx * 8192) in let! v0 := ck (t - s) in
  let! p := ck (isux * a4) in let! q := ck (isuy * (a5 - 65536)) in let! s := ck (p + q) in
  let! t := ck (mvy * 8192) in let! v1 := ck (t - s) in
  Ok (iclip v0 (-8388608) 8388607, iclip v1 (-8388608) 8388607).
(** dav1d_set_affine_mv2d: 136-151 *)
Definition set_affine_mv2d (bw4 bh4 mvx mvy : Z) (m : matrix) (bx4 by4 : Z) : outcome matrix :=
  let! (a0, a1) := mat_trans bw4 bh4 mvx mvy bx4 by4 (m2 m) (m3 m) (m4 m) (m5 m) in
  Ok {| m0 := a0; m1 := a1; m2 := m2 m; m3 := m3 m; m4 := m4 m; m5 := m5 m |}.

(** A point: pts[][0][0], pts[][0][1], pts[][1][0], pts[][1][1] *)
Record point : Type := { p_x : Z; p_y : Z; p_dx : Z; p_dy : Z }.
(** a[0][0], a[0][1], a[1][1], bx[0], bx[1], by[0], by[1] *)
Record sums : Type := { a00 : Z; a01 : Z; a11 : Z; bx0 : Z; bx1 : Z; by0 : Z; by1 : Z }.
Definition ls_add (acc u v c : Z) : outcome Z :=
  let! uv := ck (u * v) in let! t := ck (Z.shiftr uv 2 + u + v + c) in ck (acc + t).
Definition add_point (sux suy dux duy : Z) (p : point) (s : sums) : outcome sums :=
  let! dx := ck (p_dx p - dux) in
  let! dy := ck (p_dy p - duy) in
  let! sx := ck (p_x p - sux) in
  let! sy := ck (p_y p - suy) in
  let! ex := ck (sx - dx) in let! ey := ck (sy - dy) in
  if (Z.abs ex <? 256) && (Z.abs ey <? 256) then
    let! n00 := ls_add (a00 s) sx sx 8 in
    let! n01 := ls_add (a01 s) sx sy 4 in
    let! n11 := ls_add (a11 s) sy sy 8 in
    let! nx0 := ls_add (bx0 s) sx dx 8 in
    let! nx1 := ls_add (bx1 s) sy dx 4 in
    let! ny0 := ls_add (by0 s) sx dy 4 in
    let! ny1 := ls_add (by1 s) sy dy 8 in
    Ok {| a00 := n00; a01 := n01; a11 := n11; bx0 := nx0; bx1 := nx1; by0 := ny0; by1 := ny1 |}
  else Ok s.
Fixpoint add_points (sux suy dux duy : Z) (pts : list point) (s : sums) : outcome sums :=
  match pts with
  | [] => Ok s
  | p :: pts => let! s := add_point sux suy dux duy p s in add_points sux suy dux duy pts s
  end.
(** dav1d_find_affine_int: 153-218; [pts] are the first np points. None: the result is 1 *)
Definition find_affine_int (pts : list point) (bw4 bh4 mvx mvy bx4 by4 : Z) : outcome (option matrix) :=
  let rsuy := 2 * bh4 - 1 in
  let rsux := 2 * bw4 - 1 in
  let suy := rsuy * 8 in
  let sux := rsux * 8 in
  let duy := suy + mvy in
  let dux := sux + mvx in
  let! s := add_points sux suy dux duy pts {| a00 := 0; a01 := 0; a11 := 0; bx0 := 0; bx1 := 0; by0 := 0; by1 := 0 |} in
  let! det := ck64 (a00 s * a11 s - a01 s * a01 s) in
  if det =? 0 then Ok None else
  let! (idet, shift) := resolve_divisor (Z.abs det) in
  let idet := apply_sign idet det in
  let shift := shift - 16 in
  let! idet := (if shift <? 0 then guard! 0 <=? idet in ck (Z.shiftl idet (- shift)) else Ok idet) in
  let shift := if shift <? 0 then 0 else shift in
  let! v := ck64 (a11 s * bx0 s - a01 s * bx1 s) in let! a2 := get_mult_shift_diag v idet shift in
  let! v := ck64 (a00 s * bx1 s - a01 s * bx0 s) in let! a3 := get_mult_shift_ndiag v idet shift in
  let! v := ck64 (a11 s * by0 s - a01 s * by1 s) in let! a4 := get_mult_shift_ndiag v idet shift in
  let! v := ck64 (a00 s * by1 s - a01 s * by0 s) in let! a5 := get_mult_shift_diag v idet shift in
  let! (t0, t1) := mat_trans bw4 bh4 mvx mvy bx4 by4 a2 a3 a4 a5 in
  Ok (Some {| m0 := t0; m1 := t1; m2 := a2; m3 := a3; m4 := a4; m5 := a5 |}).

(** * find_matching_ref: src/decode.c:191-262 *)
(** refmvs_block: the size, the references and mv[0] *)
Record rblock : Type := { rb_bs : Z; rb_ref0 : Z; rb_ref1 : Z; rb_mvx : Z; rb_mvy : Z }.
Record warp_in : Type := {
  w_r : Z -> Z -> outcome rblock;       (* t->rt.r[][] *)
  w_bx : Z; w_by : Z;
  w_col_end : Z;                        (* t->ts->tiling.col_end *)
  w_tr : bool }.                        (* intra_edge_flags & EDGE_I444_TOP_HAS_RIGHT *)
(** r[y][x] for r = &t->rt.r[(t->by & 31) + 5] *)
Definition w_at (k : warp_in) (y x : Z) : outcome rblock := w_r k (Z.land (w_by k) 31 + 5 + y) x.
Definition bs_w (b : rblock) : outcome Z := let! d := rd_at block_dimensions (rb_bs b) in Ok (fst (fst (fst d))).
Definition bs_h (b : rblock) : outcome Z := let! d := rd_at block_dimensions (rb_bs b) in Ok (snd (fst (fst d))).
Definition matches (ref : Z) (b : rblock) : bool := (rb_ref0 b =? ref + 1) && (rb_ref1 b =? -1).

(** count, masks[0], masks[1], have_topleft, have_topright *)
Record fmr : Type := { f_count : Z; f_m0 : Z; f_m1 : Z; f_tl : bool; f_tr : bool }.
Section Find.
Variables (k : warp_in) (bw4 bh4 w4 h4 : Z) (have_left have_top : bool) (ref : Z).
(** if (matches) { masks |= mask; if (++count >= 8) return; }: the flag says that it returned *)
Definition found0 (b : rblock) (mask : Z) (s : fmr) : bool * fmr :=
  if matches ref b then
    (8 <=? f_count s + 1, {| f_count := f_count s + 1; f_m0 := Z.lor (f_m0 s) mask; f_m1 := f_m1 s; f_tl := f_tl s; f_tr := f_tr s |})
  else (false, s).
Definition found1 (b : rblock) (mask : Z) (s : fmr) : bool * fmr :=
  if matches ref b then
    (8 <=? f_count s + 1, {| f_count := f_count s + 1; f_m0 := f_m0 s; f_m1 := Z.lor (f_m1 s) mask; f_tl := f_tl s; f_tr := f_tr s |})
  else (false, s).
Definition cut_tl (c : bool) (s : fmr) : fmr :=
  {| f_count := f_count s; f_m0 := f_m0 s; f_m1 := f_m1 s; f_tl := if c then false else f_tl s; f_tr := f_tr s |}.
Definition cut_tr (c : bool) (s : fmr) : fmr :=
  {| f_count := f_count s; f_m0 := f_m0 s; f_m1 := f_m1 s; f_tl := f_tl s; f_tr := if c then false else f_tr s |}.
Fixpoint fmr_row (fuel : nat) (x aw4 c mask : Z) (s : fmr) : outcome (bool * fmr) :=
  match fuel with
  | O => Undef
  | S fuel =>
    if x <? w4 then
      let c := c + aw4 in
      let! b := w_at k (-1) c in
      let '(stop, s) := found0 b mask s in
      if stop then Ok (true, s) else
      let! aw4 := bs_w b in
      guard! aw4 <? 32 in
      fmr_row fuel (x + aw4) aw4 c (u32 (Z.shiftl mask aw4)) s
    else Ok (false, s)
  end.
Fixpoint fmr_col (fuel : nat) (y lh4 r mask : Z) (s : fmr) : outcome (bool * fmr) :=
  match fuel with
  | O => Undef
  | S fuel =>
    if y <? h4 then
      let r := r + lh4 in
      let! b := w_at k r (w_bx k - 1) in
      let '(stop, s) := found1 b mask s in
      if stop then Ok (true, s) else
      let! lh4 := bs_h b in
      guard! lh4 <? 32 in
      fmr_col fuel (y + lh4) lh4 r (u32 (Z.shiftl mask lh4)) s
    else Ok (false, s)
  end.
Definition fmr_top (s : fmr) : outcome (bool * fmr) :=
  if have_top then
    let! b := w_at k (-1) (w_bx k) in
    let s := snd (found0 b 1 s) in
    let! aw4 := bs_w b in
    if bw4 <=? aw4 then
      let off := Z.land (w_bx k) (aw4 - 1) in
      Ok (false, cut_tr (bw4 <? aw4 - off) (cut_tl (negb (off =? 0)) s))
    else guard! aw4 <? 31 in fmr_row 33 aw4 aw4 (w_bx k) (Z.shiftl 1 aw4) s
  else Ok (false, s).
Definition fmr_left (s : fmr) : outcome (bool * fmr) :=
  if have_left then
    let! b := w_at k 0 (w_bx k - 1) in
    let '(stop, s) := found1 b 1 s in
    if stop then Ok (true, s) else
    let! lh4 := bs_h b in
    if bh4 <=? lh4 then Ok (false, cut_tl (negb (Z.land (w_by k) (lh4 - 1) =? 0)) s)
    else guard! lh4 <? 31 in fmr_col 33 lh4 lh4 0 (Z.shiftl 1 lh4) s
  else Ok (false, s).
Definition find_matching_ref : outcome (Z * Z) :=
  let s := {| f_count := 0; f_m0 := 0; f_m1 := 0; f_tl := have_top && have_left;
              f_tr := (Z.max bw4 bh4 <? 32) && have_top && (w_bx k + bw4 <? w_col_end k) && w_tr k |} in
  let! (stop, s) := fmr_top s in
  if stop then Ok (f_m0 s, f_m1 s) else
  let! (stop, s) := fmr_left s in
  if stop then Ok (f_m0 s, f_m1 s) else
  let! (stop, s) := (if f_tl s then let! b := w_at k (-1) (w_bx k - 1) in Ok (found1 b (2 ^ 32) s) else Ok (false, s)) in
  if stop then Ok (f_m0 s, f_m1 s) else
  let! (_, s) := (if f_tr s then let! b := w_at k (-1) (w_bx k + bw4) in Ok (found0 b (2 ^ 32) s) else Ok (false, s)) in
  Ok (f_m0 s, f_m1 s).
End Find.

(** * derive_warpmv: src/decode.c:264-338 *)
Section Derive.
Variables (k : warp_in) (bw4 bh4 m0 m1 mvx mvy : Z).
(** add_sample: 272-278; [pts] is the list of the np points, at most 8 *)
Definition add_sample (dx dy sx sy : Z) (b : rblock) (pts : list point) : outcome (list point) :=
  guard! zlen pts <? 8 in
  let! w := bs_w b in let! h := bs_h b in
  let x := 16 * (2 * dx + sx * w) - 8 in
  let y := 16 * (2 * dy + sy * h) - 8 in
  Ok (pts ++ [ {| p_x := x; p_y := y; p_dx := x + rb_mvx b; p_dy := y + rb_mvy b |} ]).
Fixpoint dw_row (fuel : nat) (off xmask : Z) (pts : list point) : outcome (list point) :=
  match fuel with
  | O => Undef
  | S fuel =>
    if (zlen pts <? 8) && negb (xmask =? 0) then
      let! tz := ctz xmask in
      let off := off + tz in
      let! b := w_at k (-1) (w_bx k + off) in
      let! pts := add_sample off 0 1 (-1) b pts in
      dw_row fuel off (Z.land (Z.shiftr xmask tz) (2 ^ 32 - 2)) pts
    else Ok pts
  end.
Fixpoint dw_col (fuel : nat) (off ymask : Z) (pts : list point) : outcome (list point) :=
  match fuel with
  | O => Undef
  | S fuel =>
    if (zlen pts <? 8) && negb (ymask =? 0) then
      let! tz := ctz ymask in
      let off := off + tz in
      let! b := w_at k off (w_bx k - 1) in
      let! pts := add_sample 0 off (-1) 1 b pts in
      dw_col fuel off (Z.land (Z.shiftr ymask tz) (2 ^ 32 - 2)) pts
    else Ok pts
  end.
Definition dw_points : outcome (list point) :=
  let! pts := (if (u32 m0 =? 1) && (Z.shiftr m1 32 =? 0) then
      let! b := w_at k (-1) (w_bx k) in let! w := bs_w b in
      add_sample (- Z.land (w_bx k) (w - 1)) 0 1 (-1) b []
    else dw_row 33 0 (u32 m0) []) in
  let! pts := (if (zlen pts <? 8) && (m1 =? 1) then
      let! b := w_at k 0 (w_bx k - 1) in let! h := bs_h b in
      let off := Z.land (w_by k) (h - 1) in
      let! b := w_at k (- off) (w_bx k - 1) in
      add_sample 0 (- off) (-1) 1 b pts
    else dw_col 33 0 (u32 m1) pts) in
  let! pts := (if (zlen pts <? 8) && negb (Z.shiftr m1 32 =? 0) then
      let! b := w_at k (-1) (w_bx k - 1) in add_sample 0 0 (-1) (-1) b pts else Ok pts) in
  let! pts := (if (zlen pts <? 8) && negb (Z.shiftr m0 32 =? 0) then
      let! b := w_at k (-1) (w_bx k + bw4) in add_sample bw4 0 1 (-1) b pts else Ok pts) in
  guard! (0 <? zlen pts) && (zlen pts <=? 8) in Ok pts.
(** mvd[]: the points whose vector is too far from ours are marked *)
Definition dw_bad (p : point) : bool :=
  4 * iclip (Z.max bw4 bh4) 4 28 <? Z.abs (p_dx p - p_x p - mvx) + Z.abs (p_dy p - p_y p - mvy).
End Derive.
(** The points that are kept are moved to the front: src/decode.c:316-329; mvd[] and pts[] are one list *)
Section Compact.
Variables (A : Type) (bad : A -> bool).
(** while (mvd[i] != -1) i++ *)
Fixpoint skip_good (fuel : nat) (l : list A) (i : Z) : outcome Z :=
  match fuel with
  | O => Undef
  | S fuel => let! a := rd_at l i in if bad a then Ok i else skip_good fuel l (i + 1)
  end.
(** while (mvd[j] == -1) j-- *)
Fixpoint skip_bad (fuel : nat) (l : list A) (j : Z) : outcome Z :=
  match fuel with
  | O => Undef
  | S fuel => let! a := rd_at l j in if bad a then skip_bad fuel l (j - 1) else Ok j
  end.
Fixpoint compact (n : nat) (l : list A) (i j : Z) : outcome (list A) :=
  match n with
  | O => Ok l
  | S n =>
    let! i := skip_good 9 l i in
    let! j := skip_bad 9 l j in
    guard! negb (i =? j) in
    if j <? i then Ok l else
    let! a := rd_at l j in let! l := wr_at l i a in
    compact n l (i + 1) (j - 1)
  end.
(** the first ret of the points *)
Definition select (l : list A) : outcome (list A) :=
  let ret := length (filter (fun a => negb (bad a)) l) in
  match ret with
  | O => Ok (firstn 1 l)
  | _ => let! l := compact (length l - ret) l 0 (zlen l - 1) in Ok (firstn ret l)
  end.
End Compact.

(** wmp: the matrix and shear parameters if the type is DAV1D_WM_TYPE_AFFINE, None if it is DAV1D_WM_TYPE_IDENTITY *)
Definition derive_warpmv (k : warp_in) (bw4 bh4 m0 m1 mvx mvy : Z) : outcome (option (matrix * shear)) :=
  let! pts := dw_points k bw4 m0 m1 in
  let! pts := select point (dw_bad bw4 bh4 mvx mvy) pts in
  let! r := find_affine_int pts bw4 bh4 mvx mvy (w_bx k) (w_by k) in
  match r with
  | None => Ok None
  | Some m =>
    let! (bad, sh) := get_shear_params m in
    match bad, sh with
    | false, Some sh => Ok (Some (m, sh))
    | _, _ => Ok None
    end
  end.

(** ** The copy kept for the second pass of frame threading: src/decode.c:1817-1826 and 742-752 *)
Definition store_matrix (w : option (matrix * shear)) : outcome (Z * Z * Z * Z) :=
  match w with
  | Some (m, _) => Ok (s16 (m2 m - 65536), s16 (m3 m), s16 (m4 m), s16 (m5 m - 65536))
  | None => Ok (-32768, 0, 0, 0)
  end.
Definition load_matrix (b : Z * Z * Z * Z) (bw4 bh4 mvx mvy bx by_ : Z) : outcome (option (matrix * shear)) :=
  let '(b0, b1, b2, b3) := b in
  if b0 =? -32768 then Ok None else
  let! m := set_affine_mv2d bw4 bh4 mvx mvy {| m0 := 0; m1 := 0; m2 := b0 + 65536; m3 := b1; m4 := b2; m5 := b3 + 65536 |} bx by_ in
  let! (_, sh) := get_shear_params m in
  match sh with Some sh => Ok (Some (m, sh)) | None => Undef end.

(** Motion compensation with a translation: src/mc_tmpl.c:36-618 and 640-680 (the filters, the combination of two
    predictions and the blending), emu_edge_c (src/mc_tmpl.c:853-903) and mc() of src/recon_tmpl.c:941-1052.

    - A pointer into a picture is a function from a row and a column relative to it to the value read there
      ([Undef] outside of the allocation or where nothing was written).
    - Strides are counted in pixels, as after PXSTRIDE.
    - Sums of 8 products of an int8_t and a value of at most 17 bits cannot leave the range of int, so that they are
      not checked; int16_t stores go through [s16].
    - An int16_t prediction, rows of w values after one another in compinter[128 * 128], is a plane of rows of w. *)
From Coq Require Import ZArith List Bool.
From Verif Require Import Base.CInt Base.Loop.
Import ListNotations.
Open Scope Z_scope.
Local Open Scope outcome_scope.

(** get_intermediate_bits, PREP_BIAS: src/mc_tmpl.c:39-49 *)
Definition inter_bits (bd : Z) : Z := if bd =? 8 then 4 else 14 - bd.
Definition prep_bias (bd : Z) : Z := if bd =? 8 then 0 else 8192.
Definition clip_pixel (bd v : Z) : Z := iclip v 0 (2 ^ bd - 1).
Definition rnd (v sh : Z) : Z := Z.shiftr (v + Z.shiftr (Z.shiftl 1 sh) 1) sh.

(** dav1d_mc_subpel_filters: src/tables.c:443-545; indexed by DAV1D_FILTER_8TAP_REGULAR = 0, _SMOOTH = 1, _SHARP = 2 *)
Definition subpel_filters : list (list (list Z)) :=
  [ [ [0; 1; -3; 63; 4; -1; 0; 0];
      [0; 1; -5; 61; 9; -2; 0; 0];
      [0; 1; -6; 58; 14; -4; 1; 0];
      [0; 1; -7; 55; 19; -5; 1; 0];
      [0; 1; -7; 51; 24; -6; 1; 0];
      [0; 1; -8; 47; 29; -6; 1; 0];
      [0; 1; -7; 42; 33; -6; 1; 0];
      [0; 1; -7; 38; 38; -7; 1; 0];
      [0; 1; -6; 33; 42; -7; 1; 0];
      [0; 1; -6; 29; 47; -8; 1; 0];
      [0; 1; -6; 24; 51; -7; 1; 0];
      [0; 1; -5; 19; 55; -7; 1; 0];
      [0; 1; -4; 14; 58; -6; 1; 0];
      [0; 0; -2; 9; 61; -5; 1; 0];
      [0; 0; -1; 4; 63; -3; 1; 0] ];
    [ [0; 1; 14; 31; 17; 1; 0; 0];
      [0; 0; 13; 31; 18; 2; 0; 0];
      [0; 0; 11; 31; 20; 2; 0; 0];
      [0; 0; 10; 30; 21; 3; 0; 0];
      [0; 0; 9; 29; 22; 4; 0; 0];
      [0; 0; 8; 28; 23; 5; 0; 0];
      [0; -1; 8; 27; 24; 6; 0; 0];
      [0; -1; 7; 26; 26; 7; -1; 0];
      [0; 0; 6; 24; 27; 8; -1; 0];
      [0; 0; 5; 23; 28; 8; 0; 0];
      [0; 0; 4; 22; 29; 9; 0; 0];
      [0; 0; 3; 21; 30; 10; 0; 0];
      [0; 0; 2; 20; 31; 11; 0; 0];
      [0; 0; 2; 18; 31; 13; 0; 0];
      [0; 0; 1; 17; 31; 14; 1; 0] ];
    [ [-1; 1; -3; 63; 4; -1; 1; 0];
      [-1; 3; -6; 62; 8; -3; 2; -1];
      [-1; 4; -9; 60; 13; -5; 3; -1];
      [-2; 5; -11; 58; 19; -7; 3; -1];
      [-2; 5; -11; 54; 24; -9; 4; -1];
      [-2; 5; -12; 50; 30; -10; 4; -1];
      [-2; 5; -12; 45; 35; -11; 5; -1];
      [-2; 6; -12; 40; 40; -12; 6; -2];
      [-1; 5; -11; 35; 45; -12; 5; -2];
      [-1; 4; -10; 30; 50; -12; 5; -2];
      [-1; 4; -9; 24; 54; -11; 5; -2];
      [-1; 3; -7; 19; 58; -11; 5; -2];
      [-1; 3; -5; 13; 60; -9; 4; -1];
      [-1; 2; -3; 8; 62; -6; 3; -1];
      [0; 1; -1; 4; 63; -3; 1; -1] ];
    [ [0; 0; -2; 63; 4; -1; 0; 0];
      [0; 0; -4; 61; 9; -2; 0; 0];
      [0; 0; -5; 58; 14; -3; 0; 0];
      [0; 0; -6; 55; 19; -4; 0; 0];
      [0; 0; -6; 51; 24; -5; 0; 0];
      [0; 0; -7; 47; 29; -5; 0; 0];
      [0; 0; -6; 42; 33; -5; 0; 0];
      [0; 0; -6; 38; 38; -6; 0; 0];
      [0; 0; -5; 33; 42; -6; 0; 0];
      [0; 0; -5; 29; 47; -7; 0; 0];
      [0; 0; -5; 24; 51; -6; 0; 0];
      [0; 0; -4; 19; 55; -6; 0; 0];
      [0; 0; -3; 14; 58; -5; 0; 0];
      [0; 0; -2; 9; 61; -4; 0; 0];
      [0; 0; -1; 4; 63; -2; 0; 0] ];
    [ [0; 0; 15; 31; 17; 1; 0; 0];
      [0; 0; 13; 31; 18; 2; 0; 0];
      [0; 0; 11; 31; 20; 2; 0; 0];
      [0; 0; 10; 30; 21; 3; 0; 0];
      [0; 0; 9; 29; 22; 4; 0; 0];
      [0; 0; 8; 28; 23; 5; 0; 0];
      [0; 0; 7; 27; 24; 6; 0; 0];
      [0; 0; 6; 26; 26; 6; 0; 0];
      [0; 0; 6; 24; 27; 7; 0; 0];
      [0; 0; 5; 23; 28; 8; 0; 0];
      [0; 0; 4; 22; 29; 9; 0; 0];
      [0; 0; 3; 21; 30; 10; 0; 0];
      [0; 0; 2; 20; 31; 11; 0; 0];
      [0; 0; 2; 18; 31; 13; 0; 0];
      [0; 0; 1; 17; 31; 15; 0; 0] ];
    [ [0; 0; 0; 60; 4; 0; 0; 0];
      [0; 0; 0; 56; 8; 0; 0; 0];
      [0; 0; 0; 52; 12; 0; 0; 0];
      [0; 0; 0; 48; 16; 0; 0; 0];
      [0; 0; 0; 44; 20; 0; 0; 0];
      [0; 0; 0; 40; 24; 0; 0; 0];
      [0; 0; 0; 36; 28; 0; 0; 0];
      [0; 0; 0; 32; 32; 0; 0; 0];
      [0; 0; 0; 28; 36; 0; 0; 0];
      [0; 0; 0; 24; 40; 0; 0; 0];
      [0; 0; 0; 20; 44; 0; 0; 0];
      [0; 0; 0; 16; 48; 0; 0; 0];
      [0; 0; 0; 12; 52; 0; 0; 0];
      [0; 0; 0; 8; 56; 0; 0; 0];
      [0; 0; 0; 4; 60; 0; 0; 0] ] ].

(** FILTER_8TAP: src/mc_tmpl.c:77-85; [g k] is the value at distance k *)
Definition taps (F : list Z) (g : Z -> outcome Z) : outcome Z :=
  let! f0 := rd_at F 0 in let! g0 := g (-3) in
  let! f1 := rd_at F 1 in let! g1 := g (-2) in
  let! f2 := rd_at F 2 in let! g2 := g (-1) in
  let! f3 := rd_at F 3 in let! g3 := g 0 in
  let! f4 := rd_at F 4 in let! g4 := g 1 in
  let! f5 := rd_at F 5 in let! g5 := g 2 in
  let! f6 := rd_at F 6 in let! g6 := g 3 in
  let! f7 := rd_at F 7 in let! g7 := g 4 in
  Ok (f0 * g0 + f1 * g1 + f2 * g2 + f3 * g3 + f4 * g4 + f5 * g5 + f6 * g6 + f7 * g7).
(** GET_H_FILTER, GET_V_FILTER: src/mc_tmpl.c:99-108; [n] is the size and [ty] the filter type of the direction *)
Definition get_filter (n ty m : Z) : outcome (option (list Z)) :=
  if m =? 0 then Ok None
  else let! T := rd_at subpel_filters (if 4 <? n then ty else 3 + Z.land ty 1) in
       let! F := rd_at T (m - 1) in Ok (Some F).
Definition h_type (ft : Z) : Z := Z.land ft 3.
Definition v_type (ft : Z) : Z := Z.shiftr ft 2.

(** do { for (x = 0; x < w; x++) store } while (--h) *)
Definition block (w h : Z) (val : Z -> Z -> outcome Z) (st : Z -> Z -> Z -> plane -> outcome plane) (d : plane) : outcome plane :=
  guard! 1 <=? h in
  for_ 0 h (fun y d => for_ 0 w (fun x d => let! v := val y x in st y x v d) d) d.
(** Pixels of the destination, and int16_t ones *)
Definition st_px (rows stride y0 x0 y x v : Z) (d : plane) : outcome plane := wr2 rows stride d (y0 + y) (x0 + x) v.
Definition st_tmp (w h y x v : Z) (d : plane) : outcome plane := wr2 h w d y x (s16 v).
Definition st_mid (n y x v : Z) (d : plane) : outcome plane := wr2 n 128 d y x (s16 v).

Section Depth.
Variable bd : Z.
Let ib := inter_bits bd.

(** put_c, prep_c: src/mc_tmpl.c:51-75 *)
Definition put_c (src : Z -> Z -> outcome Z) w h st d : outcome plane := block w h src st d.
Definition prep_c (src : Z -> Z -> outcome Z) w h st d : outcome plane :=
  block w h (fun y x => let! p := src y x in Ok (Z.shiftl p ib - prep_bias bd)) st d.

(** put_8tap_c: src/mc_tmpl.c:114-173 *)
Definition mid_8tap (src : Z -> Z -> outcome Z) (w h : Z) (fh : list Z) : outcome plane :=
  block w (h + 7) (fun y x => let! t := taps fh (fun k => src (y - 3) (x + k)) in Ok (rnd t (6 - ib))) (st_mid 135) plane0.
Definition put_8tap (src : Z -> Z -> outcome Z) (w h mx my ft : Z) st (d : plane) : outcome plane :=
  let! fh := get_filter w (h_type ft) mx in
  let! fv := get_filter h (v_type ft) my in
  match fh, fv with
  | Some fh, Some fv =>
      let! mid := mid_8tap src w h fh in
      block w h (fun y x => let! t := taps fv (fun k => rd2 135 128 mid (y + 3 + k) x) in Ok (clip_pixel bd (rnd t (6 + ib)))) st d
  | Some fh, None =>
      let intermediate_rnd := 32 + Z.shiftr (Z.shiftl 1 (6 - ib)) 1 in
      block w h (fun y x => let! t := taps fh (fun k => src y (x + k)) in
        Ok (clip_pixel bd (Z.shiftr (t + intermediate_rnd) 6))) st d
  | None, Some fv =>
      block w h (fun y x => let! t := taps fv (fun k => src (y + k) x) in Ok (clip_pixel bd (rnd t 6))) st d
  | None, None => put_c src w h st d
  end.
(** prep_8tap_c: src/mc_tmpl.c:223-283 *)
Definition prep_8tap (src : Z -> Z -> outcome Z) (w h mx my ft : Z) st (d : plane) : outcome plane :=
  let! fh := get_filter w (h_type ft) mx in
  let! fv := get_filter h (v_type ft) my in
  match fh, fv with
  | Some fh, Some fv =>
      let! mid := mid_8tap src w h fh in
      block w h (fun y x => let! t := taps fv (fun k => rd2 135 128 mid (y + 3 + k) x) in
        let t := rnd t 6 - prep_bias bd in
        guard! (-32768 <=? t) && (t <=? 32767) in Ok t) st d
  | Some fh, None =>
      block w h (fun y x => let! t := taps fh (fun k => src y (x + k)) in Ok (rnd t (6 - ib) - prep_bias bd)) st d
  | None, Some fv =>
      block w h (fun y x => let! t := taps fv (fun k => src (y + k) x) in Ok (rnd t (6 - ib) - prep_bias bd)) st d
  | None, None => prep_c src w h st d
  end.

(** The first half of put_8tap_scaled_c and prep_8tap_scaled_c (src/mc_tmpl.c:183-206, 291-313) and of the bilinear
    ones: [row y m ioff] is the value for the position (m, ioff) of row y; [n] rows into mid of [nm] rows *)
Definition scaled_rows (w n nm mx dx : Z) (val : Z -> Z -> Z -> outcome Z) : outcome plane :=
  guard! 1 <=? n in
  for_ 0 n (fun y mid =>
    let! s := for_ 0 w (fun x (s : plane * Z * Z) => let '(mid, imx, ioff) := s in
      let! v := val y imx ioff in
      let! mid := st_mid nm y x v mid in
      let imx := imx + dx in
      Ok (mid, Z.land imx 1023, ioff + Z.shiftr imx 10)) (mid, mx, 0) in
    Ok (fst (fst s))) plane0.
(** ... and the second half: [val m r x] for the row at [r] *)
Definition scaled_cols (w h my dy r0 : Z) (val : Z -> Z -> Z -> outcome Z) st (d : plane) : outcome plane :=
  guard! 1 <=? h in
  let! s := for_ 0 h (fun y (s : plane * Z * Z) => let '(d, my, r) := s in
    let! d := for_ 0 w (fun x d => let! v := val my r x in st y x v d) d in
    let my := my + dy in
    Ok (d, Z.land my 1023, r + Z.shiftr my 10)) (d, my, r0) in
  Ok (fst (fst s)).
Definition mid_8tap_scaled (src : Z -> Z -> outcome Z) (w h mx my dx dy ft : Z) : outcome plane :=
  scaled_rows w (Z.shiftr ((h - 1) * dy + my) 10 + 8) 263 mx dx (fun y imx ioff =>
    let! fh := get_filter w (h_type ft) (Z.shiftr imx 6) in
    match fh with
    | Some fh => let! t := taps fh (fun k => src (y - 3) (ioff + k)) in Ok (rnd t (6 - ib))
    | None => let! p := src (y - 3) ioff in Ok (Z.shiftl p ib)
    end).
(** put_8tap_scaled_c: src/mc_tmpl.c:175-221 *)
Definition put_8tap_scaled (src : Z -> Z -> outcome Z) (w h mx my dx dy ft : Z) st (d : plane) : outcome plane :=
  let! mid := mid_8tap_scaled src w h mx my dx dy ft in
  scaled_cols w h my dy 3 (fun my r x =>
    let! fv := get_filter h (v_type ft) (Z.shiftr my 6) in
    match fv with
    | Some fv => let! t := taps fv (fun k => rd2 263 128 mid (r + k) x) in Ok (clip_pixel bd (rnd t (6 + ib)))
    | None => let! p := rd2 263 128 mid r x in Ok (clip_pixel bd (Z.shiftr (p + Z.shiftr (Z.shiftl 1 ib) 1) ib))
    end) st d.
(** prep_8tap_scaled_c: src/mc_tmpl.c:285-328 *)
Definition prep_8tap_scaled (src : Z -> Z -> outcome Z) (w h mx my dx dy ft : Z) st (d : plane) : outcome plane :=
  let! mid := mid_8tap_scaled src w h mx my dx dy ft in
  scaled_cols w h my dy 3 (fun my r x =>
    let! fv := get_filter h (v_type ft) (Z.shiftr my 6) in
    match fv with
    | Some fv => let! t := taps fv (fun k => rd2 263 128 mid (r + k) x) in Ok (rnd t 6 - prep_bias bd)
    | None => let! p := rd2 263 128 mid r x in Ok (p - prep_bias bd)
    end) st d.

(** FILTER_BILIN: src/mc_tmpl.c:387-394 *)
Definition bilin (m : Z) (g : Z -> outcome Z) : outcome Z :=
  let! a := g 0 in let! b := g 1 in Ok (16 * a + m * (b - a)).
(** put_bilin_c: src/mc_tmpl.c:396-452 *)
Definition mid_bilin (src : Z -> Z -> outcome Z) (w h mx : Z) : outcome plane :=
  block w (h + 1) (fun y x => let! t := bilin mx (fun k => src y (x + k)) in Ok (rnd t (4 - ib))) (st_mid 129) plane0.
Definition put_bilin (src : Z -> Z -> outcome Z) (w h mx my : Z) st (d : plane) : outcome plane :=
  let intermediate_rnd := Z.shiftr (Z.shiftl 1 ib) 1 in
  if negb (mx =? 0) then
    if negb (my =? 0) then
      let! mid := mid_bilin src w h mx in
      block w h (fun y x => let! t := bilin my (fun k => rd2 129 128 mid (y + k) x) in Ok (clip_pixel bd (rnd t (4 + ib)))) st d
    else
      block w h (fun y x => let! t := bilin mx (fun k => src y (x + k)) in
        let px := rnd t (4 - ib) in
        Ok (clip_pixel bd (Z.shiftr (px + intermediate_rnd) ib))) st d
  else if negb (my =? 0) then
    block w h (fun y x => let! t := bilin my (fun k => src (y + k) x) in Ok (clip_pixel bd (rnd t 4))) st d
  else put_c src w h st d.
(** prep_bilin_c: src/mc_tmpl.c:495-547 *)
Definition prep_bilin (src : Z -> Z -> outcome Z) (w h mx my : Z) st (d : plane) : outcome plane :=
  if negb (mx =? 0) then
    if negb (my =? 0) then
      let! mid := mid_bilin src w h mx in
      block w h (fun y x => let! t := bilin my (fun k => rd2 129 128 mid (y + k) x) in Ok (rnd t 4 - prep_bias bd)) st d
    else
      block w h (fun y x => let! t := bilin mx (fun k => src y (x + k)) in Ok (rnd t (4 - ib) - prep_bias bd)) st d
  else if negb (my =? 0) then
    block w h (fun y x => let! t := bilin my (fun k => src (y + k) x) in Ok (rnd t (4 - ib) - prep_bias bd)) st d
  else prep_c src w h st d.
(** put_bilin_scaled_c, prep_bilin_scaled_c: src/mc_tmpl.c:454-493, 549-586 *)
Definition mid_bilin_scaled (src : Z -> Z -> outcome Z) (w h mx my dx dy : Z) : outcome plane :=
  scaled_rows w (Z.shiftr ((h - 1) * dy + my) 10 + 2) 257 mx dx (fun y imx ioff =>
    let! t := bilin (Z.shiftr imx 6) (fun k => src y (ioff + k)) in Ok (rnd t (4 - ib))).
Definition put_bilin_scaled (src : Z -> Z -> outcome Z) (w h mx my dx dy : Z) st (d : plane) : outcome plane :=
  let! mid := mid_bilin_scaled src w h mx my dx dy in
  scaled_cols w h my dy 0 (fun my r x =>
    let! t := bilin (Z.shiftr my 6) (fun k => rd2 257 128 mid (r + k) x) in Ok (clip_pixel bd (rnd t (4 + ib)))) st d.
Definition prep_bilin_scaled (src : Z -> Z -> outcome Z) (w h mx my dx dy : Z) st (d : plane) : outcome plane :=
  let! mid := mid_bilin_scaled src w h mx my dx dy in
  scaled_cols w h my dy 0 (fun my r x =>
    let! t := bilin (Z.shiftr my 6) (fun k => rd2 257 128 mid (r + k) x) in Ok (rnd t 4 - prep_bias bd)) st d.

(** dav1d_mc_dsp_init (src/mc_tmpl.c:955-966) with filter_fns (src/mc_tmpl.c:330-385): the filter type of the functions
    at an [enum Filter2d] (src/levels.h:184-196), [None] for the bilinear ones *)
Definition REGULAR := 0.
Definition SMOOTH := 1.
Definition SHARP := 2.
Definition mc_fns : list (option Z) :=
  let t h v := Some (Z.lor h (Z.shiftl v 2)) in
  [ t REGULAR REGULAR; t REGULAR SMOOTH; t REGULAR SHARP; t SHARP REGULAR; t SHARP SMOOTH; t SHARP SHARP;
    t SMOOTH REGULAR; t SMOOTH SMOOTH; t SMOOTH SHARP; None ].
Definition fn_mc (filter_2d : Z) src w h mx my st d : outcome plane :=
  let! ft := rd_at mc_fns filter_2d in
  match ft with Some ft => put_8tap src w h mx my ft st d | None => put_bilin src w h mx my st d end.
Definition fn_mct (filter_2d : Z) src w h mx my st d : outcome plane :=
  let! ft := rd_at mc_fns filter_2d in
  match ft with Some ft => prep_8tap src w h mx my ft st d | None => prep_bilin src w h mx my st d end.
Definition fn_mc_scaled (filter_2d : Z) src w h mx my dx dy st d : outcome plane :=
  let! ft := rd_at mc_fns filter_2d in
  match ft with Some ft => put_8tap_scaled src w h mx my dx dy ft st d | None => put_bilin_scaled src w h mx my dx dy st d end.
Definition fn_mct_scaled (filter_2d : Z) src w h mx my dx dy st d : outcome plane :=
  let! ft := rd_at mc_fns filter_2d in
  match ft with Some ft => prep_8tap_scaled src w h mx my dx dy ft st d | None => prep_bilin_scaled src w h mx my dx dy st d end.
End Depth.
(** dav1d_filter_2d: src/tables.c:325-340; 0 (regular, regular) where it has no entry *)
Definition filter_2d_tbl : list (list Z) := [ [0; 1; 2; 0]; [6; 7; 8; 0]; [3; 4; 5; 0]; [0; 0; 0; 9] ].

(** emu_edge_c: src/mc_tmpl.c:853-903, into emu_edge[320 * (256 + 7)] with rows of [stride] pixels *)
Definition EMU_SIZE := 320 * (256 + 7).
Definition emu_rows (stride : Z) : Z := EMU_SIZE / stride.
Definition emu_edge (bw bh iw ih x y stride : Z) (ref : Z -> Z -> outcome Z) : outcome plane :=
  let rows := emu_rows stride in
  let ry := iclip y 0 (ih - 1) in
  let rx := iclip x 0 (iw - 1) in
  let left_ext := iclip (- x) 0 (bw - 1) in
  let right_ext := iclip (x + bw - iw) 0 (bw - 1) in
  guard! left_ext + right_ext <? bw in
  let top_ext := iclip (- y) 0 (bh - 1) in
  let bottom_ext := iclip (y + bh - ih) 0 (bh - 1) in
  guard! top_ext + bottom_ext <? bh in
  let center_w := bw - left_ext - right_ext in
  let center_h := bh - top_ext - bottom_ext in
  let! d := for_ 0 center_h (fun y d =>
    let b := top_ext + y in
    let! d := for_ 0 center_w (fun i d => let! v := ref (ry + y) (rx + i) in wr2 rows stride d b (left_ext + i) v) d in
    let! d := if negb (left_ext =? 0)
      then let! v := rd2 rows stride d b left_ext in for_ 0 left_ext (fun i d => wr2 rows stride d b i v) d else Ok d in
    if negb (right_ext =? 0)
      then let! v := rd2 rows stride d b (left_ext + center_w - 1) in
           for_ 0 right_ext (fun i d => wr2 rows stride d b (left_ext + center_w + i) v) d else Ok d) plane0 in
  let! d := for_ 0 top_ext (fun y d =>
    for_ 0 bw (fun i d => let! v := rd2 rows stride d top_ext i in wr2 rows stride d y i v) d) d in
  let b0 := top_ext + center_h in
  for_ 0 bottom_ext (fun y d =>
    for_ 0 bw (fun i d => let! v := rd2 rows stride d (b0 + y - 1) i in wr2 rows stride d (b0 + y) i v) d) d.

(** What mc() uses of the frame and of the reference. *)
Record mc_in : Type := {
  m_bd : Z;
  m_layout : Z;         (* 1 = I420, 2 = I422, 3 = I444 *)
  m_w : Z; m_h : Z;     (* f->cur.p.w, h *)
  m_bw : Z; m_bh : Z;   (* f->bw, f->bh *)
  m_rw : Z; m_rh : Z;   (* refp->p.p.w, h *)
  m_same : bool;        (* refp->p.data[0] == f->cur.data[0] *)
  m_scale_x : Z; m_step_x : Z; m_scale_y : Z; m_step_y : Z  (* f->svc[refidx] *)
}.
Definition ss_hor_of (layout pl : Z) : bool := negb (pl =? 0) && negb (layout =? 3).
Definition ss_ver_of (layout pl : Z) : bool := negb (pl =? 0) && (layout =? 1).
Definition b2z (b : bool) : Z := if b then 1 else 0.
(** scale_fac: src/decode.c:3475-3482 *)
Definition scale_fac (ref_sz this_sz : Z) : outcome Z :=
  let! a := ck (Z.shiftl ref_sz 14) in let! b := ck (a + Z.shiftr this_sz 1) in
  guard! negb (this_sz =? 0) in Ok (Z.quot b this_sz).
Definition svc_step (scale : Z) : Z := Z.shiftr (scale + 8) 4.
(** scale_mv: src/recon_tmpl.c:999-1002 (the product is an int64_t) *)
Definition scale_mv (val scale : Z) : outcome Z :=
  let tmp := val * scale + (scale - 0x4000) * 8 in
  let! r := ck (Z.shiftr (Z.abs tmp + 128) 8) in
  ck ((if tmp <? 0 then - r else r) + 32).

(** mc(): src/recon_tmpl.c:941-1052; [put] tells dst8 from dst16 *)
Definition mc (f : mc_in) (put : bool) (st : Z -> Z -> Z -> plane -> outcome plane) (d : plane)
    (bw4 bh4 bx by_ pl mvx mvy : Z) (refdata : Z -> Z -> outcome Z) (filter_2d : Z) : outcome plane :=
  let bd := m_bd f in
  let ss_ver := b2z (ss_ver_of (m_layout f) pl) in
  let ss_hor := b2z (ss_hor_of (m_layout f) pl) in
  let h_mul := Z.shiftr 4 ss_hor in let v_mul := Z.shiftr 4 ss_ver in
  let mx := Z.land mvx (Z.shiftr 15 (1 - ss_hor)) in let my := Z.land mvy (Z.shiftr 15 (1 - ss_ver)) in
  let mx1 := b2z (negb (mx =? 0)) in let my1 := b2z (negb (my =? 0)) in
  if (m_rw f =? m_w f) && (m_rh f =? m_h f) then
    let dx := bx * h_mul + Z.shiftr mvx (3 + ss_hor) in
    let dy := by_ * v_mul + Z.shiftr mvy (3 + ss_ver) in
    let w := if negb (m_same f) then Z.shiftr (m_w f + ss_hor) ss_hor else Z.shiftr (m_bw f * 4) ss_hor in
    let h := if negb (m_same f) then Z.shiftr (m_h f + ss_ver) ss_ver else Z.shiftr (m_bh f * 4) ss_ver in
    let! ref :=
      if (dx <? mx1 * 3) || (dy <? my1 * 3) || (w <? dx + bw4 * h_mul + mx1 * 4) || (h <? dy + bh4 * v_mul + my1 * 4) then
        let! buf := emu_edge (bw4 * h_mul + mx1 * 7) (bh4 * v_mul + my1 * 7) w h (dx - mx1 * 3) (dy - my1 * 3) 192 refdata in
        Ok (fun y x => rd2 (emu_rows 192) 192 buf (my1 * 3 + y) (mx1 * 3 + x))
      else Ok (fun y x => refdata (dy + y) (dx + x)) in
    (if put then fn_mc else fn_mct) bd filter_2d ref (bw4 * h_mul) (bh4 * v_mul) (Z.shiftl mx (1 - ss_hor)) (Z.shiftl my (1 - ss_ver)) st d
  else
    guard! negb (m_same f) in
    let! orig_pos_y := ck (Z.shiftl (by_ * v_mul) 4 + mvy * Z.shiftl 1 (1 - ss_ver)) in
    let! orig_pos_x := ck (Z.shiftl (bx * h_mul) 4 + mvx * Z.shiftl 1 (1 - ss_hor)) in
    let! pos_x := scale_mv orig_pos_x (m_scale_x f) in
    let! pos_y := scale_mv orig_pos_y (m_scale_y f) in
    let left := Z.shiftr pos_x 10 in
    let top := Z.shiftr pos_y 10 in
    let! rp := ck (pos_x + (bw4 * h_mul - 1) * m_step_x f) in
    let right := Z.shiftr rp 10 + 1 in
    let! bp := ck (pos_y + (bh4 * v_mul - 1) * m_step_y f) in
    let bottom := Z.shiftr bp 10 + 1 in
    let w := Z.shiftr (m_rw f + ss_hor) ss_hor in
    let h := Z.shiftr (m_rh f + ss_ver) ss_ver in
    let! ref :=
      if (left <? 3) || (top <? 3) || (w <? right + 4) || (h <? bottom + 4) then
        let! buf := emu_edge (right - left + 7) (bottom - top + 7) w h (left - 3) (top - 3) 320 refdata in
        Ok (fun y x => rd2 (emu_rows 320) 320 buf (3 + y) (3 + x))
      else Ok (fun y x => refdata (top + y) (left + x)) in
    (if put then fn_mc_scaled else fn_mct_scaled) bd filter_2d ref (bw4 * h_mul) (bh4 * v_mul)
      (Z.land pos_x 1023) (Z.land pos_y 1023) (m_step_x f) (m_step_y f) st d.

(** * Two predictions *)
Section Comb.
Variables (bd : Z) (tmp1 tmp2 : Z -> Z -> outcome Z) (w h : Z).
Let ib := inter_bits bd.
Let bias := prep_bias bd.
(** avg_c: src/mc_tmpl.c:587-602 *)
Definition avg_c st d : outcome plane :=
  let sh := ib + 1 in let r := Z.shiftl 1 ib + bias * 2 in
  block w h (fun y x => let! a := tmp1 y x in let! b := tmp2 y x in Ok (clip_pixel bd (Z.shiftr (a + b + r) sh))) st d.
(** w_avg_c: src/mc_tmpl.c:604-620 *)
Definition w_avg_c (weight : Z) st d : outcome plane :=
  let sh := ib + 4 in let r := Z.shiftl 8 ib + bias * 16 in
  block w h (fun y x => let! a := tmp1 y x in let! b := tmp2 y x in
    Ok (clip_pixel bd (Z.shiftr (a * weight + b * (16 - weight) + r) sh))) st d.
(** mask_c: src/mc_tmpl.c:622-639 *)
Definition mask_c (mask : Z -> Z -> outcome Z) st d : outcome plane :=
  let sh := ib + 6 in let r := Z.shiftl 32 ib + bias * 64 in
  block w h (fun y x => let! a := tmp1 y x in let! m := mask y x in let! b := tmp2 y x in
    Ok (clip_pixel bd (Z.shiftr (a * m + b * (64 - m) + r) sh))) st d.
End Comb.

(** w_mask_c: src/mc_tmpl.c:683-742, with the mask as rows of w >> ss_hor values. The loop over the columns goes by two
    when ss_hor, w being even then. [h - y] is the value of h in row y. *)
Definition w_mask_c (bd : Z) (tmp1 tmp2 : Z -> Z -> outcome Z) (w h sign ss_hor ss_ver : Z)
    (st : Z -> Z -> Z -> plane -> outcome plane) (d : plane) : outcome (plane * plane) :=
  let ib := inter_bits bd in
  let sh := ib + 6 in let r := Z.shiftl 32 ib + prep_bias bd * 64 in
  let mask_sh := bd + ib - 4 in let mask_rnd := Z.shiftl 1 (mask_sh - 5) in
  let mw := Z.shiftr w ss_hor in let mh := Z.shiftr h ss_ver in
  let px y x d :=
    let! a := tmp1 y x in let! b := tmp2 y x in
    let m := Z.min (38 + Z.shiftr (Z.abs (a - b) + mask_rnd) mask_sh) 64 in
    let! d := st y x (clip_pixel bd (Z.shiftr (a * m + b * (64 - m) + r) sh)) d in Ok (m, d) in
  guard! 1 <=? h in
  let! s := for_ 0 h (fun y '(d, mask, row) =>
    let! (d, mask) := for_ 0 mw (fun k '(d, mask) =>
      let x := Z.shiftl k ss_hor in
      let! (m, d) := px y x d in
      if negb (ss_hor =? 0) then
        let! (n, d) := px y (x + 1) d in
        let! v := if negb (Z.land (h - y) ss_ver =? 0) then let! o := rd2 mh mw mask row k in Ok (Z.shiftr (m + n + o + 2 - sign) 2)
          else if negb (ss_ver =? 0) then Ok (m + n) else Ok (Z.shiftr (m + n + 1 - sign) 1) in
        let! mask := wr2 mh mw mask row k (u8 v) in Ok (d, mask)
      else let! mask := wr2 mh mw mask row k (u8 m) in Ok (d, mask)) (d, mask) in
    Ok (d, mask, if (ss_ver =? 0) || negb (Z.land (h - y) 1 =? 0) then row + 1 else row)) (d, plane0, 0) in
  Ok (fst (fst s), snd (fst s)).

(** * The prediction of a compound block: src/recon_tmpl.c:1781-1868 *)
Inductive comp_type := COMP_AVG | COMP_WEIGHTED_AVG (jnt_weight : Z) | COMP_SEG (mask_sign : bool) | COMP_WEDGE (mask_sign : bool).
Record comp_in : Type := {
  k_f : bool -> mc_in;              (* the frame and the reference of each prediction *)
  k_bw4 : Z; k_bh4 : Z; k_bx : Z; k_by : Z;
  k_mvx : bool -> Z; k_mvy : bool -> Z; k_filter : Z;
  k_ref : bool -> Z -> Z -> Z -> outcome Z;      (* plane, row, column *)
  k_wedge : Z -> Z -> Z -> Z -> outcome Z        (* WEDGE_MASK(layout, bs, sign, wedge_idx) *) }.
Definition layout_idx (layout : Z) : Z := if layout =? 0 then 0 else 3 - layout.
Section Compound.
Variables (k : comp_in) (ct : comp_type).
Let layout := m_layout (k_f k false).
Let bd := m_bd (k_f k false).
Definition plane_w (pl : Z) : Z := Z.shiftr (k_bw4 k * 4) (b2z (ss_hor_of layout pl)).
Definition plane_h (pl : Z) : Z := Z.shiftr (k_bh4 k * 4) (b2z (ss_ver_of layout pl)).
Definition comp_tmp (pl : Z) (i : bool) : outcome plane :=
  mc (k_f k i) false (st_tmp (plane_w pl) (plane_h pl)) plane0 (k_bw4 k) (k_bh4 k) (k_bx k) (k_by k) pl (k_mvx k i) (k_mvy k i) (k_ref k i pl) (k_filter k).
Definition tmp_rd (pl : Z) (t : plane) (y x : Z) : outcome Z := rd2 (plane_h pl) (plane_w pl) t y x.
(** the luma prediction and the mask for chroma; [tmps] fills tmp[0] and tmp[1] *)
Variable tmps : Z -> bool -> outcome plane.
Definition comp_luma_of st d : outcome (plane * (Z -> Z -> outcome Z)) :=
  let! t0 := tmps 0 false in let! t1 := tmps 0 true in
  let w := plane_w 0 in let h := plane_h 0 in
  let tmp (i : bool) := tmp_rd 0 (if i then t1 else t0) in
  match ct with
  | COMP_AVG => let! d := avg_c bd (tmp false) (tmp true) w h st d in Ok (d, fun _ _ => Undef)
  | COMP_WEIGHTED_AVG wt => let! d := w_avg_c bd (tmp false) (tmp true) w h wt st d in Ok (d, fun _ _ => Undef)
  | COMP_SEG s =>
    let ss_hor := if layout_idx layout =? 0 then 0 else 1 in let ss_ver := if layout_idx layout =? 2 then 1 else 0 in
    let! (d, mask) := w_mask_c bd (tmp s) (tmp (negb s)) w h (b2z s) ss_hor ss_ver st d in
    Ok (d, rd2 (Z.shiftr h ss_ver) (Z.shiftr w ss_hor) mask)
  | COMP_WEDGE s =>
    let! d := mask_c bd (tmp s) (tmp (negb s)) w h (k_wedge k 0 0) st d in
    Ok (d, k_wedge k (layout_idx layout) (b2z s))
  end.
(** plane 1 or 2 *)
Definition comp_chroma_of (pl : Z) (mask : Z -> Z -> outcome Z) st d : outcome plane :=
  let! t0 := tmps pl false in let! t1 := tmps pl true in
  let w := plane_w pl in let h := plane_h pl in
  let tmp (i : bool) := tmp_rd pl (if i then t1 else t0) in
  match ct with
  | COMP_AVG => avg_c bd (tmp false) (tmp true) w h st d
  | COMP_WEIGHTED_AVG wt => w_avg_c bd (tmp false) (tmp true) w h wt st d
  | COMP_SEG s | COMP_WEDGE s => mask_c bd (tmp s) (tmp (negb s)) w h mask st d
  end.
End Compound.
(** without global warped motion *)
Definition comp_luma (k : comp_in) (ct : comp_type) := comp_luma_of k ct (comp_tmp k).
Definition comp_chroma (k : comp_in) (ct : comp_type) := comp_chroma_of k ct (comp_tmp k).

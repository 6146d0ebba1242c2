(** Model of film grain synthesis: /repo/src/filmgrain_tmpl.c and
    /repo/src/fg_apply_tmpl.c (the C functions; [bd] is the bit depth, 8 in the
    BITDEPTH == 8 build).

    Arrays are functions with undefined cells; every access is checked against the
    size of the array, and int results that could be large against the range of int.
    A row of pixels may be accessed up to the stride.  Pointer offsets are replaced
    by coordinates. *)
From Coq Require Import ZArith List Bool.
From Verif Require Import Base.CInt Base.Loop Obu.FrameModel Grain.Table.
Import ListNotations.
Open Scope Z_scope.
Local Open Scope outcome_scope.

Definition GRAIN_WIDTH : Z := 82.
Definition GRAIN_HEIGHT : Z := 73.
Definition FG_BLOCK_SIZE : Z := 32.
(** filmgrain.h:40-46: entry, SCALING_SIZE. *)
Definition entry (bd v : Z) : Z := if bd =? 8 then s8 v else s16 v.
Definition scaling_size (bd : Z) : Z := if bd =? 8 then 256 else 4096.
Definition pixel (bd v : Z) : Z := if bd =? 8 then u8 v else u16 v.
Definition bitdepth_max (bd : Z) : Z := Z.shiftl 1 bd - 1.

(** filmgrain_tmpl.c:37-43. *)
Definition get_random_number (bits state : Z) : Z * Z :=
  let r := state in
  let bit := Z.land (Z.lxor (Z.lxor (Z.lxor (Z.shiftr r 0) (Z.shiftr r 1)) (Z.shiftr r 3)) (Z.shiftr r 12)) 1 in
  let state := Z.lor (Z.shiftr r 1) (Z.shiftl bit 15) in
  (Z.land (Z.shiftr state (16 - bits)) (Z.shiftl 1 bits - 1), state).
(** filmgrain_tmpl.c:45-47. *)
Definition round2 (x shift : Z) : Z := Z.shiftr (x + Z.shiftr (Z.shiftl 1 shift) 1) shift.

(** * Grain templates *)
(** Lines 60-65 and 106-111: white noise. *)
Definition noise_loop (bd h w shift seed : Z) : outcome (plane * Z) :=
  for_ 0 h (fun y st =>
    for_ 0 w (fun x st =>
      let '(buf, seed) := st in
      let '(value, seed) := get_random_number 11 seed in
      let! g := rd_at gaussian_list value in
      let! buf := wr2 GRAIN_HEIGHT GRAIN_WIDTH buf y x (entry bd (round2 g shift)) in
      Ok (buf, seed)) st) (plane0, seed).

(** Lines 72-82 and 118-144, the weighted sum over the neighbours that come before;
    the loop over dx is left at dx = dy = 0.  The result is (sum, index into the
    coefficients). *)
Definition ar_sum (coeffs : list Z) (lag : Z) (buf : plane) (y x : Z) : outcome (Z * Z) :=
  for_ (- lag) 1 (fun dy st =>
    for_ (- lag) (if dy =? 0 then 0 else lag + 1) (fun dx st =>
      let '(sum, k) := st in
      let! c := rd_at coeffs k in
      let! v := rd2 GRAIN_HEIGHT GRAIN_WIDTH buf (y + dy) (x + dx) in
      let! sum := ck (sum + c * v) in
      Ok (sum, k + 1)) st) (0, 0).

Definition grain_ctr (bd : Z) : Z := Z.shiftl 128 (bd - 8).
Definition grain_clip (bd v : Z) : Z := iclip v (- grain_ctr bd) (grain_ctr bd - 1).

(** filmgrain_tmpl.c:49-87 generate_grain_y_c. *)
Definition generate_grain_y (bd : Z) (d : fgdata) : outcome plane :=
  let shift := 4 - (bd - 8) + fg_grain_scale_shift d in
  let! (buf, _) := noise_loop bd GRAIN_HEIGHT GRAIN_WIDTH shift (fg_seed d) in
  for_ 3 GRAIN_HEIGHT (fun y buf =>
    for_ 3 (GRAIN_WIDTH - 3) (fun x buf =>
      let! (sum, _) := ar_sum (fg_ar_coeffs_y d) (fg_ar_coeff_lag d) buf y x in
      let! v := rd2 GRAIN_HEIGHT GRAIN_WIDTH buf y x in
      let grain := v + round2 sum (fg_ar_coeff_shift d) in
      wr2 GRAIN_HEIGHT GRAIN_WIDTH buf y x (entry bd (grain_clip bd grain))) buf) buf.

Definition has_y (d : fgdata) : bool := negb (zlen (fg_y_points d) =? 0).
Definition uv_coeffs (d : fgdata) (uv : Z) : list Z := if uv =? 0 then fg_ar_coeffs_u d else fg_ar_coeffs_v d.

(** filmgrain_tmpl.c:89-151 generate_grain_uv_c. *)
Definition generate_grain_uv (bd : Z) (d : fgdata) (uv subx suby : Z) (buf_y : plane) : outcome plane :=
  let seed := Z.lxor (fg_seed d) (if uv =? 0 then 46372 else 18904) in   (* 0xb524, 0x49d8 *)
  let shift := 4 - (bd - 8) + fg_grain_scale_shift d in
  let chromaW := if subx =? 0 then GRAIN_WIDTH else 44 in
  let chromaH := if suby =? 0 then GRAIN_HEIGHT else 38 in
  let! (buf, _) := noise_loop bd chromaH chromaW shift seed in
  for_ 3 chromaH (fun y buf =>
    for_ 3 (chromaW - 3) (fun x buf =>
      let! (sum, k) := ar_sum (uv_coeffs d uv) (fg_ar_coeff_lag d) buf y x in
      let! sum :=
        (if has_y d then
           let lumaX := Z.shiftl (x - 3) subx + 3 in
           let lumaY := Z.shiftl (y - 3) suby + 3 in
           let! luma :=
             for_ 0 (suby + 1) (fun i luma =>
               for_ 0 (subx + 1) (fun j luma =>
                 let! v := rd2 GRAIN_HEIGHT GRAIN_WIDTH buf_y (lumaY + i) (lumaX + j) in
                 Ok (luma + v)) luma) 0 in
           let luma := round2 luma (subx + suby) in
           let! c := rd_at (uv_coeffs d uv) k in
           ck (sum + luma * c)
         else Ok sum) in
      let! v := rd2 GRAIN_HEIGHT GRAIN_WIDTH buf y x in
      let grain := v + round2 sum (fg_ar_coeff_shift d) in
      wr2 GRAIN_HEIGHT GRAIN_WIDTH buf y x (entry bd (grain_clip bd grain))) buf) buf.

(** * Scaling functions *)
(** fg_apply_tmpl.c:42-99 generate_scaling. *)
Definition generate_scaling (bd : Z) (points : list (Z * Z)) : outcome arr :=
  let shift_x := bd - 8 in
  let n_alloc := scaling_size bd in
  let size := if bd =? 8 then n_alloc else Z.shiftl 1 bd in
  let num := zlen points in
  if num =? 0 then memset1 n_alloc arr0 0 0 size else
  let! p0 := rd_at points 0 in
  let! a := memset1 n_alloc arr0 0 (snd p0) (Z.shiftl (fst p0) shift_x) in
  let! a :=
    for_ 0 (num - 1) (fun i a =>
      let! b := rd_at points i in
      let! e := rd_at points (i + 1) in
      let dx := fst e - fst b in
      let dy := snd e - snd b in
      guard! 0 <? dx in                                                (* assert *)
      let! delta := ck (dy * ((65536 + Z.shiftr dx 1) / dx)) in
      let! (a, _) :=
        for_ 0 dx (fun x st =>
          let '(a, d) := st in
          let! a := wr1 n_alloc a (Z.shiftl (fst b + x) shift_x) (u8 (snd b + Z.shiftr d 16)) in
          let! d := ck (d + delta) in
          Ok (a, d)) (a, 32768) in
      Ok a) a in
  let! pl := rd_at points (num - 1) in
  let n := Z.shiftl (fst pl) shift_x in
  let! a := memset1 n_alloc a n (snd pl) (size - n) in
  if bd =? 8 then Ok a else
  let pad := Z.shiftl 1 shift_x in
  let rnd := Z.shiftr pad 1 in
  for_ 0 (num - 1) (fun i a =>
    let! b := rd_at points i in
    let! e := rd_at points (i + 1) in
    let bx := Z.shiftl (fst b) shift_x in
    let ex := Z.shiftl (fst e) shift_x in
    let dx := ex - bx in
    (* for (x = 0; x < dx; x += pad), dx is a multiple of pad *)
    for_ 0 (Z.shiftr dx shift_x) (fun k a =>
      let x := k * pad in
      let! hi := rd1 n_alloc a (bx + x + pad) in
      let! lo := rd1 n_alloc a (bx + x) in
      let range := hi - lo in
      let! (a, _) :=
        for_ 1 pad (fun n st =>
          let '(a, r) := st in
          let r := r + range in
          let! lo := rd1 n_alloc a (bx + x) in
          let! a := wr1 n_alloc a (bx + x + n) (u8 (lo + Z.shiftr r shift_x)) in
          Ok (a, r)) (a, rnd) in
      Ok a) a) a.

(** * Adding noise *)
(** filmgrain_tmpl.c:165-174 sample_lut. *)
Definition sample_lut (lut : plane) (off : outcome Z) (subx suby bx by_ x y : Z) : outcome Z :=
  let! randval := off in
  let offx := 3 + Z.shiftr 2 subx * (3 + Z.shiftr randval 4) in
  let offy := 3 + Z.shiftr 2 suby * (3 + Z.land randval 15) in
  rd2 GRAIN_HEIGHT GRAIN_WIDTH lut (offy + y + Z.shiftr FG_BLOCK_SIZE suby * by_)
    (offx + x + Z.shiftr FG_BLOCK_SIZE subx * bx).
(** The weights w[sub][pos]: lines 226 and 342-345. *)
Definition weights (sub pos : Z) : outcome (Z * Z) :=
  let! l := rd_at [[(27, 17); (17, 27)]; [(23, 22)]] sub in rd_at l pos.
Definition blend (bd : Z) (w : Z * Z) (old cur : Z) : Z := grain_clip bd (round2 (old * fst w + cur * snd w) 5).

(** The offsets cache offsets[2][2]. *)
Record offs : Type := mkOffs { o00 : option Z; o01 : option Z; o10 : option Z; o11 : option Z }.
Definition get_off (o : option Z) : outcome Z := match o with Some v => Ok v | None => Undef end.
Definition off_at (f : offs) (bx by_ : Z) : outcome Z :=
  if bx =? 0 then (if by_ =? 0 then get_off (o00 f) else get_off (o01 f))
  else (if by_ =? 0 then get_off (o10 f) else get_off (o11 f)).

(** Lines 195-201: seeds of the row and of the one above. *)
Definition row_seed (d : fgdata) (row i : Z) : Z :=
  Z.lxor (Z.lxor (fg_seed d) (Z.shiftl (Z.land ((row - i) * 37 + 178) 255) 8)) (Z.land ((row - i) * 173 + 105) 255).

(** Grain of one pixel in the four regions of a block: lines 233-282 and 361-412. *)
Definition grain_plain (lut : plane) (f : offs) (sx sy x y : Z) : outcome Z :=
  sample_lut lut (off_at f 0 0) sx sy 0 0 x y.
Definition grain_col (bd : Z) (lut : plane) (f : offs) (sx sy x y : Z) : outcome Z :=
  let! g := sample_lut lut (off_at f 0 0) sx sy 0 0 x y in
  let! old := sample_lut lut (off_at f 1 0) sx sy 1 0 x y in
  let! w := weights sx x in
  Ok (blend bd w old g).
Definition grain_row (bd : Z) (lut : plane) (f : offs) (sx sy x y : Z) : outcome Z :=
  let! g := sample_lut lut (off_at f 0 0) sx sy 0 0 x y in
  let! old := sample_lut lut (off_at f 0 1) sx sy 0 1 x y in
  let! w := weights sy y in
  Ok (blend bd w old g).
Definition grain_corner (bd : Z) (lut : plane) (f : offs) (sx sy x y : Z) : outcome Z :=
  let! top := sample_lut lut (off_at f 0 1) sx sy 0 1 x y in
  let! old := sample_lut lut (off_at f 1 1) sx sy 1 1 x y in
  let! wx := weights sx x in
  let top := blend bd wx old top in
  let! g := sample_lut lut (off_at f 0 0) sx sy 0 0 x y in
  let! old := sample_lut lut (off_at f 1 0) sx sy 1 0 x y in
  let g := blend bd wx old g in
  let! wy := weights sy y in
  Ok (blend bd wy top g).

(** The loops of a row of blocks, lines 208-284 and 323-415: [add y x g] adds noise
    [g] to the pixel at row [y] of the row of blocks and column [x].  [pw] is the
    width, [bh] the height. *)
Definition block_rows (bd : Z) (d : fgdata) (lut : plane) (pw bh row sx sy : Z)
  (add : Z -> Z -> Z -> plane -> outcome plane) (dst : plane) : outcome plane :=
  let overlap := z2b (fg_overlap_flag d) in
  let two_rows := overlap && (0 <? row) in
  let bsz := Z.shiftr FG_BLOCK_SIZE sx in
  let! (dst, _, _, _) :=
    for_ 0 ((pw + bsz - 1) / bsz) (fun k st =>
      let '(dst, f, seed0, seed1) := st in
      let bx := k * bsz in
      let bw := Z.min bsz (pw - bx) in
      let f := if overlap && negb (bx =? 0)
               then mkOffs (o00 f) (o01 f) (o00 f) (if two_rows then o01 f else o11 f) else f in
      let '(r0, seed0) := get_random_number 8 seed0 in
      let '(r1, seed1) := if two_rows then get_random_number 8 seed1 else (0, seed1) in
      let f := mkOffs (Some r0) (if two_rows then Some r1 else o01 f) (o10 f) (o11 f) in
      let ystart := if overlap && negb (row =? 0) then Z.min (Z.shiftr 2 sy) bh else 0 in
      let xstart := if overlap && negb (bx =? 0) then Z.min (Z.shiftr 2 sx) bw else 0 in
      let! dst :=
        for_ ystart bh (fun y dst =>
          let! dst := for_ xstart bw (fun x dst => let! g := grain_plain lut f sx sy x y in add y (bx + x) g dst) dst in
          for_ 0 xstart (fun x dst => let! g := grain_col bd lut f sx sy x y in add y (bx + x) g dst) dst) dst in
      let! dst :=
        for_ 0 ystart (fun y dst =>
          let! dst := for_ xstart bw (fun x dst => let! g := grain_row bd lut f sx sy x y in add y (bx + x) g dst) dst in
          for_ 0 xstart (fun x dst => let! g := grain_corner bd lut f sx sy x y in add y (bx + x) g dst) dst) dst in
      Ok (dst, f, seed0, seed1))
    (dst, mkOffs None None None None, row_seed d row 0, row_seed d row 1) in
  Ok dst.

(** A picture: planes with their strides and numbers of rows. *)
Record image : Type := mkImage { im_y : plane; im_u : plane; im_v : plane; im_stride : Z; im_cstride : Z; im_rows : Z; im_crows : Z }.
Record geometry : Type := mkGeom { g_w : Z; g_h : Z; g_ssx : Z; g_ssy : Z; g_mono : bool; g_identity : bool }.

Definition min_value (bd : Z) (d : fgdata) : Z := if z2b (fg_clip_to_restricted_range d) then Z.shiftl 16 (bd - 8) else 0.

(** filmgrain_tmpl.c:176-285 fgy_32x32xn_c. *)
Definition fgy (bd : Z) (d : fgdata) (scaling : arr) (lut : plane) (src : plane) (stride rows drows w bh row : Z) (dst : plane)
  : outcome plane :=
  let max_value := if z2b (fg_clip_to_restricted_range d) then Z.shiftl 235 (bd - 8) else bitdepth_max bd in
  guard! stride mod FG_BLOCK_SIZE =? 0 in                                (* assert, line 198 *)
  block_rows bd d lut w bh row 0 0 (fun y x g dst =>
    let! s := rd2 rows stride src (row * 32 + y) x in
    let! sc := rd1 (scaling_size bd) scaling s in
    let! p := ck (sc * g) in
    let noise := round2 p (fg_scaling_shift d) in
    wr2 drows stride dst (row * 32 + y) x (pixel bd (iclip (s + noise) (min_value bd d) max_value))) dst.

(** filmgrain_tmpl.c:287-417 fguv_32x32xn_c. *)
Definition fguv (bd : Z) (d : fgdata) (scaling : arr) (lut : plane) (luma src : plane) (lstride lrows stride rows drows pw bh row : Z)
  (uv : Z) (identity : bool) (sx sy : Z) (dst : plane) : outcome plane :=
  let max_value := if z2b (fg_clip_to_restricted_range d) then Z.shiftl (if identity then 235 else 240) (bd - 8) else bitdepth_max bd in
  let '(mult, luma_mult, offset) := if uv =? 0 then fg_u_mult d else fg_v_mult d in
  let base := Z.shiftr (row * 32) sy in
  guard! stride mod FG_BLOCK_SIZE =? 0 in                                (* assert, line 309 *)
  block_rows bd d lut pw bh row sx sy (fun y x g dst =>
    let lx := Z.shiftl x sx in
    let ly := Z.shiftl y sy in
    let! l0 := rd2 lrows lstride luma (row * 32 + ly) lx in
    let! avg := (if sx =? 0 then Ok l0 else
                 let! l1 := rd2 lrows lstride luma (row * 32 + ly) (lx + 1) in Ok (pixel bd (Z.shiftr (l0 + l1 + 1) 1))) in
    let! s := rd2 rows stride src (base + y) x in
    let! val :=
      (if z2b (fg_csfl d) then Ok avg else
       let! combined := ck (avg * luma_mult + s * mult) in
       Ok (iclip (Z.shiftr combined 6 + offset * Z.shiftl 1 (bd - 8)) 0 (bitdepth_max bd))) in
    let! sc := rd1 (scaling_size bd) scaling val in
    let! p := ck (sc * g) in
    let noise := round2 p (fg_scaling_shift d) in
    wr2 drows stride dst (base + y) x (pixel bd (iclip (s + noise) (min_value bd d) max_value))) dst.

(** * A picture *)
Definition has_u (d : fgdata) : bool := negb (zlen (fg_u_points d) =? 0).
Definition has_v (d : fgdata) : bool := negb (zlen (fg_v_points d) =? 0).
Definition csfl (d : fgdata) : bool := z2b (fg_csfl d).

(** The tables of dav1d_prep_grain, fg_apply_tmpl.c:103-130. *)
Record tables : Type := mkTables { t_ly : plane; t_lu : plane; t_lv : plane; t_sy : arr; t_su : arr; t_sv : arr }.
Definition prep_tables (bd : Z) (d : fgdata) (g : geometry) : outcome tables :=
  let! ly := generate_grain_y bd d in
  (* generate_grain_uv[layout - 1] does not exist without chroma *)
  let uv b i := if b || csfl d then guard! negb (g_mono g) in generate_grain_uv bd d i (g_ssx g) (g_ssy g) ly else Ok plane0 in
  let! lu := uv (has_u d) 0 in
  let! lv := uv (has_v d) 1 in
  let! sy := (if has_y d || csfl d then generate_scaling bd (fg_y_points d) else Ok arr0) in
  let! su := (if has_u d then generate_scaling bd (fg_u_points d) else Ok arr0) in
  let! sv := (if has_v d then generate_scaling bd (fg_v_points d) else Ok arr0) in
  Ok (mkTables ly lu lv sy su sv).

(** Lines 129-153: planes that do not change are copied. *)
Definition prep_planes (d : fgdata) (g : geometry) (i : image) (out : image) : outcome image :=
  guard! im_stride out =? im_stride i in                                 (* assert *)
  let y := if has_y d then im_y out else im_y i in
  let cp := negb (g_mono g) && negb (csfl d) in
  guard! negb cp || (im_cstride out =? im_cstride i) in                  (* assert *)
  let u := if cp && negb (has_u d) then im_u i else im_u out in
  let v := if cp && negb (has_v d) then im_v i else im_v out in
  Ok (mkImage y u v (im_stride out) (im_cstride out) (im_rows out) (im_crows out)).

(** Lines 164-226 dav1d_apply_grain_row: the input picture (whose padding is
    written) and the output picture. *)
Definition apply_row (bd : Z) (d : fgdata) (g : geometry) (t : tables) (row : Z) (st : image * image) : outcome (image * image) :=
  let '(i, out) := st in
  let w := g_w g in
  let cpw := Z.shiftr (w + g_ssx g) (g_ssx g) in
  let! y :=
    (if has_y d then
       let bh := Z.min (g_h g - row * 32) 32 in
       fgy bd d (t_sy t) (t_ly t) (im_y i) (im_stride out) (im_rows i) (im_rows out) w bh row (im_y out)
     else Ok (im_y out)) in
  let out := mkImage y (im_u out) (im_v out) (im_stride out) (im_cstride out) (im_rows out) (im_crows out) in
  if negb (has_u d) && negb (has_v d) && negb (csfl d) then Ok (i, out) else
  let bh := Z.shiftr (Z.min (g_h g - row * 32) 32 + g_ssy g) (g_ssy g) in
  let! ly :=
    (if z2b (Z.land w (g_ssx g)) then
       for_ 0 bh (fun y p =>
         let yy := row * 32 + Z.shiftl y (g_ssy g) in
         let! v := rd2 (im_rows i) (im_stride i) p yy (w - 1) in
         wr2 (im_rows i) (im_stride i) p yy w v) (im_y i)
     else Ok (im_y i)) in
  let i := mkImage ly (im_u i) (im_v i) (im_stride i) (im_cstride i) (im_rows i) (im_crows i) in
  let uv pl sc lut src dst :=
    fguv bd d sc lut (im_y i) src (im_stride i) (im_rows i) (im_cstride i) (im_crows i) (im_crows out) cpw bh row pl (g_identity g) (g_ssx g) (g_ssy g) dst in
  let! (u, v) :=
    (if csfl d then
       let! u := uv 0 (t_sy t) (t_lu t) (im_u i) (im_u out) in
       let! v := uv 1 (t_sy t) (t_lv t) (im_v i) (im_v out) in
       Ok (u, v)
     else
       let! u := (if has_u d then uv 0 (t_su t) (t_lu t) (im_u i) (im_u out) else Ok (im_u out)) in
       let! v := (if has_v d then uv 1 (t_sv t) (t_lv t) (im_v i) (im_v out) else Ok (im_v out)) in
       Ok (u, v)) in
  Ok (i, mkImage (im_y out) u v (im_stride out) (im_cstride out) (im_rows out) (im_crows out)).

(** Lines 228-244 dav1d_apply_grain. *)
Definition apply_grain (bd : Z) (d : fgdata) (g : geometry) (i out : image) : outcome (image * image) :=
  let rows := (g_h g + 31) / 32 in
  let! t := prep_tables bd d g in
  let! out := prep_planes d g i out in
  for_ 0 rows (apply_row bd d g t) (i, out).

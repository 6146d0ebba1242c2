(** Wedge and inter-intra masks: src/wedge.c and src/wedge.h. *)
From Coq Require Import ZArith List Bool.
From Verif Require Import Base.CInt Base.Loop Mc.Model.
Import ListNotations.
Open Scope Z_scope.
Local Open Scope outcome_scope.

(** * The tables: src/wedge.c:38-89 *)
Definition WEDGE_HORIZONTAL := 0.
Definition WEDGE_VERTICAL := 1.
Definition WEDGE_OBLIQUE27 := 2.
Definition WEDGE_OBLIQUE63 := 3.
Definition WEDGE_OBLIQUE117 := 4.
Definition WEDGE_OBLIQUE153 := 5.
(** direction, x_offset, y_offset *)
Definition wedge_codebook_16_hgtw : list (Z * Z * Z) :=
  [ (WEDGE_OBLIQUE27, 4, 4); (WEDGE_OBLIQUE63, 4, 4); (WEDGE_OBLIQUE117, 4, 4); (WEDGE_OBLIQUE153, 4, 4);
    (WEDGE_HORIZONTAL, 4, 2); (WEDGE_HORIZONTAL, 4, 4); (WEDGE_HORIZONTAL, 4, 6); (WEDGE_VERTICAL, 4, 4);
    (WEDGE_OBLIQUE27, 4, 2); (WEDGE_OBLIQUE27, 4, 6); (WEDGE_OBLIQUE153, 4, 2); (WEDGE_OBLIQUE153, 4, 6);
    (WEDGE_OBLIQUE63, 2, 4); (WEDGE_OBLIQUE63, 6, 4); (WEDGE_OBLIQUE117, 2, 4); (WEDGE_OBLIQUE117, 6, 4) ].
Definition wedge_codebook_16_hltw : list (Z * Z * Z) :=
  [ (WEDGE_OBLIQUE27, 4, 4); (WEDGE_OBLIQUE63, 4, 4); (WEDGE_OBLIQUE117, 4, 4); (WEDGE_OBLIQUE153, 4, 4);
    (WEDGE_VERTICAL, 2, 4); (WEDGE_VERTICAL, 4, 4); (WEDGE_VERTICAL, 6, 4); (WEDGE_HORIZONTAL, 4, 4);
    (WEDGE_OBLIQUE27, 4, 2); (WEDGE_OBLIQUE27, 4, 6); (WEDGE_OBLIQUE153, 4, 2); (WEDGE_OBLIQUE153, 4, 6);
    (WEDGE_OBLIQUE63, 2, 4); (WEDGE_OBLIQUE63, 6, 4); (WEDGE_OBLIQUE117, 2, 4); (WEDGE_OBLIQUE117, 6, 4) ].
Definition wedge_codebook_16_heqw : list (Z * Z * Z) :=
  [ (WEDGE_OBLIQUE27, 4, 4); (WEDGE_OBLIQUE63, 4, 4); (WEDGE_OBLIQUE117, 4, 4); (WEDGE_OBLIQUE153, 4, 4);
    (WEDGE_HORIZONTAL, 4, 2); (WEDGE_HORIZONTAL, 4, 6); (WEDGE_VERTICAL, 2, 4); (WEDGE_VERTICAL, 6, 4);
    (WEDGE_OBLIQUE27, 4, 2); (WEDGE_OBLIQUE27, 4, 6); (WEDGE_OBLIQUE153, 4, 2); (WEDGE_OBLIQUE153, 4, 6);
    (WEDGE_OBLIQUE63, 2, 4); (WEDGE_OBLIQUE63, 6, 4); (WEDGE_OBLIQUE117, 2, 4); (WEDGE_OBLIQUE117, 6, 4) ].
(** src/wedge.c:219-223 *)
Definition border_odd : list Z := [1; 2; 6; 18; 37; 53; 60; 63].
Definition border_even : list Z := [1; 4; 11; 27; 46; 58; 62; 63].
Definition border_vert : list Z := [0; 2; 7; 21; 43; 57; 62; 64].

(** * Dav1dMasks: src/wedge.h:33-80 *)
(** enum BlockSize (src/levels.h:158-182) *)
Definition BS_32x32 := 7.
Definition BS_32x16 := 8.
Definition BS_32x8 := 9.
Definition BS_16x32 := 11.
Definition BS_16x16 := 12.
Definition BS_16x8 := 13.
Definition BS_8x32 := 15.
Definition BS_8x16 := 16.
Definition BS_8x8 := 17.
Definition N_BS := BS_8x8 - BS_32x32 + 1.
(** The arrays in their order, with size and alignment; the first is [offsets], of uint16_t *)
Definition members : list (Z * Z) :=
  [ (2 * (3 * N_BS * 36), 2);
    (16 * 32 * 32, 64); (16 * 32 * 16, 64); (16 * 32 * 8, 64); (16 * 16 * 32, 64); (16 * 16 * 16, 64);
    (16 * 16 * 8, 64); (16 * 8 * 32, 64); (16 * 8 * 16, 64); (16 * 8 * 8, 64);
    (2 * 16 * 16 * 32, 64); (2 * 16 * 16 * 16, 64); (2 * 16 * 16 * 8, 64); (2 * 16 * 8 * 32, 64); (2 * 16 * 8 * 16, 64);
    (2 * 16 * 8 * 8, 64); (2 * 16 * 4 * 32, 64); (2 * 16 * 4 * 16, 64); (2 * 16 * 4 * 8, 64);
    (2 * 16 * 16 * 16, 64); (2 * 16 * 16 * 8, 64); (2 * 16 * 16 * 4, 64); (2 * 16 * 8 * 16, 64); (2 * 16 * 8 * 8, 64);
    (2 * 16 * 8 * 4, 64); (2 * 16 * 4 * 16, 64); (2 * 16 * 4 * 8, 64); (2 * 16 * 4 * 4, 64);
    (32 * 32, 64); (3 * 32 * 32, 64); (3 * 16 * 32, 64); (3 * 16 * 16, 64); (3 * 8 * 32, 64); (3 * 8 * 16, 64);
    (3 * 8 * 8, 64); (3 * 4 * 16, 64); (3 * 4 * 8, 32); (3 * 4 * 4, 16) ].
Definition m444_32x32 := 1.  Definition m444_32x16 := 2.  Definition m444_32x8 := 3.
Definition m444_16x32 := 4.  Definition m444_16x16 := 5.  Definition m444_16x8 := 6.
Definition m444_8x32 := 7.   Definition m444_8x16 := 8.   Definition m444_8x8 := 9.
Definition m422_16x32 := 10. Definition m422_16x16 := 11. Definition m422_16x8 := 12.
Definition m422_8x32 := 13.  Definition m422_8x16 := 14.  Definition m422_8x8 := 15.
Definition m422_4x32 := 16.  Definition m422_4x16 := 17.  Definition m422_4x8 := 18.
Definition m420_16x16 := 19. Definition m420_16x8 := 20.  Definition m420_16x4 := 21.
Definition m420_8x16 := 22.  Definition m420_8x8 := 23.   Definition m420_8x4 := 24.
Definition m420_4x16 := 25.  Definition m420_4x8 := 26.   Definition m420_4x4 := 27.
Definition ii_dc := 28.
Definition ii_32x32 := 29. Definition ii_16x32 := 30. Definition ii_16x16 := 31.
Definition ii_8x32 := 32.  Definition ii_8x16 := 33.  Definition ii_8x8 := 34.
Definition ii_4x16 := 35.  Definition ii_4x8 := 36.   Definition ii_4x4 := 37.
Fixpoint lay_out (at_ : Z) (l : list (Z * Z)) : list (Z * Z) :=
  match l with
  | [] => []
  | (n, a) :: l => let b := (at_ + (a - 1)) / a * a in (b, n) :: lay_out (b + n) l
  end.
Definition layout_of : list (Z * Z) := lay_out 0 members.
Definition base (k : Z) : Z := fst (nth (Z.to_nat k) layout_of (0, 0)).
Definition size (k : Z) : Z := snd (nth (Z.to_nat k) layout_of (0, 0)).
Definition SIZEOF : Z := base ii_4x4 + size ii_4x4.

(** The masks by byte address, and [offsets]: row [l * N_BS + bs], column [sign * 16 + wedge_idx] or [32 + mode] *)
Record masks : Type := { ms_mem : arr; ms_off : plane }.
(** A pointer into one of the arrays *)
Definition ptr : Type := (Z * Z)%type.
Definition padd (p : ptr) (n : Z) : ptr := (fst p, snd p + n).
Definition addr (p : ptr) : Z := base (fst p) + snd p.
Definition load (m : masks) (p : ptr) (i : Z) : outcome Z :=
  guard! (0 <=? snd p + i) && (snd p + i <? size (fst p)) in rd1 SIZEOF (ms_mem m) (addr p + i).
Definition store (p : ptr) (i v : Z) (m : masks) : outcome masks :=
  guard! (0 <=? snd p + i) && (snd p + i <? size (fst p)) in
  let! a := wr1 SIZEOF (ms_mem m) (addr p + i) (u8 v) in Ok {| ms_mem := a; ms_off := ms_off m |}.
(** MASK_OFFSET: src/wedge.c:133 *)
Definition mask_offset (p : ptr) : Z := u16 (Z.shiftr (addr p) 3).
Definition set_off (l bs col v : Z) (m : masks) : outcome masks :=
  guard! (0 <=? l) && (l <? 3) && (0 <=? bs) && (bs <? N_BS) in
  let! o := wr2 (3 * N_BS) 36 (ms_off m) (l * N_BS + bs) col v in Ok {| ms_mem := ms_mem m; ms_off := o |}.
Definition get_off (m : masks) (l bs col : Z) : outcome Z :=
  guard! (0 <=? l) && (l <? 3) && (0 <=? bs) && (bs <? N_BS) in rd2 (3 * N_BS) 36 (ms_off m) (l * N_BS + bs) col.

(** * The master templates: uint8_t master[6][64 * 64] *)
Definition rdm (m : plane) (d i : Z) : outcome Z := rd2 6 4096 m d i.
Definition wrm (d i v : Z) (m : plane) : outcome plane := wr2 6 4096 m d i v.
(** insert_border: src/wedge.c:93-100 *)
Definition insert_border (d off : Z) (src : list Z) (ctr : Z) (m : plane) : outcome plane :=
  let! m := if 4 <? ctr then for_ 0 (ctr - 4) (fun i m => wrm d (off + i) 0 m) m else Ok m in
  let! m := for_ 0 (Z.min (64 - ctr) 8) (fun i m =>
    let! v := rd_at src (Z.max (4 - ctr) 0 + i) in wrm d (off + (Z.max ctr 4 - 4) + i) v m) m in
  if ctr <? 64 - 4 then for_ 0 (64 - 4 - ctr) (fun i m => wrm d (off + ctr + 4 + i) 64 m) m else Ok m.
(** transpose, hflip: src/wedge.c:102-112 *)
Definition transpose (dst src : Z) (m : plane) : outcome plane :=
  for_ 0 64 (fun y m => for_ 0 64 (fun x m => let! v := rdm m src (y * 64 + x) in wrm dst (x * 64 + y) v m) m) m.
Definition hflip (dst src : Z) (m : plane) : outcome plane :=
  for_ 0 64 (fun y m => for_ 0 64 (fun x m => let! v := rdm m src (y * 64 + x) in wrm dst (y * 64 + 64 - 1 - x) v m) m) m.
(** src/wedge.c:226-243 *)
Definition make_master : outcome plane :=
  let! m := for_ 0 64 (fun y m => insert_border WEDGE_VERTICAL (y * 64) border_vert 32 m) plane0 in
  let! m := for_ 0 32 (fun k m =>
    let! m := insert_border WEDGE_OBLIQUE63 (k * 128) border_even (48 - k) m in
    insert_border WEDGE_OBLIQUE63 (k * 128 + 64) border_odd (48 - k - 1) m) m in
  let! m := transpose WEDGE_OBLIQUE27 WEDGE_OBLIQUE63 m in
  let! m := transpose WEDGE_HORIZONTAL WEDGE_VERTICAL m in
  let! m := hflip WEDGE_OBLIQUE117 WEDGE_OBLIQUE63 m in
  hflip WEDGE_OBLIQUE153 WEDGE_OBLIQUE27 m.

(** * The wedge masks *)
(** copy2d: src/wedge.c:114-131 *)
Definition copy2d (dst : ptr) (master : plane) (d sign w h x_off y_off : Z) (m : masks) : outcome masks :=
  for_ 0 h (fun y m => for_ 0 w (fun x m =>
    let! v := rdm master d (y_off * 64 + x_off + y * 64 + x) in
    store dst (y * w + x) (if negb (sign =? 0) then 64 - v else v) m) m) m.
(** init_chroma: src/wedge.c:135-152; [k] is y >> ss_ver and [j] is x >> 1 *)
Definition init_chroma (chroma luma : ptr) (sign w h ss_ver : Z) (m : masks) : outcome (masks * Z) :=
  let! m := for_ 0 (Z.shiftr h ss_ver) (fun k m => for_ 0 (Z.shiftr w 1) (fun j m =>
    let lu := padd luma (k * Z.shiftl w ss_ver) in let x := 2 * j in
    let! a := load m lu x in let! b := load m lu (x + 1) in
    let sum := a + b + 1 in
    let! sum := if negb (ss_ver =? 0)
      then let! a := load m lu (w + x) in let! b := load m lu (w + x + 1) in Ok (sum + (a + b + 1)) else Ok sum in
    store (padd chroma (k * Z.shiftr w 1)) j (Z.shiftr (sum - sign) (1 + ss_ver)) m) m) m in
  Ok (m, mask_offset chroma).
(** fill2d_16x2: src/wedge.c:154-192 *)
Definition fill2d_16x2 (w h bs : Z) (master : plane) (cb : list (Z * Z * Z)) (k444 k422 k420 signs : Z) (m : masks) : outcome masks :=
  let n_stride_444 := w * h in
  let n_stride_422 := Z.shiftr n_stride_444 1 in
  let n_stride_420 := Z.shiftr n_stride_444 2 in
  let sign_stride_422 := 16 * n_stride_422 in
  let sign_stride_420 := 16 * n_stride_420 in
  for_ 0 16 (fun n m =>
    let sign := Z.land (Z.shiftr signs n) 1 in
    let nsign := if sign =? 0 then 1 else 0 in
    let p444 := (k444, n * n_stride_444) in
    let p422 := (k422, n * n_stride_422) in
    let p420 := (k420, n * n_stride_420) in
    let! e := rd_at cb n in
    let '(d, xo, yo) := e in
    let! m := copy2d p444 master d sign w h (32 - Z.shiftr (w * xo) 3) (32 - Z.shiftr (h * yo) 3) m in
    let! m := set_off 0 bs (16 + n) (mask_offset p444) m in
    let! m := set_off 0 bs n (mask_offset p444) m in
    let! (m, o) := init_chroma (padd p422 (sign * sign_stride_422)) p444 0 w h 0 m in
    let! m := set_off 1 bs n o m in
    let! (m, o) := init_chroma (padd p422 (nsign * sign_stride_422)) p444 1 w h 0 m in
    let! m := set_off 1 bs (16 + n) o m in
    let! (m, o) := init_chroma (padd p420 (sign * sign_stride_420)) p444 0 w h 1 m in
    let! m := set_off 2 bs n o m in
    let! (m, o) := init_chroma (padd p420 (nsign * sign_stride_420)) p444 1 w h 1 m in
    set_off 2 bs (16 + n) o m) m.

(** * The inter-intra masks *)
Definition ii_weights_1d : list Z :=
  [60; 52; 45; 39; 34; 30; 26; 22; 19; 17; 15; 13; 11; 10; 8; 7; 6; 6; 5; 4; 4; 3; 3; 2; 2; 2; 2; 1; 1; 1; 1; 1].
(** build_nondc_ii_masks: src/wedge.c:194-212 *)
Definition build_nondc_ii_masks (k w h step : Z) (m : masks) : outcome masks :=
  let mask_v : ptr := (k, 0) in
  let mask_h := padd mask_v (w * h) in
  let mask_sm := padd mask_h (w * h) in
  for_ 0 h (fun y m =>
    let! v := rd_at ii_weights_1d (y * step) in
    let! m := for_ 0 w (fun x m => store mask_v (y * w + x) v m) m in
    for_ 0 w (fun x m =>
      let! v := rd_at ii_weights_1d (Z.min x y * step) in
      let! m := store mask_sm (y * w + x) v m in
      let! v := rd_at ii_weights_1d (x * step) in
      store mask_h (y * w + x) v m) m) m.

(** * dav1d_init_ii_wedge_masks: src/wedge.c:214-307 *)
(** the calls of fill: w, h, block size, arrays, codebook, signs *)
Definition fills : list (Z * Z * Z * Z * Z * Z * list (Z * Z * Z) * Z) :=
  [ (32, 32, BS_32x32, m444_32x32, m422_16x32, m420_16x16, wedge_codebook_16_heqw, 0x7bfb);
    (32, 16, BS_32x16, m444_32x16, m422_16x16, m420_16x8, wedge_codebook_16_hltw, 0x7beb);
    (32, 8, BS_32x8, m444_32x8, m422_16x8, m420_16x4, wedge_codebook_16_hltw, 0x6beb);
    (16, 32, BS_16x32, m444_16x32, m422_8x32, m420_8x16, wedge_codebook_16_hgtw, 0x7beb);
    (16, 16, BS_16x16, m444_16x16, m422_8x16, m420_8x8, wedge_codebook_16_heqw, 0x7bfb);
    (16, 8, BS_16x8, m444_16x8, m422_8x8, m420_8x4, wedge_codebook_16_hltw, 0x7beb);
    (8, 32, BS_8x32, m444_8x32, m422_4x32, m420_4x16, wedge_codebook_16_hgtw, 0x7aeb);
    (8, 16, BS_8x16, m444_8x16, m422_4x16, m420_4x8, wedge_codebook_16_hgtw, 0x7beb);
    (8, 8, BS_8x8, m444_8x8, m422_4x8, m420_4x4, wedge_codebook_16_heqw, 0x7bfb) ].
(** BUILD_NONDC_II_MASKS: array, w, h, step *)
Definition ii_builds : list (Z * Z * Z * Z) :=
  [ (ii_32x32, 32, 32, 1); (ii_16x32, 16, 32, 1); (ii_16x16, 16, 16, 2); (ii_8x32, 8, 32, 1); (ii_8x16, 8, 16, 2);
    (ii_8x8, 8, 8, 4); (ii_4x16, 4, 16, 2); (ii_4x8, 4, 8, 4); (ii_4x4, 4, 4, 8) ].
(** ASSIGN_NONDC_II_OFFSET: block size, and for each layout the array with its width and height *)
Definition ii_assigns : list (Z * (Z * Z * Z) * (Z * Z * Z) * (Z * Z * Z)) :=
  [ (BS_32x32, (ii_32x32, 32, 32), (ii_16x32, 16, 32), (ii_16x16, 16, 16));
    (BS_32x16, (ii_32x32, 32, 32), (ii_16x16, 16, 16), (ii_16x16, 16, 16));
    (BS_16x32, (ii_16x32, 16, 32), (ii_8x32, 8, 32), (ii_8x16, 8, 16));
    (BS_16x16, (ii_16x16, 16, 16), (ii_8x16, 8, 16), (ii_8x8, 8, 8));
    (BS_16x8, (ii_16x16, 16, 16), (ii_8x8, 8, 8), (ii_8x8, 8, 8));
    (BS_8x16, (ii_8x16, 8, 16), (ii_4x16, 4, 16), (ii_4x8, 4, 8));
    (BS_8x8, (ii_8x8, 8, 8), (ii_4x8, 4, 8), (ii_4x4, 4, 4)) ].
Fixpoint each {A S} (l : list A) (f : A -> S -> outcome S) (s : S) : outcome S :=
  match l with [] => Ok s | a :: l => let! s := f a s in each l f s end.
Definition run_fill (master : plane) (c : Z * Z * Z * Z * Z * Z * list (Z * Z * Z) * Z) (m : masks) : outcome masks :=
  let '(w, h, bs, k4, k2, k0, cb, signs) := c in fill2d_16x2 w h (bs - BS_32x32) master cb k4 k2 k0 signs m.
Definition run_build (c : Z * Z * Z * Z) (m : masks) : outcome masks :=
  let '(k, w, h, step) := c in build_nondc_ii_masks k w h step m.
Definition run_assign (p : Z) (c : Z * (Z * Z * Z) * (Z * Z * Z) * (Z * Z * Z)) (m : masks) : outcome masks :=
  let '(bs, (k4, w4, h4), (k2, w2, h2), (k0, w0, h0)) := c in
  let! m := set_off 0 (bs - BS_32x32) (32 + (p + 1)) (mask_offset (k4, p * w4 * h4)) m in
  let! m := set_off 1 (bs - BS_32x32) (32 + (p + 1)) (mask_offset (k2, p * w2 * h2)) m in
  set_off 2 (bs - BS_32x32) (32 + (p + 1)) (mask_offset (k0, p * w0 * h0)) m.
Definition masks0 : masks := {| ms_mem := arr0; ms_off := plane0 |}.
Definition init_ii_wedge_masks : outcome masks :=
  let! master := make_master in
  let! m := each fills (run_fill master) masks0 in
  let! m := for_ 0 (32 * 32) (fun i m => store (ii_dc, 0) i 32 m) m in
  let! m := for_ 0 3 (fun c m => each [BS_32x32; BS_32x16; BS_16x32; BS_16x16; BS_16x8; BS_8x16; BS_8x8]
    (fun bs m => set_off c (bs - BS_32x32) (32 + 0) (mask_offset (ii_dc, 0)) m) m) m in
  let! m := each ii_builds run_build m in
  for_ 0 3 (fun p m => each ii_assigns (run_assign p) m) m.

(** WEDGE_MASK, II_MASK: src/wedge.h:82-90, at byte [i] *)
Definition mask_byte (m : masks) (o i : Z) : outcome Z := rd1 SIZEOF (ms_mem m) (o * 8 + i).
Definition wedge_mask (m : masks) (c bs sign idx i : Z) : outcome Z :=
  let! o := get_off m c (bs - BS_32x32) (sign * 16 + idx) in mask_byte m o i.
Inductive ii_type := INTER_INTRA_BLEND (mode : Z) | INTER_INTRA_WEDGE (idx : Z).
Definition ii_mask (m : masks) (c bs : Z) (t : ii_type) (i : Z) : outcome Z :=
  let! o := match t with
            | INTER_INTRA_BLEND mode => get_off m c (bs - BS_32x32) (32 + mode)
            | INTER_INTRA_WEDGE idx => get_off m c (bs - BS_32x32) (0 * 16 + idx) end in mask_byte m o i.

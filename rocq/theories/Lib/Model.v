(** Models of the default picture allocator, /repo/src/picture.c:46-84, and of the
    settings handling of /repo/src/lib.c:71-290. *)
From Coq Require Import ZArith List Bool.
From Verif Require Import Base.CInt.
Import ListNotations.
Open Scope Z_scope.
Local Open Scope outcome_scope.

(** Dav1dPixelLayout, include/dav1d/headers.h. *)
Definition L400 : Z := 0.
Definition L420 : Z := 1.
Definition L422 : Z := 2.
Definition L444 : Z := 3.

(** int arithmetic: a result outside int is undefined. *)
Definition int (x : Z) : outcome Z := if fits_int x then Ok x else Undef.
(** ptrdiff_t arithmetic and size_t conversion; [wide] selects a 64-bit target. *)
Definition wbits (wide : bool) : Z := if wide then 64 else 32.
Definition pdiff (wide : bool) (x : Z) : outcome Z :=
  if (- 2 ^ (wbits wide - 1) <=? x) && (x <? 2 ^ (wbits wide - 1)) then Ok x else Undef.
Definition size_t (wide : bool) (x : Z) : Z := x mod 2 ^ wbits wide.

(** What the allocator fills in: strides, offsets of the planes from the start of the
    allocation (None is NULL), the offset of the pool's own header, and the number of bytes
    allocated. *)
Record planes : Type := mkPlanes {
  p_stride0 : Z; p_stride1 : Z; p_data0 : Z; p_data1 : option Z; p_data2 : option Z; p_hdr : Z; p_alloc : Z }.

(** DAV1D_PICTURE_ALIGNMENT and sizeof(Dav1dMemPoolBuffer), two pointers. *)
Definition PIC_ALIGN : Z := 64.
Definition POOLBUF (wide : bool) : Z := if wide then 16 else 8.

(** picture.c:46-84 dav1d_default_picture_alloc.  The pool is asked for
    [pic_size + 64 - POOLBUF] bytes and (mem.c:239-274) allocates POOLBUF more for its own
    header behind them, 64-byte aligned; the request must be a multiple of the
    pointer size (assert in dav1d_mem_pool_pop).  Allocation failure is not modelled. *)
Definition default_alloc (wide : bool) (w h layout bpc : Z) : outcome planes :=
  guard! POOLBUF wide <=? PIC_ALIGN in
  let hbd := b2z (8 <? bpc) in
  let! w127 := int (w + 127) in
  let! h127 := int (h + 127) in
  let aligned_w := Z.land w127 (Z.lnot 127) in
  let aligned_h := Z.land h127 (Z.lnot 127) in
  let has_chroma := negb (layout =? L400) in
  let ss_ver := b2z (layout =? L420) in
  let ss_hor := b2z (negb (layout =? L444)) in
  let! y_stride := int (Z.shiftl aligned_w hbd) in
  let uv_stride := if has_chroma then Z.shiftr y_stride ss_hor else 0 in
  let y_stride := if Z.land y_stride 1023 =? 0 then y_stride + PIC_ALIGN else y_stride in
  let uv_stride := if (Z.land uv_stride 1023 =? 0) && has_chroma then uv_stride + PIC_ALIGN else uv_stride in
  let! y_sz := pdiff wide (y_stride * aligned_h) in
  let! uv_sz := pdiff wide (uv_stride * Z.shiftr aligned_h ss_ver) in
  let y_sz := size_t wide y_sz in
  let uv_sz := size_t wide uv_sz in
  let pic_size := size_t wide (y_sz + 2 * uv_sz) in
  let size := size_t wide (pic_size + PIC_ALIGN - POOLBUF wide) in
  guard! Z.land size (wbits wide / 8 - 1) =? 0 in
  Ok (mkPlanes y_stride uv_stride 0 (if has_chroma then Some y_sz else None)
        (if has_chroma then Some (size_t wide (y_sz + uv_sz)) else None) size (size_t wide (size + POOLBUF wide))).

(** lib.c:111-119 fc_lut. *)
Definition fc_lut : list Z :=
  [1; 2; 2; 2; 3; 3; 3; 3; 3; 4; 4; 4; 4; 4; 4; 4; 5; 5; 5; 5; 5; 5; 5; 5; 5;
   6; 6; 6; 6; 6; 6; 6; 6; 6; 6; 6; 7; 7; 7; 7; 7; 7; 7; 7; 7; 7; 7; 7; 7].
Definition MAX_THREADS : Z := 256.
Definition MAX_FRAME_DELAY : Z := 256.
(** lib.c:107-124 get_num_threads: (n_tc, n_fc).  [cpus] is
    dav1d_num_logical_processors. *)
Definition get_num_threads (n_threads max_frame_delay cpus : Z) : outcome (Z * Z) :=
  let n_tc := if z2b n_threads then u32 n_threads else u32 (iclip cpus 1 MAX_THREADS) in
  let! n_fc :=
    (if z2b max_frame_delay then Ok (Z.min (u32 max_frame_delay) n_tc)
     else if n_tc <? 50 then rd_at fc_lut (u32 (n_tc - 1)) else Ok 8) in
  Ok (n_tc, n_fc).
(** lib.c:126-136 dav1d_get_frame_delay (a non-NULL argument). *)
Definition get_frame_delay (n_threads max_frame_delay cpus : Z) : outcome Z :=
  if negb ((0 <=? n_threads) && (n_threads <=? MAX_THREADS)) then Ok (-22) else
  if negb ((0 <=? max_frame_delay) && (max_frame_delay <=? MAX_FRAME_DELAY)) then Ok (-22) else
  let! (_, n_fc) := get_num_threads n_threads max_frame_delay cpus in Ok n_fc.

(** The settings dav1d_open looks at; [a_alloc] and [a_release] say which picture
    callbacks are set (0: NULL, 1: the default one, 2: another), [a_cookie] whether the
    cookie is non-NULL. *)
Record opts : Type := mkOpts {
  n_threads : Z; max_frame_delay : Z; a_alloc : Z; a_release : Z; a_cookie : bool;
  operating_point : Z; decode_frame_type : Z; frame_size_limit : Z }.
(** What it stores: (n_tc, n_fc, frame_size_limit, number of worker threads). *)
Record opened : Type := mkOpened { o_n_tc : Z; o_n_fc : Z; o_limit : Z; o_workers : Z; o_out_delayed : Z }.
(** lib.c:138-290 dav1d_open with allocations, mutexes and threads succeeding: [inr] is the
    error.  [wide] is sizeof(size_t) >= 8.  The comparison at 206 is unsigned. *)
Definition open (wide : bool) (cpus : Z) (s : opts) : outcome (opened + Z) :=
  if negb ((0 <=? n_threads s) && (n_threads s <=? MAX_THREADS)) then Ok (inr (-22)) else
  if negb ((0 <=? max_frame_delay s) && (max_frame_delay s <=? MAX_FRAME_DELAY)) then Ok (inr (-22)) else
  if a_alloc s =? 0 then Ok (inr (-22)) else
  if a_release s =? 0 then Ok (inr (-22)) else
  if negb ((0 <=? operating_point s) && (operating_point s <=? 31)) then Ok (inr (-22)) else
  if negb ((0 <=? decode_frame_type s) && (decode_frame_type s <=? 3)) then Ok (inr (-22)) else
  if (a_alloc s =? 1) && (a_release s =? 1) && a_cookie s then Ok (inr (-12)) else
  if negb ((a_alloc s =? 1) && (a_release s =? 1)) && ((a_alloc s =? 1) || (a_release s =? 1))
  then Ok (inr (-12)) else
  let limit := if negb wide && (8192 * 8192 <=? u32 (frame_size_limit s - 1)) then 8192 * 8192
               else frame_size_limit s in
  let! (n_tc, n_fc) := get_num_threads (n_threads s) (max_frame_delay s) cpus in
  Ok (inl (mkOpened n_tc n_fc limit (if 1 <? n_tc then n_tc else 0) (if 1 <? n_fc then n_fc else 0))).

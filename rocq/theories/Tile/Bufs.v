(** Model of the work buffers of a frame context: /repo/src/decode.c:2752-3068
    dav1d_decode_frame_init (everything that allocates) and the pointers into them
    set up by /repo/src/decode.c:2427-2509 setup_tile.

    A buffer is NULL or has a number of elements (bytes for cf, the cdef and lr line
    buffers, ipred_edge and tx_lpf_right_edge); a pointer into it is a position.
    Every allocation can fail: [fail i] says whether the one at place [i] does.
    Left out: the reference motion vectors (dav1d_refmvs_init_frame), quantizer
    tables, loop filter levels and weights, which have no part in it. *)
From Coq Require Import ZArith List Bool.
From Verif Require Import Base.CInt.
Import ListNotations.
Open Scope Z_scope.
Open Scope outcome_scope.

(** what the size of the buffers depends on *)
Record frame : Type := mkFrame {
  fr_rows : Z; fr_cols : Z;                   (* frame_hdr->tiling *)
  fr_row_start : list Z; fr_col_start : list Z;
  fr_sbh : Z; fr_sb_step : Z;                 (* f->sbh, f->sb_step *)
  fr_sb128w : Z; fr_sb128h : Z;
  fr_layout : Z;                              (* 0: I400 .. 3: I444 *)
  fr_hbd : Z;                                 (* !!seq_hdr->hbd *)
  fr_sb128 : Z;                               (* seq_hdr->sb128 *)
  fr_scc : bool;                              (* allow_screen_content_tools *)
  fr_stride : Z * Z;                          (* f->cur.stride *)
  fr_sr_stride : Z * Z;                       (* f->sr_cur.p.stride *)
  fr_resize : bool;                           (* width[0] != width[1] *)
  fr_sr_w : Z                                 (* f->sr_cur.p.p.w *)
}.

(** :2420 ss_size_mul *)
Definition size_mul0 (layout : Z) : Z := if layout =? 0 then 4 else if layout =? 1 then 6 else if layout =? 2 then 8 else 12.
Definition size_mul1 (layout : Z) : Z := if layout =? 0 then 4 else if layout =? 1 then 5 else if layout =? 2 then 6 else 8.

(** a buffer and the size it was allocated for *)
Record cache : Type := mkCache { c_buf : option Z; c_key : Z }.
Definition none : cache := mkCache None 0.

(** :2852 ff: line buffers for cdef; [cl_line] in the order cdef_line[0][0], [1][0],
    [0][1], [0][2], [1][1], [1][2]; [cl_lpf]: cdef_lpf_line *)
Record cdef_lines : Type := mkCdef {
  cl_buf : option Z; cl_y : Z; cl_uv : Z; cl_copy : bool; cl_sbh : Z; cl_line : list Z; cl_lpf : list Z }.
(** :2912 ff *)
Record lr_lines : Type := mkLr { ll_buf : option Z; ll_y : Z; ll_uv : Z; ll_line : list Z }.

Record bufs : Type := mkBufs {
  b_sotr : cache;                             (* lf.start_of_tile_row, _sz *)
  b_sotr_val : list Z;                        (* what was last written to it *)
  b_tso : option Z; b_ts : cache;             (* frame_thread.tile_start_off; ts, n_ts *)
  b_a : cache;
  b_low : cache;                              (* tile_thread.lowest_pixel_mem, _sz *)
  b_cbi : cache; b_cf : cache; b_pal : cache; b_pal_idx : cache;
  b_cdef : cdef_lines; b_lr : lr_lines;
  b_mask : option Z; b_level : option Z; b_b : option Z; b_mask_sz : Z;
  b_lr_mask : cache; b_edge : cache; b_re : cache
}.
Definition bufs0 : bufs :=
  mkBufs none [] None none none none none none none none (mkCdef None 0 0 false 0 [] []) (mkLr None 0 0 [])
         None None None 0 none none none.

Section INIT.
Variables (n_fc n_tc : Z) (f : frame) (fail : Z -> bool).
Definition alloc (i n : Z) : option Z := if fail i then None else Some n.

(** a store to an element of a buffer *)
Definition store (b : option Z) (i : Z) : outcome unit :=
  match b with Some n => guard! ((0 <=? i) && (i <? n)) in Ok tt | None => Undef end.

(** the usual pattern: [if (need != key) { free; buf = alloc(size); if (!buf) { key =
    0; goto error; } key = need; }] *)
Definition recache (i need size : Z) (c : cache) : bool * cache :=
  if need =? c_key c then (true, c) else
  match alloc i size with
  | None => (false, mkCache None 0)
  | Some n => (true, mkCache (Some n) need)
  end.

(** :2770-2776 tile rows [r]..: what is written to start_of_tile_row from [sby] on *)
Fixpoint zeros (n : nat) (b : option Z) (sby stop : Z) : outcome (list Z) :=
  if sby <? stop then
    match n with
    | O => Undef
    | S n => let! _ := store b sby in let! l := zeros n b (sby + 1) stop in Ok (0 :: l)
    end
  else Ok [].
Fixpoint tile_rows (n : nat) (b : option Z) (r sby : Z) : outcome (list Z) :=
  match n with
  | O => Ok []
  | S n =>
    let! _ := store b sby in
    let! stop := rd_at (fr_row_start f) (r + 1) in
    let! l := zeros (Z.to_nat (stop - sby)) b (sby + 1) stop in
    let! l' := tile_rows n b (r + 1) (sby + 1 + zlen l) in
    Ok (r :: l ++ l')
  end.

(** :2761-2776 *)
Definition start_rows (b : bufs) : outcome (bool * bufs) :=
  let c := b_sotr b in
  let (ok, c) := if c_key c <? fr_sbh f then
       match alloc 0 (fr_sbh f) with None => (false, mkCache None 0) | Some n => (true, mkCache (Some n) (fr_sbh f)) end
     else (true, c) in
  let set v := mkBufs c v (b_tso b) (b_ts b) (b_a b) (b_low b) (b_cbi b) (b_cf b) (b_pal b) (b_pal_idx b) (b_cdef b) (b_lr b)
                 (b_mask b) (b_level b) (b_b b) (b_mask_sz b) (b_lr_mask b) (b_edge b) (b_re b) in
  if ok then let! v := tile_rows (Z.to_nat (fr_rows f)) (c_buf c) 0 0 in Ok (true, set v)
  else Ok (false, set (b_sotr_val b)).

(** :2778-2792 *)
Definition tile_states (b : bufs) : outcome (bool * bufs) :=
  let n_ts := fr_cols f * fr_rows f in
  let set tso ts := mkBufs (b_sotr b) (b_sotr_val b) tso ts (b_a b) (b_low b) (b_cbi b) (b_cf b) (b_pal b) (b_pal_idx b) (b_cdef b) (b_lr b)
                 (b_mask b) (b_level b) (b_b b) (b_mask_sz b) (b_lr_mask b) (b_edge b) (b_re b) in
  if n_ts =? c_key (b_ts b) then Ok (true, b) else
  let tso := if 1 <? n_fc then alloc 1 n_ts else b_tso b in
  if (1 <? n_fc) && match tso with None => true | _ => false end then Ok (false, set None (mkCache (c_buf (b_ts b)) 0)) else
  match alloc 2 n_ts with
  | None => Ok (false, set tso (mkCache None (c_key (b_ts b))))
  | Some n => Ok (true, set tso (mkCache (Some n) n_ts))
  end.

Definition set_a (b : bufs) (c : cache) : bufs :=
  mkBufs (b_sotr b) (b_sotr_val b) (b_tso b) (b_ts b) c (b_low b) (b_cbi b) (b_cf b) (b_pal b) (b_pal_idx b) (b_cdef b) (b_lr b)
                 (b_mask b) (b_level b) (b_b b) (b_mask_sz b) (b_lr_mask b) (b_edge b) (b_re b).
Definition set_frame_thread (b : bufs) (low cbi cf pal pal_idx : cache) : bufs :=
  mkBufs (b_sotr b) (b_sotr_val b) (b_tso b) (b_ts b) (b_a b) low cbi cf pal pal_idx (b_cdef b) (b_lr b)
                 (b_mask b) (b_level b) (b_b b) (b_mask_sz b) (b_lr_mask b) (b_edge b) (b_re b).
Definition set_cdef (b : bufs) (c : cdef_lines) : bufs :=
  mkBufs (b_sotr b) (b_sotr_val b) (b_tso b) (b_ts b) (b_a b) (b_low b) (b_cbi b) (b_cf b) (b_pal b) (b_pal_idx b) c (b_lr b)
                 (b_mask b) (b_level b) (b_b b) (b_mask_sz b) (b_lr_mask b) (b_edge b) (b_re b).
Definition set_lr (b : bufs) (c : lr_lines) : bufs :=
  mkBufs (b_sotr b) (b_sotr_val b) (b_tso b) (b_ts b) (b_a b) (b_low b) (b_cbi b) (b_cf b) (b_pal b) (b_pal_idx b) (b_cdef b) c
                 (b_mask b) (b_level b) (b_b b) (b_mask_sz b) (b_lr_mask b) (b_edge b) (b_re b).
Definition set_mask (b : bufs) (m l bb : option Z) (k : Z) : bufs :=
  mkBufs (b_sotr b) (b_sotr_val b) (b_tso b) (b_ts b) (b_a b) (b_low b) (b_cbi b) (b_cf b) (b_pal b) (b_pal_idx b) (b_cdef b) (b_lr b)
                 m l bb k (b_lr_mask b) (b_edge b) (b_re b).
Definition set_tail (b : bufs) (lrm edge re : cache) : bufs :=
  mkBufs (b_sotr b) (b_sotr_val b) (b_tso b) (b_ts b) (b_a b) (b_low b) (b_cbi b) (b_cf b) (b_pal b) (b_pal_idx b) (b_cdef b) (b_lr b)
                 (b_mask b) (b_level b) (b_b b) (b_mask_sz b) lrm edge re.

(** :2794-2803 *)
Definition above (b : bufs) : outcome (bool * bufs) :=
  let a_sz := fr_sb128w f * fr_rows f * (if (1 <? n_fc) && (1 <? n_tc) then 2 else 1) in
  let (ok, c) := recache 3 a_sz a_sz (b_a b) in Ok (ok, set_a b c).

(** :2805-2897 *)
Definition num_sb128 : Z := fr_sb128w f * fr_sb128h f.
Fixpoint store_all (b : option Z) (l : list Z) : outcome unit :=
  match l with [] => Ok tt | i :: l => let! _ := store b i in store_all b l end.
Definition tile_idxs : list Z := map Z.of_nat (seq 0 (Z.to_nat (fr_cols f * fr_rows f))).
Definition frame_thread (b : bufs) : outcome (bool * bufs) :=
  if 1 <? n_fc then
    (* :2808-2825 tile_start_off is written for all tiles *)
    let! _ := store_all (b_tso b) tile_idxs in
    let low_sz := fr_cols f * fr_sbh f in
    let (ok, low) := recache 4 low_sz low_sz (b_low b) in
    if negb ok then Ok (false, set_frame_thread b low (b_cbi b) (b_cf b) (b_pal b) (b_pal_idx b)) else
    (* :2840-2851 ts[].lowest_pixel is written for all tiles *)
    let! _ := store_all (c_buf (b_ts b)) tile_idxs in
    let cbi_sz := num_sb128 * size_mul0 (fr_layout f) in
    let (ok, cbi) := recache 5 cbi_sz (cbi_sz * 32 * 32 / 4) (b_cbi b) in
    if negb ok then Ok (false, set_frame_thread b low cbi (b_cf b) (b_pal b) (b_pal_idx b)) else
    let cf_sz := Z.shiftl (num_sb128 * size_mul0 (fr_layout f)) (fr_hbd f) in
    let (ok, cf) := recache 6 cf_sz (cf_sz * 128 * 128 / 2) (b_cf b) in
    if negb ok then Ok (false, set_frame_thread b low cbi cf (b_pal b) (b_pal_idx b)) else
    if fr_scc f then
      let pal_sz := Z.shiftl num_sb128 (fr_hbd f) in
      let (ok, pal) := recache 7 pal_sz (pal_sz * 16 * 16) (b_pal b) in
      if negb ok then Ok (false, set_frame_thread b low cbi cf pal (b_pal_idx b)) else
      let pal_idx_sz := num_sb128 * size_mul1 (fr_layout f) in
      let (ok, pal_idx) := recache 8 pal_idx_sz (pal_idx_sz * 128 * 128 / 8) (b_pal_idx b) in
      Ok (ok, set_frame_thread b low cbi cf pal pal_idx)
    else
      match c_buf (b_pal b) with
      | Some _ => Ok (true, set_frame_thread b low cbi cf (mkCache None 0) (mkCache None 0))
      | None => Ok (true, set_frame_thread b low cbi cf (b_pal b) (b_pal_idx b))
      end
  else Ok (true, b).

Definition shl1 (x : Z) (c : bool) : Z := if c then 2 * x else x.
(** :2899-2958 *)
Definition cdef (b : bufs) : outcome (bool * bufs) :=
  let (y, uv) := fr_stride f in
  let sbh := fr_sbh f in
  let copy := (1 <? n_tc) && fr_resize f in
  let c := b_cdef b in
  if negb (y * sbh * 4 =? cl_y c) || negb (uv * sbh * 8 =? cl_uv c) || negb (Bool.eqb copy (cl_copy c)) || negb (sbh =? cl_sbh c) then
    match alloc 9 (64 + shl1 (Z.abs y * 4 * sbh) copy + shl1 (Z.abs uv * 8 * sbh) copy) with
    | None => Ok (false, set_cdef b (mkCdef None 0 0 (cl_copy c) (cl_sbh c) (cl_line c) (cl_lpf c)))
    | Some n =>
      let p := 32 in
      let ly := if y <? 0 then [p - y * (sbh * 4 - 1); p - y * (sbh * 4 - 3)] else [p + y * 0; p + y * 2] in
      let p := p + Z.abs y * sbh * 4 in
      let luv := if uv <? 0 then [p - uv * (sbh * 8 - 1); p - uv * (sbh * 8 - 3); p - uv * (sbh * 8 - 5); p - uv * (sbh * 8 - 7)]
                 else [p + uv * 0; p + uv * 2; p + uv * 4; p + uv * 6] in
      let lpf := if copy then
          let p := p + Z.abs uv * sbh * 8 in
          let q := p + Z.abs y * sbh * 4 in
          (if y <? 0 then p - y * (sbh * 4 - 1) else p) ::
          (if uv <? 0 then [q - uv * (sbh * 4 - 1); q - uv * (sbh * 8 - 1)] else [q; q + uv * sbh * 4])
        else cl_lpf c in
      guard! (fits_int (y * sbh) && fits_int (y * sbh * 4) && fits_int (uv * sbh) && fits_int (uv * sbh * 8)) in
      Ok (true, set_cdef b (mkCdef (Some n) (y * sbh * 4) (uv * sbh * 8) copy sbh (ly ++ luv) lpf))
    end
  else Ok (true, b).

(** :2960-2997 *)
Definition num_lines : Z := if 1 <? n_tc then Z.shiftl (fr_sbh f * 4) (fr_sb128 f) else 12.
Definition lr (b : bufs) : outcome (bool * bufs) :=
  let (y, uv) := fr_sr_stride f in
  let n := num_lines in
  let c := b_lr b in
  if negb (y * n =? ll_y c) || negb (uv * n * 2 =? ll_uv c) then
    match alloc 10 (128 + Z.abs y * n + Z.abs uv * n * 2) with
    | None => Ok (false, set_lr b (mkLr None 0 0 (ll_line c)))
    | Some sz =>
      let p := 64 in
      let q := p + Z.abs y * n in
      guard! (fits_int (y * n) && fits_int (uv * n) && fits_int (uv * n * 2)) in
      Ok (true, set_lr b (mkLr (Some sz) (y * n) (uv * n * 2)
        ((if y <? 0 then p - y * (n - 1) else p) ::
         (if uv <? 0 then [q - uv * (n * 1 - 1); q - uv * (n * 2 - 1)] else [q; q + uv * n]))))
    end
  else Ok (true, b).

(** :2999-3020 *)
Definition masks (b : bufs) : outcome (bool * bufs) :=
  let n := num_sb128 in
  if n =? b_mask_sz b then Ok (true, b) else
  let m := alloc 11 n in
  let l := alloc 12 (n * 32 * 32 + 3) in
  match m, l with
  | Some _, Some _ =>
    if 1 <? n_fc then
      match alloc 13 (n * 32 * 32) with
      | None => Ok (false, set_mask b m l None 0)
      | Some k => Ok (true, set_mask b m l (Some k) n)
      end
    else Ok (true, set_mask b m l (b_b b) n)
  | _, _ => Ok (false, set_mask b m l (b_b b) 0)
  end.

(** :3022-3068 *)
Definition tail (b : bufs) : outcome (bool * bufs) :=
  let sr_sb128w := Z.shiftr (fr_sr_w f + 127) 7 in
  let lr_mask_sz := sr_sb128w * fr_sb128h f in
  let (ok, lrm) := recache 14 lr_mask_sz lr_mask_sz (b_lr_mask b) in
  if negb ok then Ok (false, set_tail b lrm (b_edge b) (b_re b)) else
  (* :3041 memset *)
  let! _ := match b_mask b with Some n => guard! (num_sb128 <=? n) in Ok tt | None => Undef end in
  let edge_sz := Z.shiftl (fr_sbh f * fr_sb128w f) (fr_hbd f) in
  guard! (fits_int (edge_sz * 128 * 3)) in
  let (ok, edge) := recache 15 edge_sz (edge_sz * 128 * 3) (b_edge b) in
  if negb ok then Ok (false, set_tail b lrm edge (b_re b)) else
  let re_sz := fr_sb128h f * fr_cols f in
  let (ok, re) := recache 16 re_sz (re_sz * 32 * 2) (b_re b) in
  Ok (ok, set_tail b lrm edge re).

Definition andthen (r : outcome (bool * bufs)) (k : bufs -> outcome (bool * bufs)) : outcome (bool * bufs) :=
  let! x := r in let (ok, b) := x in if ok then k b else Ok (false, b).

(** [true]: success; [false]: ENOMEM *)
Definition frame_init (b : bufs) : outcome (bool * bufs) :=
  andthen (start_rows b) (fun b => andthen (tile_states b) (fun b => andthen (above b) (fun b =>
  andthen (frame_thread b) (fun b => andthen (cdef b) (fun b => andthen (lr b) (fun b =>
  andthen (masks b) tail)))))).
End INIT.

(** The division of the buffers among the tiles. *)
Section TILES.
Variable f : frame.
(** :2808-2825; the tile in row [r] and column [c] *)
Definition tile_start_off (r c : Z) : outcome Z :=
  let sb_step4 := u32 (fr_sb_step f * 4) in
  let! r0 := rd_at (fr_row_start f) r in
  let! r1 := rd_at (fr_row_start f) (r + 1) in
  let! c0 := rd_at (fr_col_start f) c in
  let row_off := u32 (u32 (u32 (r0 * sb_step4) * fr_sb128w f) * 128) in
  let b_diff := u32 ((r1 - r0) * sb_step4) in
  Ok (u32 (row_off + u32 (u32 (b_diff * c0) * sb_step4))).
(** :2443-2451 in elements (cf: bytes) *)
Definition pal_idx_off (off : Z) : Z := u64 (off * size_mul1 (fr_layout f)) / 8.
Definition cbi_off (off : Z) : Z := u64 (off * size_mul0 (fr_layout f)) / 64.
Definition cf_off (off : Z) : Z := Z.shiftr (u64 (off * size_mul0 (fr_layout f))) (1 - fr_hbd f).
(** :2840-2851 lowest_pixel of the tiles, in row-major order, from tile row [r] and
    pointer [p] on *)
Fixpoint low_cols (n : nat) (h p : Z) : list Z * Z :=
  match n with O => ([], p) | S n => let (l, q) := low_cols n h (p + h) in (p :: l, q) end.
Fixpoint low_rows (n : nat) (r p : Z) : outcome (list Z) :=
  match n with
  | O => Ok []
  | S n =>
    let! r0 := rd_at (fr_row_start f) r in
    let! r1 := rd_at (fr_row_start f) (r + 1) in
    let (l, q) := low_cols (Z.to_nat (fr_cols f)) (r1 - r0) p in
    let! l' := low_rows n (r + 1) q in
    Ok (l ++ l')
  end.
Definition lowest_pixels : outcome (list Z) := low_rows (Z.to_nat (fr_rows f)) 0 0.
(** decode.c:3056-3057 ipred_edge, :3065 tx_lpf_right_edge: planes are consecutive *)
Definition edge_off (pl : Z) : Z := Z.shiftl (fr_sbh f * fr_sb128w f) (fr_hbd f) * 128 * pl.
Definition re_off (pl : Z) : Z := fr_sb128h f * fr_cols f * 32 * pl.

(** :2467-2493 the loop restoration unit that the tile at (r, c) starts from in a
    plane: index into lf.lr_mask and into its lr[plane] ([None]: left alone).
    [d]: width_scale_denominator; [us]: unit_size of the plane *)
Definition lr_ref (ss_hor d us : Z) (r c : Z) : outcome (option (Z * Z)) :=
  let! c0 := rd_at (fr_col_start f) c in
  let! r0 := rd_at (fr_row_start f) r in
  let sb_shift := 4 + fr_sb128 f in
  let col_sb128_start := Z.shiftr c0 (1 - fr_sb128 f) in
  let row_start := Z.shiftl r0 sb_shift in
  let col_start := Z.shiftl c0 sb_shift in
  if fr_resize f then
    let sr_sb128w := Z.shiftr (fr_sr_w f + 127) 7 in
    let sb_idx := Z.shiftr row_start 5 * sr_sb128w in
    let unit_idx := Z.shiftr (Z.land row_start 16) 3 in
    let rnd := Z.shiftl 8 us - 1 in
    let x := Z.shiftr (Z.shiftr (4 * col_start * d) ss_hor + rnd) (us + 3) in
    let px_x := Z.shiftl x (us + ss_hor) in
    let u_idx := unit_idx + Z.shiftr (Z.land px_x 64) 6 in
    let sb128x := Z.shiftr px_x 7 in
    if sr_sb128w <=? sb128x then Ok None else Ok (Some (sb_idx + sb128x, u_idx))
  else
    let sb_idx := Z.shiftr row_start 5 * fr_sb128w f + col_sb128_start in
    let unit_idx := Z.shiftr (Z.land row_start 16) 3 + Z.shiftr (Z.land col_start 16) 4 in
    Ok (Some (sb_idx, unit_idx)).
End TILES.

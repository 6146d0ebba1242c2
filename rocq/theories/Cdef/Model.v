(** Model of the constrained directional enhancement filter: /repo/src/cdef_tmpl.c (the
    C functions; [bd] is the bit depth, 8 in the BITDEPTH == 8 build) and
    /repo/src/cdef_apply_tmpl.c.

    Planes are functions from rows and columns to cells that may be undefined; pointer
    arithmetic over strides is replaced by coordinates.  In the filters, sums of at most
    24 products of 16 bit differences with small constants are not checked for overflow. *)
From Coq Require Import ZArith List Bool.
From Verif Require Import Base.CInt Base.Loop.
Import ListNotations.
Open Scope Z_scope.
Local Open Scope outcome_scope.

Definition pixel (bd v : Z) : Z := if bd =? 8 then u8 v else u16 v.
(** common/intops.h: ulog2 of a positive value, umin. *)
Definition ulog2 (v : Z) : Z := Z.log2 v.
Definition umin (a b : Z) : Z := if u32 a <? u32 b then u32 a else u32 b.

(** cdef_tmpl.c:36-41. *)
Definition constrain (diff threshold shift : Z) : Z :=
  let adiff := Z.abs diff in
  let v := Z.min adiff (Z.max 0 (threshold - Z.shiftr adiff shift)) in
  if diff <? 0 then - v else v.

(** * Padding, lines 43-105 *)
Record edges : Type := mkEdges { e_left : bool; e_right : bool; e_top : bool; e_bottom : bool }.
Definition INT16_MIN : Z := -32768.
(** Cell of row [y] and column [x] in tmp_buf[144]. *)
Definition cell (y x : Z) : Z := 2 * 12 + 2 + (y * 12 + x).
Definition put (y0 y1 x0 x1 : Z) (g : Z -> Z -> outcome Z) (a : arr) : outcome arr :=
  for_ y0 y1 (fun y a => for_ x0 x1 (fun x a => let! v := g y x in wr1 144 a (cell y x) (s16 v)) a) a.
Definition padding (src left top bottom : Z -> Z -> outcome Z) (w h : Z) (e : edges) : outcome arr :=
  let miss (y x : Z) := Ok INT16_MIN in
  let y_start := if e_top e then -2 else 0 in
  let y_end := if e_bottom e then h + 2 else h in
  let x_start := if e_left e then -2 else 0 in
  let x_end := if e_right e then w + 2 else w in
  let a := arr0 in
  let! a := (if e_top e then Ok a else put (-2) 0 (-2) (w + 2) miss a) in
  let! a := (if e_bottom e then Ok a else put h (h + 2) (-2) (w + 2) miss a) in
  let! a := (if e_left e then Ok a else put y_start y_end (-2) 0 miss a) in
  let! a := (if e_right e then Ok a else put y_start y_end w (w + 2) miss a) in
  let! a := put y_start 0 x_start x_end (fun y x => top (y - y_start) x) a in
  let! a := put 0 h x_start 0 (fun y x => left y (2 + x)) a in
  let! a := put 0 h 0 x_end src a in
  put h y_end x_start x_end (fun y x => bottom (y - h) x) a.

(** * The filter, lines 107-224 *)
(** tables.c:400-413. *)
Definition cdef_directions : list (list Z) :=
  [ [1 * 12 + 0; 2 * 12 + 0]; [1 * 12 + 0; 2 * 12 - 1];
    [-1 * 12 + 1; -2 * 12 + 2]; [0 * 12 + 1; -1 * 12 + 2]; [0 * 12 + 1; 0 * 12 + 2]; [0 * 12 + 1; 1 * 12 + 2];
    [1 * 12 + 1; 2 * 12 + 2]; [1 * 12 + 0; 2 * 12 + 1]; [1 * 12 + 0; 2 * 12 + 0]; [1 * 12 + 0; 2 * 12 - 1];
    [-1 * 12 + 1; -2 * 12 + 2]; [0 * 12 + 1; -1 * 12 + 2] ].
Definition direction (d k : Z) : outcome Z := let! l := rd_at cdef_directions d in rd_at l k.

Section Filter.
Variable tmp : arr.
Variables (dir o px : Z).                                     (* [o]: the place of the pixel in tmp *)
Definition tap (off : Z) : outcome Z := rd1 144 tmp (o + off).
(** Sum of the primary taps of pass [k], and the taps. *)
Definition pri_taps (k : Z) : outcome (Z * Z) :=
  let! off := direction (dir + 2) k in
  let! p0 := tap off in
  let! p1 := tap (- off) in
  Ok (p0, p1).
Definition sec_taps (k : Z) : outcome (Z * Z * Z * Z) :=
  let! off2 := direction (dir + 4) k in
  let! off3 := direction (dir + 0) k in
  let! s0 := tap off2 in
  let! s1 := tap (- off2) in
  let! s2 := tap off3 in
  let! s3 := tap (- off3) in
  Ok (s0, s1, s2, s3).
Definition round_sum (sum : Z) : Z := Z.shiftr (sum - (if sum <? 0 then 1 else 0) + 8) 4.
Definition filter_both (pri sec pri_tap pri_shift sec_shift : Z) : outcome Z :=
  let! (sum, mx, mn, _) :=
    for_ 0 2 (fun k st =>
      let '(sum, mx, mn, pri_tap_k) := st in
      let! (p0, p1) := pri_taps k in
      let sum := sum + pri_tap_k * constrain (p0 - px) pri pri_shift in
      let sum := sum + pri_tap_k * constrain (p1 - px) pri pri_shift in
      let pri_tap_k := Z.lor (Z.land pri_tap_k 3) 2 in
      let mn := umin p0 mn in
      let mx := Z.max p0 mx in
      let mn := umin p1 mn in
      let mx := Z.max p1 mx in
      let! (s0, s1, s2, s3) := sec_taps k in
      let sec_tap := 2 - k in
      let sum := sum + sec_tap * constrain (s0 - px) sec sec_shift in
      let sum := sum + sec_tap * constrain (s1 - px) sec sec_shift in
      let sum := sum + sec_tap * constrain (s2 - px) sec sec_shift in
      let sum := sum + sec_tap * constrain (s3 - px) sec sec_shift in
      let mn := umin s0 mn in
      let mx := Z.max s0 mx in
      let mn := umin s1 mn in
      let mx := Z.max s1 mx in
      let mn := umin s2 mn in
      let mx := Z.max s2 mx in
      let mn := umin s3 mn in
      let mx := Z.max s3 mx in
      Ok (sum, mx, mn, pri_tap_k)) (0, px, px, pri_tap) in
  Ok (iclip (px + round_sum sum) mn mx).
Definition filter_pri (pri pri_tap pri_shift : Z) : outcome Z :=
  let! (sum, _) :=
    for_ 0 2 (fun k st =>
      let '(sum, pri_tap_k) := st in
      let! (p0, p1) := pri_taps k in
      let sum := sum + pri_tap_k * constrain (p0 - px) pri pri_shift in
      let sum := sum + pri_tap_k * constrain (p1 - px) pri pri_shift in
      Ok (sum, Z.lor (Z.land pri_tap_k 3) 2)) (0, pri_tap) in
  Ok (px + round_sum sum).
Definition filter_sec (sec sec_shift : Z) : outcome Z :=
  let! sum :=
    for_ 0 2 (fun k sum =>
      let! (s0, s1, s2, s3) := sec_taps k in
      let sec_tap := 2 - k in
      let sum := sum + sec_tap * constrain (s0 - px) sec sec_shift in
      let sum := sum + sec_tap * constrain (s1 - px) sec sec_shift in
      let sum := sum + sec_tap * constrain (s2 - px) sec sec_shift in
      let sum := sum + sec_tap * constrain (s3 - px) sec sec_shift in
      Ok sum) 0 in
  Ok (px + round_sum sum).
End Filter.

(** cdef_filter_block_c on the block at ([y0], [x0]) of a plane of [rows] rows; [left],
    [top] and [bottom] read the pixels around it. *)
Definition filter_block (bd rows stride y0 x0 : Z) (left top bottom : Z -> Z -> outcome Z)
  (pri sec dir damping w h : Z) (e : edges) (dst : plane) : outcome plane :=
  guard! ((w =? 4) || (w =? 8)) && ((h =? 4) || (h =? 8)) in              (* assert *)
  let! tmp := padding (fun y x => rd2 rows stride dst (y0 + y) (x0 + x)) left top bottom w h e in
  let pri_tap := 4 - Z.land (Z.shiftr pri (bd - 8)) 1 in
  let pri_shift := Z.max 0 (damping - ulog2 pri) in
  let sec_shift := damping - ulog2 sec in
  let pix y x px :=
    if negb (pri =? 0) then
      if negb (sec =? 0) then
        guard! 0 <=? sec_shift in filter_both tmp dir (cell y x) px pri sec pri_tap pri_shift sec_shift
      else filter_pri tmp dir (cell y x) px pri pri_tap pri_shift
    else
      guard! negb (sec =? 0) && (0 <=? sec_shift) in                      (* assert *)
      filter_sec tmp dir (cell y x) px sec sec_shift in
  for_ 0 h (fun y dst =>
    for_ 0 w (fun x dst =>
      let! px := rd2 rows stride dst (y0 + y) (x0 + x) in
      let! v := pix y x px in
      wr2 rows stride dst (y0 + y) (x0 + x) (pixel bd v)) dst) dst.

(** * Direction search, lines 250-310 *)
Definition acc (h w y x v : Z) (b : plane) : outcome plane :=
  let! s := rd2 h w b y x in let! s := ck (s + v) in wr2 h w b y x s.
Definition zeros : plane := fun _ _ => Some 0.
Definition div_table : list Z := [840; 420; 280; 210; 168; 140; 120].
Definition partial_sums (bd : Z) (img : Z -> Z -> outcome Z) : outcome (plane * plane * plane) :=
  for_ 0 8 (fun y st =>
    for_ 0 8 (fun x st =>
      let '(hv, diag, alt) := st in
      let! i := img y x in
      let px := Z.shiftr i (bd - 8) - 128 in
      let! diag := acc 2 15 0 (y + x) px diag in
      let! alt := acc 4 11 0 (y + Z.shiftr x 1) px alt in
      let! hv := acc 2 8 0 y px hv in
      let! alt := acc 4 11 1 (3 + y - Z.shiftr x 1) px alt in
      let! diag := acc 2 15 1 (7 + y - x) px diag in
      let! alt := acc 4 11 2 (3 - Z.shiftr y 1 + x) px alt in
      let! hv := acc 2 8 1 x px hv in
      let! alt := acc 4 11 3 (Z.shiftr y 1 + x) px alt in
      Ok (hv, diag, alt)) st) (zeros, zeros, zeros).
(** The elements of cost[]; the code updates them in common loops. *)
Definition cost_hv (hv : plane) (i : Z) : outcome Z :=
  let! c := for_ 0 8 (fun n c => let! p := rd2 2 8 hv i n in let! q := ck (p * p) in Ok (u32 (c + q))) 0 in
  Ok (u32 (c * 105)).
Definition cost_diag (diag : plane) (i : Z) : outcome Z :=
  let! c :=
    for_ 0 7 (fun n c =>
      let! d := rd_at div_table n in
      let! p := rd2 2 15 diag i n in
      let! q := rd2 2 15 diag i (14 - n) in
      let! v := ck ((p * p + q * q) * d) in
      Ok (u32 (c + v))) 0 in
  let! p := rd2 2 15 diag i 7 in
  let! v := ck (p * p * 105) in
  Ok (u32 (c + v)).
Definition cost_alt (alt : plane) (i : Z) : outcome Z :=
  let! c := for_ 0 5 (fun m c => let! p := rd2 4 11 alt i (3 + m) in let! q := ck (p * p) in Ok (u32 (c + q))) 0 in
  for_ 0 3 (fun m c =>
    let! d := rd_at div_table (2 * m + 1) in
    let! p := rd2 4 11 alt i m in
    let! q := rd2 4 11 alt i (10 - m) in
    let! v := ck ((p * p + q * q) * d) in
    Ok (u32 (c + v))) (u32 (c * 105)).
(** cdef_find_dir_c: direction and variance. *)
Definition find_dir (bd : Z) (img : Z -> Z -> outcome Z) : outcome (Z * Z) :=
  let! (hv, diag, alt) := partial_sums bd img in
  let! c2 := cost_hv hv 0 in
  let! c6 := cost_hv hv 1 in
  let! c0 := cost_diag diag 0 in
  let! c4 := cost_diag diag 1 in
  let! c1 := cost_alt alt 0 in
  let! c3 := cost_alt alt 1 in
  let! c5 := cost_alt alt 2 in
  let! c7 := cost_alt alt 3 in
  let cost := [c0; c1; c2; c3; c4; c5; c6; c7] in
  let! (best_dir, best_cost) :=
    for_ 1 8 (fun n st =>
      let '(best_dir, best_cost) := st in
      let! c := rd_at cost n in
      Ok (if best_cost <? c then (n, c) else (best_dir, best_cost))) (0, c0) in
  let! other := rd_at cost (Z.lxor best_dir 4) in
  Ok (best_dir, Z.shiftr (u32 (best_cost - other)) 10).

(** * cdef_apply_tmpl.c *)
(** What the functions use of the frame context. *)
Record config : Type := mkConfig {
  c_bd : Z; c_ssx : Z; c_ssy : Z; c_mono : bool;              (* bit depth and layout *)
  c_bw : Z; c_bh : Z; c_sb64w : Z; c_sbh : Z;                 (* f->bw, bh, sb128w << 1, sbh *)
  c_sb_step : Z; c_sb128 : Z;
  c_damping : Z; c_y_str : list Z; c_uv_str : list Z;         (* frame_hdr->cdef *)
  c_have_tt : bool; c_resize : bool;                          (* n_tc > 1, width[0] != width[1] *)
  c_rows : Z -> Z; c_stride : Z -> Z;                         (* of the planes *)
  c_lr_lpf : Z -> plane; c_cdef_lpf : Z -> plane;             (* lf.lr_lpf_line, cdef_lpf_line *)
  c_lr_rows : Z; c_cdef_rows : Z }.
(** f->cur, lf.cdef_line, tc->top_pre_cdef_toggle. *)
Record state : Type := mkState { s_fr : Z -> plane; s_line : bool -> Z -> plane; s_tf : bool }.
(** Av1Filter: cdef_idx and noskip_mask of the superblocks of a row. *)
Record masks : Type := mkMasks { m_idx : Z -> Z -> Z; m_noskip : Z -> Z -> Z -> Z }.

Definition shift_x (c : config) (pl v : Z) : Z := if pl =? 0 then v else Z.shiftr v (c_ssx c).
Definition shift_y (c : config) (pl v : Z) : Z := if pl =? 0 then v else Z.shiftr v (c_ssy c).

(** Copying rows or parts of rows, of whatever content. *)
Definition copy_rect (dst : plane) (dy dx : Z) (src : plane) (sy sx h w : Z) : plane :=
  fun y x => if (dy <=? y) && (y <? dy + h) && (dx <=? x) && (x <? dx + w) then src (sy + (y - dy)) (sx + (x - dx)) else dst y x.
Definition set_at {A} (f : Z -> A) (i : Z) (v : A) : Z -> A := fun j => if j =? i then v else f j.
Definition set_bat {A} (f : bool -> A) (i : bool) (v : A) : bool -> A := fun j => if Bool.eqb j i then v else f j.

(** Lines of cdef_line[][pl] used for superblock row [sby], and all of them. *)
Definition line_slot (c : config) (sby pl : Z) : Z := if c_have_tt c then sby * (if pl =? 0 then 4 else 8) else 0.
Definition line_rows (c : config) (pl : Z) : Z := c_sbh c * (if pl =? 0 then 4 else 8).
Definition planes (c : config) : list Z := if c_mono c then [0] else [0; 1; 2].

(** Lines 42-64 backup2lines: the last two rows of the eight at [y0]. *)
Definition backup2line (c : config) (fr : Z -> plane) (line : Z -> plane) (sby by_ : Z) (pl : Z) : outcome (Z -> plane) :=
  let off := if (negb (pl =? 0)) && (c_ssy c =? 1) then 2 else 6 in
  let y := shift_y c pl (by_ * 4) + off in
  guard! (0 <=? y) && (y + 2 <=? c_rows c pl) && (0 <=? line_slot c sby pl) && (line_slot c sby pl + 2 <=? line_rows c pl) in
  Ok (set_at line pl (copy_rect (line pl) (line_slot c sby pl) 0 (fr pl) y 0 2 (c_stride c pl))).
Fixpoint ofold {A S} (f : A -> S -> outcome S) (l : list A) (s : S) : outcome S :=
  match l with [] => Ok s | a :: l => let! s := f a s in ofold f l s end.
Definition backup2lines (c : config) (fr : Z -> plane) (line : Z -> plane) (sby by_ : Z) : outcome (Z -> plane) :=
  ofold (fun pl line => backup2line c fr line sby by_ pl) (planes c) line.
(** Lines 66-91 backup2x8: [x_off] is 0 or 8. *)
Definition backup2x8p (c : config) (fr : Z -> plane) (bak : Z -> plane) (by_ bx x_off : Z) (pl : Z) : outcome (Z -> plane) :=
  let y := shift_y c pl (by_ * 4) in
  let x := shift_x c pl (bx * 4) + shift_x c pl x_off - 2 in
  let n := shift_y c pl 8 in
  guard! (0 <=? y) && (y + n <=? c_rows c pl) && (0 <=? x) && (x + 2 <=? c_stride c pl) in
  Ok (set_at bak pl (copy_rect (bak pl) 0 0 (fr pl) y x n 2)).
Definition backup2x8 (c : config) (fr : Z -> plane) (bak : Z -> plane) (by_ bx x_off : Z) (flag : bool * bool) : outcome (Z -> plane) :=
  ofold (fun pl bak => backup2x8p c fr bak by_ bx x_off pl)
    ((if fst flag then [0] else []) ++ (if snd flag && negb (c_mono c) then [1; 2] else [])) bak.

(** Lines 93-97. *)
Definition adjust_strength (strength var : Z) : Z :=
  if var =? 0 then 0 else
  let v := Z.shiftr var 6 in
  let i := if v =? 0 then 0 else Z.min (ulog2 v) 12 in
  Z.shiftr (strength * (4 + i) + 8) 4.

(** Rows above and below the block: lines 206-236 and 253-283. *)
Definition top_of (c : config) (st : state) (sbrow_start : bool) (by_start by_ bx sby pl : Z) (y x : Z) : outcome Z :=
  let x := shift_x c pl (bx * 4) + x in
  if c_have_tt c && sbrow_start && (by_ =? by_start) then
    if c_resize c then rd2 (c_cdef_rows c) (c_stride c pl) (c_cdef_lpf c pl) ((sby - 1) * 4 + y) x
    else rd2 (c_lr_rows c) (c_stride c pl) (c_lr_lpf c pl) (sby * Z.shiftl 4 (c_sb128 c) - 4 + y) x
  else rd2 (line_rows c pl) (c_stride c pl) (s_line st (s_tf st) pl) (line_slot c sby pl + y) x.
Definition bot_of (c : config) (fr : Z -> plane) (sbrow_start : bool) (by_start by_end by_ bx sby pl : Z) (y x : Z) : outcome Z :=
  let x := shift_x c pl (bx * 4) + x in
  if c_have_tt c && negb (sbrow_start && (by_ =? by_start)) && (negb sbrow_start && (by_end <=? by_ + 2)) then
    if c_resize c then rd2 (c_cdef_rows c) (c_stride c pl) (c_cdef_lpf c pl) (sby * 4 + 2 + y) x
    else rd2 (c_lr_rows c) (c_stride c pl) (c_lr_lpf c pl) (sby * Z.shiftl 4 (c_sb128 c) + 4 * c_sb128 c + 2 + y) x
  else rd2 (c_rows c pl) (c_stride c pl) (fr pl) (shift_y c pl (by_ * 4) + shift_y c pl 8 + y) x.

(** State of the loops over a row of blocks: frame, lr_bak, bit, last_skip, prev_flag,
    CDEF_HAVE_LEFT and CDEF_HAVE_RIGHT. *)
Record rowst : Type := mkRow {
  r_fr : Z -> plane; r_bak : bool -> Z -> plane; r_bit : bool; r_last_skip : bool;
  r_prev : bool * bool; r_left : bool; r_right : bool }.
Definition uv_dirs : list (list Z) := [[0; 1; 2; 3; 4; 5; 6; 7]; [7; 0; 2; 4; 5; 6; 6; 6]].
Definition sec_level (lvl bd : Z) : Z := let s := Z.land lvl 3 in Z.shiftl (s + (if s =? 3 then 1 else 0)) (bd - 8).

Section Brow.
Variables (c : config) (m : masks) (st : state).
Variables (by_start by_end : Z) (sbrow_start : bool) (sby : Z).
Variables (have_top have_bottom : bool) (by_ : Z).

(** Lines 196-298, a block that is not skipped; [left]/[right] are the edge flags. *)
Definition block (bx y_lvl uv_lvl : Z) (r : rowst) : outcome rowst :=
  let bd := c_bd c in
  let e := mkEdges (r_left r) (r_right r) have_top have_bottom in
  let flag := (negb (y_lvl =? 0), negb (uv_lvl =? 0)) in
  let do_left := if r_last_skip r then flag
                 else (xorb (fst (r_prev r)) (fst flag) && fst flag, xorb (snd (r_prev r)) (snd flag) && snd flag) in
  let bit := r_bit r in
  let! bak :=
    (if (fst do_left || snd do_left) && r_left r
     then let! b := backup2x8 c (r_fr r) (r_bak r bit) by_ bx 0 do_left in Ok (set_bat (r_bak r) bit b)
     else Ok (r_bak r)) in
  let! bak :=
    (if r_right r
     then let! b := backup2x8 c (r_fr r) (bak (negb bit)) by_ bx 8 flag in Ok (set_bat bak (negb bit) b)
     else Ok bak) in
  let y_pri_lvl := Z.shiftl (Z.shiftr y_lvl 2) (bd - 8) in
  let y_sec_lvl := sec_level y_lvl bd in
  let uv_pri_lvl := Z.shiftl (Z.shiftr uv_lvl 2) (bd - 8) in
  let uv_sec_lvl := sec_level uv_lvl bd in
  let! dv :=
    (if negb (y_pri_lvl =? 0) || negb (uv_pri_lvl =? 0)
     then let! d := find_dir bd (fun y x => rd2 (c_rows c 0) (c_stride c 0) (r_fr r 0) (by_ * 4 + y) (bx * 4 + x)) in Ok (Some d)
     else Ok None) in
  let get_dv := match dv with Some d => Ok d | None => Undef end in        (* dir and variance are not set *)
  let damping := c_damping c + (bd - 8) in
  let fb pl fr pri sec dir damping :=
    let! p := filter_block bd (c_rows c pl) (c_stride c pl) (shift_y c pl (by_ * 4)) (shift_x c pl (bx * 4))
      (fun y x => rd2 8 2 (bak bit pl) y x) (top_of c st sbrow_start by_start by_ bx sby pl)
      (bot_of c fr sbrow_start by_start by_end by_ bx sby pl) pri sec dir damping (shift_x c pl 8) (shift_y c pl 8) e (fr pl) in
    Ok (set_at fr pl p) in
  let fr := r_fr r in
  let! fr :=
    (if negb (y_pri_lvl =? 0) then
       let! (dir, variance) := get_dv in
       let adj := adjust_strength y_pri_lvl variance in
       if negb (adj =? 0) || negb (y_sec_lvl =? 0) then fb 0 fr adj y_sec_lvl dir damping else Ok fr
     else if negb (y_sec_lvl =? 0) then fb 0 fr 0 y_sec_lvl 0 damping else Ok fr) in
  let! fr :=
    (if negb (uv_lvl =? 0) then
       guard! negb (c_mono c) in                                           (* assert *)
       let! uvdir :=
         (if negb (uv_pri_lvl =? 0) then
            let! (dir, _) := get_dv in
            let! l := rd_at uv_dirs (if (c_ssx c =? 1) && (c_ssy c =? 0) then 1 else 0) in rd_at l dir
          else Ok 0) in
       let! fr := fb 1 fr uv_pri_lvl uv_sec_lvl uvdir (damping - 1) in
       fb 2 fr uv_pri_lvl uv_sec_lvl uvdir (damping - 1)
     else Ok fr) in
  Ok (mkRow fr bak (negb bit) false flag (r_left r) (r_right r)).

(** Lines 151-306, the row of blocks at [by_]. *)
Definition brow_row (bit : bool) : outcome rowst :=
  let by_idx := Z.shiftr (Z.land by_ 30) 1 in
  for_ 0 (c_sb64w c) (fun sbx r =>
    let sb128x := Z.shiftr sbx 1 in
    let sb64_idx := Z.shiftr (Z.land by_ 16) 3 + Z.land sbx 1 in
    let cdef_idx := m_idx m sb128x sb64_idx in
    let set_left r := mkRow (r_fr r) (r_bak r) (r_bit r) (r_last_skip r) (r_prev r) true (r_right r) in
    let skip r := mkRow (r_fr r) (r_bak r) (r_bit r) true (r_prev r) (r_left r) (r_right r) in
    let! r :=
      (if cdef_idx =? -1 then Ok (skip r) else
       let! y_lvl := rd_at (c_y_str c) cdef_idx in
       let! uv_lvl := rd_at (c_uv_str c) cdef_idx in
       if (y_lvl =? 0) && (uv_lvl =? 0) then Ok (skip r) else
       let noskip_mask := Z.lor (Z.shiftl (m_noskip m sb128x by_idx 1) 16) (m_noskip m sb128x by_idx 0) in
       let n := (Z.min ((sbx + 1) * 16) (c_bw c) - sbx * 16 + 1) / 2 in
       for_ 0 n (fun k r =>
         let bx := sbx * 16 + 2 * k in
         let r := if c_bw c <=? bx + 2 then mkRow (r_fr r) (r_bak r) (r_bit r) (r_last_skip r) (r_prev r) (r_left r) false else r in
         let bx_mask := u32 (Z.shiftl 3 (Z.land bx 30)) in
         let! r := (if Z.land noskip_mask bx_mask =? 0 then Ok (skip r) else block bx y_lvl uv_lvl r) in
         Ok (set_left r)) r) in
    Ok (set_left r)) (mkRow (s_fr st) (fun _ _ => plane0) bit true (false, false) false true).
End Brow.

(** Lines 99-309 dav1d_cdef_brow; the loop state also has bit, CDEF_HAVE_TOP and
    CDEF_HAVE_BOTTOM. *)
Definition cdef_brow (c : config) (m : masks) (by_start by_end : Z) (sbrow_start : bool) (sby : Z) (st : state) : outcome state :=
  let! (st, _, _, _) :=
    for_ 0 ((by_end - by_start + 1) / 2) (fun k q =>
      let '(st, bit, have_top, have_bottom) := q in
      let by_ := by_start + 2 * k in
      let have_bottom := if c_bh c <=? by_ + 2 then false else have_bottom in
      let tf := s_tf st in
      let! line :=
        (if (negb (c_have_tt c) || sbrow_start || (by_ + 2 <? by_end)) && have_bottom
         then let! l := backup2lines c (s_fr st) (s_line st (negb tf)) sby by_ in Ok (set_bat (s_line st) (negb tf) l)
         else Ok (s_line st)) in
      let st := mkState (s_fr st) line tf in
      let! r := brow_row c m st by_start by_end sbrow_start sby have_top have_bottom by_ bit in
      Ok (mkState (r_fr r) line (negb tf), r_bit r, true, have_bottom)) (st, false, 0 <? by_start, true) in
  Ok st.

(** recon_tmpl.c:2028-2054 dav1d_filter_sbrow_cdef, with the filter enabled. *)
Definition filter_sbrow_cdef (c : config) (ms : Z -> masks) (sby : Z) (st : state) : outcome state :=
  let sbsz := c_sb_step c in
  let row s := Z.shiftr s (1 - c_sb128 c) in
  let start := sby * sbsz in
  let! st := (if negb (sby =? 0) then cdef_brow c (ms (row (sby - 1))) (start - 2) start true sby st else Ok st) in
  let n_blks := sbsz - 2 * (if sby + 1 <? c_sbh c then 1 else 0) in
  let end_ := Z.min (start + n_blks) (c_bh c) in
  cdef_brow c (ms (row sby)) start end_ false sby st.

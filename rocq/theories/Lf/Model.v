(** The deblocking filter: src/loopfilter_tmpl.c:37-249, the levels and limits of src/lf_mask.c:385-472 and the loops over
    the edges of src/lf_apply_tmpl.c:171-311, 397-466.

    - A plane has [rows] rows of [cols] pixels, [None] where nothing was written; pointers are a row and a column.
    - Pixels are stored with [px], the conversion to pixel (uint8_t or uint16_t).
    - [lev r c i] reads f->lf.level[r * b4_stride + c][i]; the array Av1FilterLUT is two arrays of 64 cells.
    - p2...p6 and q2...q6 are undefined until they are read.
    - Masks are functions of the column (or row), of the index and of the half, of indices that are checked.
    - The loops for (y = 1; vm & ~(y - 1); y <<= 1) end at the latest when y, of 32 bits, is 0; they are loops over the
      number of the bit that do nothing once the condition is false, which it then remains.
    - The masks at tile boundaries (lf_apply_tmpl.c:332-394) are not here, [sbrow_cols] starts after them. *)
From Coq Require Import ZArith List Bool.
From Verif Require Import Base.CInt Base.Loop.
Import ListNotations.
Open Scope Z_scope.
Local Open Scope outcome_scope.

Definition px (bd v : Z) : Z := if bd =? 8 then u8 v else u16 v.
Definition clip_pixel (bd v : Z) : Z := iclip v 0 (2 ^ bd - 1).

(** * src/loopfilter_tmpl.c *)
Section Kernel.
Variables (bd rows cols : Z).
(** [hor]: strideb is 1 and stridea the stride; otherwise the other way round. *)
Definition rdk (hor : bool) (d : plane) (y x k : Z) : outcome Z := if hor then rd2 rows cols d y (x + k) else rd2 rows cols d (y + k) x.
Definition wrk (hor : bool) (y x k v : Z) (d : plane) : outcome plane := if hor then wr2 rows cols d y (x + k) (px bd v) else wr2 rows cols d (y + k) x (px bd v).
(** dst[strideb * k] = s >> n *)
Definition avg (hor : bool) (y x k s n : Z) (d : plane) : outcome plane := let! s := ck s in wrk hor y x k (Z.shiftr s n) d.

(** lines 49-164: one line, after the shifts of E, I and H *)
Definition lf_line (hor : bool) (E Il H wd y x : Z) (d : plane) : outcome plane :=
  let F := 2 ^ (bd - 8) in
  let! p1 := rdk hor d y x (-2) in let! p0 := rdk hor d y x (-1) in
  let! q0 := rdk hor d y x 0 in let! q1 := rdk hor d y x 1 in
  let fm := (Z.abs (p1 - p0) <=? Il) && (Z.abs (q1 - q0) <=? Il) && (Z.abs (p0 - q0) * 2 + Z.shiftr (Z.abs (p1 - q1)) 1 <=? E) in
  let op2 := if 4 <? wd then rdk hor d y x (-3) else Undef in
  let oq2 := if 4 <? wd then rdk hor d y x 2 else Undef in
  let op3 := if (4 <? wd) && (6 <? wd) then rdk hor d y x (-4) else Undef in
  let oq3 := if (4 <? wd) && (6 <? wd) then rdk hor d y x 3 else Undef in
  let! fm := (if 4 <? wd then
      let! p2 := op2 in let! q2 := oq2 in
      let fm := fm && ((Z.abs (p2 - p1) <=? Il) && (Z.abs (q2 - q1) <=? Il)) in
      if 6 <? wd then
        let! p3 := op3 in let! q3 := oq3 in
        Ok (fm && ((Z.abs (p3 - p2) <=? Il) && (Z.abs (q3 - q2) <=? Il)))
      else Ok fm
    else Ok fm) in
  if negb fm then Ok d else
  let op6 := if 16 <=? wd then rdk hor d y x (-7) else Undef in
  let op5 := if 16 <=? wd then rdk hor d y x (-6) else Undef in
  let op4 := if 16 <=? wd then rdk hor d y x (-5) else Undef in
  let oq4 := if 16 <=? wd then rdk hor d y x 4 else Undef in
  let oq5 := if 16 <=? wd then rdk hor d y x 5 else Undef in
  let oq6 := if 16 <=? wd then rdk hor d y x 6 else Undef in
  let flat8out := if 16 <=? wd then
      let! p6 := op6 in let! p5 := op5 in let! p4 := op4 in let! q4 := oq4 in let! q5 := oq5 in let! q6 := oq6 in
      Ok ((Z.abs (p6 - p0) <=? F) && (Z.abs (p5 - p0) <=? F) && (Z.abs (p4 - p0) <=? F) && (Z.abs (q4 - q0) <=? F) && (Z.abs (q5 - q0) <=? F) && (Z.abs (q6 - q0) <=? F))
    else Undef in
  let flat8in := if 6 <=? wd then
      let! p2 := op2 in let! q2 := oq2 in
      Ok ((Z.abs (p2 - p0) <=? F) && (Z.abs (p1 - p0) <=? F) && (Z.abs (q1 - q0) <=? F) && (Z.abs (q2 - q0) <=? F))
    else Undef in
  let flat8in := if 8 <=? wd then
      let! p3 := op3 in let! q3 := oq3 in let! f := flat8in in
      Ok (f && ((Z.abs (p3 - p0) <=? F) && (Z.abs (q3 - q0) <=? F)))
    else flat8in in
  let! w16 := (if 16 <=? wd then let! a := flat8out in let! b := flat8in in Ok (a && b) else Ok false) in
  if w16 then
    let! p6 := op6 in let! p5 := op5 in let! p4 := op4 in let! p3 := op3 in let! p2 := op2 in
    let! q2 := oq2 in let! q3 := oq3 in let! q4 := oq4 in let! q5 := oq5 in let! q6 := oq6 in
    let! d := avg hor y x (-6) (p6 + p6 + p6 + p6 + p6 + p6 * 2 + p5 * 2 + p4 * 2 + p3 + p2 + p1 + p0 + q0 + 8) 4 d in
    let! d := avg hor y x (-5) (p6 + p6 + p6 + p6 + p6 + p5 * 2 + p4 * 2 + p3 * 2 + p2 + p1 + p0 + q0 + q1 + 8) 4 d in
    let! d := avg hor y x (-4) (p6 + p6 + p6 + p6 + p5 + p4 * 2 + p3 * 2 + p2 * 2 + p1 + p0 + q0 + q1 + q2 + 8) 4 d in
    let! d := avg hor y x (-3) (p6 + p6 + p6 + p5 + p4 + p3 * 2 + p2 * 2 + p1 * 2 + p0 + q0 + q1 + q2 + q3 + 8) 4 d in
    let! d := avg hor y x (-2) (p6 + p6 + p5 + p4 + p3 + p2 * 2 + p1 * 2 + p0 * 2 + q0 + q1 + q2 + q3 + q4 + 8) 4 d in
    let! d := avg hor y x (-1) (p6 + p5 + p4 + p3 + p2 + p1 * 2 + p0 * 2 + q0 * 2 + q1 + q2 + q3 + q4 + q5 + 8) 4 d in
    let! d := avg hor y x 0 (p5 + p4 + p3 + p2 + p1 + p0 * 2 + q0 * 2 + q1 * 2 + q2 + q3 + q4 + q5 + q6 + 8) 4 d in
    let! d := avg hor y x 1 (p4 + p3 + p2 + p1 + p0 + q0 * 2 + q1 * 2 + q2 * 2 + q3 + q4 + q5 + q6 + q6 + 8) 4 d in
    let! d := avg hor y x 2 (p3 + p2 + p1 + p0 + q0 + q1 * 2 + q2 * 2 + q3 * 2 + q4 + q5 + q6 + q6 + q6 + 8) 4 d in
    let! d := avg hor y x 3 (p2 + p1 + p0 + q0 + q1 + q2 * 2 + q3 * 2 + q4 * 2 + q5 + q6 + q6 + q6 + q6 + 8) 4 d in
    let! d := avg hor y x 4 (p1 + p0 + q0 + q1 + q2 + q3 * 2 + q4 * 2 + q5 * 2 + q6 + q6 + q6 + q6 + q6 + 8) 4 d in
    avg hor y x 5 (p0 + q0 + q1 + q2 + q3 + q4 * 2 + q5 * 2 + q6 * 2 + q6 + q6 + q6 + q6 + q6 + 8) 4 d
  else
  let! w8 := (if 8 <=? wd then flat8in else Ok false) in
  if w8 then
    let! p3 := op3 in let! p2 := op2 in let! q2 := oq2 in let! q3 := oq3 in
    let! d := avg hor y x (-3) (p3 + p3 + p3 + 2 * p2 + p1 + p0 + q0 + 4) 3 d in
    let! d := avg hor y x (-2) (p3 + p3 + p2 + 2 * p1 + p0 + q0 + q1 + 4) 3 d in
    let! d := avg hor y x (-1) (p3 + p2 + p1 + 2 * p0 + q0 + q1 + q2 + 4) 3 d in
    let! d := avg hor y x 0 (p2 + p1 + p0 + 2 * q0 + q1 + q2 + q3 + 4) 3 d in
    let! d := avg hor y x 1 (p1 + p0 + q0 + 2 * q1 + q2 + q3 + q3 + 4) 3 d in
    avg hor y x 2 (p0 + q0 + q1 + 2 * q2 + q3 + q3 + q3 + 4) 3 d
  else
  let! w6 := (if wd =? 6 then flat8in else Ok false) in
  if w6 then
    let! p2 := op2 in let! q2 := oq2 in
    let! d := avg hor y x (-2) (p2 + 2 * p2 + 2 * p1 + 2 * p0 + q0 + 4) 3 d in
    let! d := avg hor y x (-1) (p2 + 2 * p1 + 2 * p0 + 2 * q0 + q1 + 4) 3 d in
    let! d := avg hor y x 0 (p1 + 2 * p0 + 2 * q0 + 2 * q1 + q2 + 4) 3 d in
    avg hor y x 1 (p0 + 2 * q0 + 2 * q1 + 2 * q2 + q2 + 4) 3 d
  else
  let hev := (Z.abs (p1 - p0) >? H) || (Z.abs (q1 - q0) >? H) in
  let iclip_diff v := iclip v (-128 * 2 ^ (bd - 8)) (128 * 2 ^ (bd - 8) - 1) in
  if hev then
    let f := iclip_diff (p1 - q1) in
    let f := iclip_diff (3 * (q0 - p0) + f) in
    let f1 := Z.shiftr (Z.min (f + 4) (128 * 2 ^ (bd - 8) - 1)) 3 in
    let f2 := Z.shiftr (Z.min (f + 3) (128 * 2 ^ (bd - 8) - 1)) 3 in
    let! d := wrk hor y x (-1) (clip_pixel bd (p0 + f2)) d in
    wrk hor y x 0 (clip_pixel bd (q0 - f1)) d
  else
    let f := iclip_diff (3 * (q0 - p0)) in
    let f1 := Z.shiftr (Z.min (f + 4) (128 * 2 ^ (bd - 8) - 1)) 3 in
    let f2 := Z.shiftr (Z.min (f + 3) (128 * 2 ^ (bd - 8) - 1)) 3 in
    let! d := wrk hor y x (-1) (clip_pixel bd (p0 + f2)) d in
    let! d := wrk hor y x 0 (clip_pixel bd (q0 - f1)) d in
    let f := Z.shiftr (f1 + 1) 1 in
    let! d := wrk hor y x (-2) (clip_pixel bd (p1 + f)) d in
    wrk hor y x 1 (clip_pixel bd (q1 - f)) d.
(** loop_filter: lines 37-165 *)
Definition loop_filter (hor : bool) (E Il H wd y x : Z) (d : plane) : outcome plane :=
  let! E := ck (Z.shiftl E (bd - 8)) in let! Il := ck (Z.shiftl Il (bd - 8)) in let! H := ck (Z.shiftl H (bd - 8)) in
  for_ 0 4 (fun i d => if hor then lf_line hor E Il H wd (y + i) x d else lf_line hor E Il H wd y (x + i) d) d.

Definition lut : Type := arr * arr.
(** lines 176-183 and their copies *)
Definition filter_unit (t : lut) (hor : bool) (cur prev : outcome Z) (wd y x : Z) (d : plane) : outcome plane :=
  let! a := cur in
  let! L := (if negb (a =? 0) then Ok a else prev) in
  if L =? 0 then Ok d else
  let H := Z.shiftr L 4 in
  let! E := rd1 64 (fst t) L in
  let! Il := rd1 64 (snd t) L in
  loop_filter hor E Il H wd y x d.
Definition bit (m k : Z) : bool := negb (Z.land m (2 ^ k) =? 0).
Definition left_ (vm k : Z) : bool := negb (Z.land vm (Z.lnot (2 ^ k - 1)) =? 0).
(** loop_filter_h_sb128y_c: lines 167-187. [l r c] is l[r * b4_stride + c][0]. *)
Definition loop_filter_h_sb128y (t : lut) (l : Z -> Z -> outcome Z) (m0 m1 m2 y x : Z) (d : plane) : outcome plane :=
  let vm := Z.lor (Z.lor m0 m1) m2 in
  for_ 0 32 (fun k d => if left_ vm k && bit vm k then
      let idx := if bit m2 k then 2 else b2z (bit m1 k) in
      filter_unit t true (l k 0) (l k (-1)) (Z.shiftl 4 idx) (y + 4 * k) x d else Ok d) d.
(** loop_filter_v_sb128y_c: lines 189-207 *)
Definition loop_filter_v_sb128y (t : lut) (l : Z -> Z -> outcome Z) (m0 m1 m2 y x : Z) (d : plane) : outcome plane :=
  let vm := Z.lor (Z.lor m0 m1) m2 in
  for_ 0 32 (fun k d => if left_ vm k && bit vm k then
      let idx := if bit m2 k then 2 else b2z (bit m1 k) in
      filter_unit t false (l 0 k) (l (-1) k) (Z.shiftl 4 idx) y (x + 4 * k) d else Ok d) d.
(** loop_filter_h_sb128uv_c: lines 209-229 *)
Definition loop_filter_h_sb128uv (t : lut) (l : Z -> Z -> outcome Z) (m0 m1 y x : Z) (d : plane) : outcome plane :=
  let vm := Z.lor m0 m1 in
  for_ 0 32 (fun k d => if left_ vm k && bit vm k then
      let idx := b2z (bit m1 k) in
      filter_unit t true (l k 0) (l k (-1)) (4 + 2 * idx) (y + 4 * k) x d else Ok d) d.
(** loop_filter_v_sb128uv_c: lines 231-249 *)
Definition loop_filter_v_sb128uv (t : lut) (l : Z -> Z -> outcome Z) (m0 m1 y x : Z) (d : plane) : outcome plane :=
  let vm := Z.lor m0 m1 in
  for_ 0 32 (fun k d => if left_ vm k && bit vm k then
      let idx := b2z (bit m1 k) in
      filter_unit t false (l 0 k) (l (-1) k) (4 + 2 * idx) y (x + 4 * k) d else Ok d) d.

(** * src/lf_apply_tmpl.c *)
(** mask[x][i][s] of an array of 32 elements of type uint16_t[3][2] ([2][2] for chroma) *)
Definition masks : Type := Z -> Z -> Z -> Z.
Definition rdm (n : Z) (m : masks) (x i s : Z) : outcome Z :=
  guard! (0 <=? x) && (x <? 32) && (0 <=? i) && (i <? n) && (0 <=? s) && (s <? 2) in Ok (m x i s).
Definition levels : Type := Z -> Z -> Z -> outcome Z.
Definition shl32 (v n : Z) : Z := u32 (Z.shiftl v n).

(** filter_plane_cols_y: lines 171-205; the level pointer is cell ([lr], [lc]), dst is pixel ([y], [x0]) *)
Definition filter_plane_cols_y (t : lut) (have_left : bool) (lev : levels) (lr lc : Z) (mask : masks) (y x0 w starty4 endy4 : Z) (d : plane) : outcome plane :=
  for_ 0 w (fun x d =>
    if negb have_left && (x =? 0) then Ok d else
    let! hm := (if starty4 =? 0 then
        let! a0 := rdm 3 mask x 0 0 in let! a1 := rdm 3 mask x 1 0 in let! a2 := rdm 3 mask x 2 0 in
        if 16 <? endy4 then
          let! b0 := rdm 3 mask x 0 1 in let! b1 := rdm 3 mask x 1 1 in let! b2 := rdm 3 mask x 2 1 in
          Ok (Z.lor a0 (shl32 b0 16), Z.lor a1 (shl32 b1 16), Z.lor a2 (shl32 b2 16))
        else Ok (a0, a1, a2)
      else
        let! b0 := rdm 3 mask x 0 1 in let! b1 := rdm 3 mask x 1 1 in let! b2 := rdm 3 mask x 2 1 in Ok (b0, b1, b2)) in
    loop_filter_h_sb128y t (fun r c => lev (lr + r) (lc + x + c) 0) (fst (fst hm)) (snd (fst hm)) (snd hm) y (x0 + x * 4) d) d.
(** filter_plane_rows_y: lines 207-235 *)
Definition filter_plane_rows_y (t : lut) (have_top : bool) (lev : levels) (lr lc : Z) (mask : masks) (y0 x starty4 endy4 : Z) (d : plane) : outcome plane :=
  for_ starty4 endy4 (fun y d =>
    if negb have_top && (y =? 0) then Ok d else
    let! a0 := rdm 3 mask y 0 0 in let! a1 := rdm 3 mask y 1 0 in let! a2 := rdm 3 mask y 2 0 in
    let! b0 := rdm 3 mask y 0 1 in let! b1 := rdm 3 mask y 1 1 in let! b2 := rdm 3 mask y 2 1 in
    loop_filter_v_sb128y t (fun r c => lev (lr + (y - starty4) + r) (lc + c) 1)
      (Z.lor a0 (shl32 b0 16)) (Z.lor a1 (shl32 b1 16)) (Z.lor a2 (shl32 b2 16)) (y0 + 4 * (y - starty4)) x d) d.
(** filter_plane_cols_uv: lines 237-275, for one of the planes: [i] is 2 or 3. The calls for U and V alternate but
    write different planes. *)
Definition filter_plane_cols_uv (i : Z) (t : lut) (have_left : bool) (lev : levels) (lr lc : Z) (mask : masks) (y x0 w starty4 endy4 ss_ver : Z) (d : plane) : outcome plane :=
  for_ 0 w (fun x d =>
    if negb have_left && (x =? 0) then Ok d else
    let! hm := (if starty4 =? 0 then
        let! a0 := rdm 2 mask x 0 0 in let! a1 := rdm 2 mask x 1 0 in
        if Z.shiftr 16 ss_ver <? endy4 then
          let! b0 := rdm 2 mask x 0 1 in let! b1 := rdm 2 mask x 1 1 in
          Ok (Z.lor a0 (shl32 b0 (Z.shiftr 16 ss_ver)), Z.lor a1 (shl32 b1 (Z.shiftr 16 ss_ver)))
        else Ok (a0, a1)
      else
        let! b0 := rdm 2 mask x 0 1 in let! b1 := rdm 2 mask x 1 1 in Ok (b0, b1)) in
    loop_filter_h_sb128uv t (fun r c => lev (lr + r) (lc + x + c) i) (fst hm) (snd hm) y (x0 + x * 4) d) d.
(** filter_plane_rows_uv: lines 277-311, for one of the planes *)
Definition filter_plane_rows_uv (i : Z) (t : lut) (have_top : bool) (lev : levels) (lr lc : Z) (mask : masks) (y0 x starty4 endy4 ss_hor : Z) (d : plane) : outcome plane :=
  for_ starty4 endy4 (fun y d =>
    if negb have_top && (y =? 0) then Ok d else
    let! a0 := rdm 2 mask y 0 0 in let! a1 := rdm 2 mask y 1 0 in
    let! b0 := rdm 2 mask y 0 1 in let! b1 := rdm 2 mask y 1 1 in
    loop_filter_v_sb128uv t (fun r c => lev (lr + (y - starty4) + r) (lc + c) i)
      (Z.lor a0 (shl32 b0 (Z.shiftr 16 ss_hor))) (Z.lor a1 (shl32 b1 (Z.shiftr 16 ss_hor))) (y0 + 4 * (y - starty4)) x d) d.

(** dav1d_loopfilter_sbrow_cols, lines 396-427, and dav1d_loopfilter_sbrow_rows, lines 430-466. [filter x] is
    lflvl[x].filter_y[0] and so on; p[0], p[1] and p[2] are the first pixels of the superblock row. *)
Section Frame.
Variables (t : lut) (lev : levels) (w4 h4 sb128w sby : Z) (sb128 : bool) (ss_ver ss_hor : Z).
Definition is_sb64 : Z := b2z (negb sb128).
Definition starty4 : Z := Z.shiftl (Z.land sby is_sb64) 4.
Definition sbsz : Z := Z.shiftr 32 is_sb64.
Definition endy4 : Z := starty4 + Z.min (h4 - sby * sbsz) sbsz.
Definition uv_endy4 : Z := Z.shiftr (endy4 + ss_ver) ss_ver.
Definition sbrow_cols_y (filter : Z -> masks) (y0 : Z) (d : plane) : outcome plane :=
  for_ 0 sb128w (fun x d =>
    filter_plane_cols_y t (negb (x =? 0)) lev (sby * sbsz) (32 * x) (filter x) y0 (128 * x) (Z.min 32 (w4 - x * 32)) starty4 endy4 d) d.
Definition sbrow_cols_uv (i : Z) (filter : Z -> masks) (y0 : Z) (d : plane) : outcome plane :=
  for_ 0 sb128w (fun x d =>
    filter_plane_cols_uv i t (negb (x =? 0)) lev (Z.shiftr (sby * sbsz) ss_ver) (x * Z.shiftr 32 ss_hor) (filter x) y0 (x * Z.shiftr 128 ss_hor)
      (Z.shiftr (Z.min 32 (w4 - x * 32) + ss_hor) ss_hor) (Z.shiftr starty4 ss_ver) uv_endy4 ss_ver d) d.
Definition sbrow_rows_y (filter : Z -> masks) (y0 : Z) (d : plane) : outcome plane :=
  for_ 0 sb128w (fun x d =>
    filter_plane_rows_y t (0 <? sby) lev (sby * sbsz) (32 * x) (filter x) y0 (128 * x) starty4 endy4 d) d.
Definition sbrow_rows_uv (i : Z) (filter : Z -> masks) (y0 : Z) (d : plane) : outcome plane :=
  for_ 0 sb128w (fun x d =>
    filter_plane_rows_uv i t (0 <? sby) lev (Z.shiftr (sby * sbsz) ss_ver) (x * Z.shiftr 32 ss_hor) (filter x) y0 (x * Z.shiftr 128 ss_hor)
      (Z.shiftr starty4 ss_ver) uv_endy4 ss_hor d) d.
End Frame.
End Kernel.

(** * src/lf_mask.c *)
(** dav1d_calc_eih: lines 385-402; the fields sharp are for assembly only. *)
Definition calc_eih (sharp : Z) (t : lut) : outcome lut :=
  for_ 0 64 (fun level t =>
    let limit := level in
    let limit := if sharp >? 0 then Z.min (Z.shiftr limit (Z.shiftr (sharp + 3) 2)) (9 - sharp) else limit in
    let limit := Z.max limit 1 in
    let! i := wr1 64 (snd t) level (u8 limit) in
    let! e := wr1 64 (fst t) level (u8 (2 * (level + 2) + limit)) in
    Ok (e, i)) t.

(** The fields of Dav1dFrameHeader that are read *)
Record hdr := {
  level_y : Z -> Z; level_u : Z; level_v : Z;
  mode_ref_delta_enabled : bool; ref_delta : Z -> Z; mode_delta : Z -> Z;
  seg_enabled : bool; delta_lf_y_v : Z -> Z; delta_lf_y_h : Z -> Z; delta_lf_u : Z -> Z; delta_lf_v : Z -> Z;
  lf_multi : bool }.
(** uint8_t lflvl_values[8][4][8][2] *)
Definition lvl_values : Type := Z -> Z -> Z -> Z -> option Z.
Definition set_lvl (v : lvl_values) (s i r m b : Z) : lvl_values :=
  fun s' i' r' m' => if (s' =? s) && (i' =? i) && (r' =? r) && (m' =? m) then Some (u8 b) else v s' i' r' m'.
(** memset(lflvl_values[s][i], b, 16) *)
Definition fill_lvl (v : lvl_values) (s i b : Z) : lvl_values :=
  fun s' i' r' m' => if (s' =? s) && (i' =? i) && (0 <=? r') && (r' <? 8) && (0 <=? m') && (m' <? 2) then Some (u8 b) else v s' i' r' m'.
(** calc_lf_value: lines 404-426 *)
Definition calc_lf_value (h : hdr) (s i base_lvl lf_delta seg_delta : Z) (v : lvl_values) : outcome lvl_values :=
  let base := iclip (iclip (base_lvl + lf_delta) 0 63 + seg_delta) 0 63 in
  if negb (mode_ref_delta_enabled h) then Ok (fill_lvl v s i base) else
  let sh := b2z (base >=? 32) in
  let b := iclip (base + ref_delta h 0 * 2 ^ sh) 0 63 in
  let v := set_lvl (set_lvl v s i 0 1 b) s i 0 0 b in
  for_ 1 8 (fun r v => for_ 0 2 (fun m v =>
    let delta := mode_delta h m + ref_delta h r in
    Ok (set_lvl v s i r m (iclip (base + delta * 2 ^ sh) 0 63))) v) v.
(** calc_lf_value_chroma: lines 428-436 *)
Definition calc_lf_value_chroma (h : hdr) (s i base_lvl lf_delta seg_delta : Z) (v : lvl_values) : outcome lvl_values :=
  if base_lvl =? 0 then Ok (fill_lvl v s i 0) else calc_lf_value h s i base_lvl lf_delta seg_delta v.
(** dav1d_calc_lf_values: lines 438-472 *)
Definition calc_lf_values (h : hdr) (lf_delta : Z -> Z) (v : lvl_values) : outcome lvl_values :=
  let n_seg := if seg_enabled h then 8 else 1 in
  if (level_y h 0 =? 0) && (level_y h 1 =? 0) then
    Ok (fun s i r m => if (0 <=? s) && (s <? n_seg) && (0 <=? i) && (i <? 4) && (0 <=? r) && (r <? 8) && (0 <=? m) && (m <? 2) then Some 0 else v s i r m)
  else
  for_ 0 n_seg (fun s v =>
    let segd f := if seg_enabled h then f s else 0 in
    let! v := calc_lf_value h s 0 (level_y h 0) (lf_delta 0) (segd (delta_lf_y_v h)) v in
    let! v := calc_lf_value h s 1 (level_y h 1) (lf_delta (if lf_multi h then 1 else 0)) (segd (delta_lf_y_h h)) v in
    let! v := calc_lf_value_chroma h s 2 (level_u h) (lf_delta (if lf_multi h then 2 else 0)) (segd (delta_lf_u h)) v in
    calc_lf_value_chroma h s 3 (level_v h) (lf_delta (if lf_multi h then 3 else 0)) (segd (delta_lf_v h)) v) v.

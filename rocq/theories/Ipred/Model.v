(** Intra prediction: src/ipred_tmpl.c:38-713 and dav1d_prepare_intra_edges of src/ipred_prepare_tmpl.c.

    - The buffer t->scratch.edge of 257 pixels (src/internal.h) is an array without values; the pointer
      topleft_out is its cell [c] (128 in recon_b_intra, 32 for inter-intra).
    - [dst] and [dst_top] of dav1d_prepare_intra_edges are functions from a row and a column relative to the
      pointer to the value read there ([Undef] outside of what was allocated and written).
    - The predicted block is written to a plane of [height] rows of [width]; rows and columns are relative to dst.
    - Pixels are stored with [px], the conversion to pixel (uint8_t or uint16_t).
    - Modes are the numbers of enum IntraPredMode (src/levels.h:108-133), which overlap as in the source.
    - Sums of products are checked with [ck] to fit int. *)
From Coq Require Import ZArith List Bool.
From Verif Require Import Base.CInt Base.Loop.
Import ListNotations.
Open Scope Z_scope.
Local Open Scope outcome_scope.

Definition px (bd v : Z) : Z := if bd =? 8 then u8 v else u16 v.
Definition clip_pixel (bd v : Z) : Z := iclip v 0 (2 ^ bd - 1).
(** ctz: include/common/intops.h; of positive numbers only *)
Fixpoint pos_ctz (p : positive) : Z := match p with xO q => 1 + pos_ctz q | _ => 0 end.
Definition ctz (n : Z) : outcome Z := match n with Zpos p => Ok (pos_ctz p) | _ => Undef end.

(** enum IntraPredMode: src/levels.h:108-133 *)
Definition DC_PRED := 0.
Definition VERT_PRED := 1.
Definition HOR_PRED := 2.
Definition VERT_LEFT_PRED := 8.
Definition SMOOTH_PRED := 9.
Definition SMOOTH_V_PRED := 10.
Definition SMOOTH_H_PRED := 11.
Definition PAETH_PRED := 12.
Definition FILTER_PRED := 13.
Definition LEFT_DC_PRED := 3.
Definition TOP_DC_PRED := 4.
Definition DC_128_PRED := 5.
Definition Z1_PRED := 6.
Definition Z2_PRED := 7.
Definition Z3_PRED := 8.

(** * Preparation of the edges: src/ipred_prepare_tmpl.c *)
(** av1_mode_conv: lines 37-44 *)
Definition mode_conv (mode : Z) (have_left have_top : bool) : Z :=
  if mode =? DC_PRED
  then if have_left then (if have_top then DC_PRED else LEFT_DC_PRED) else (if have_top then TOP_DC_PRED else DC_128_PRED)
  else if have_left then (if have_top then PAETH_PRED else HOR_PRED) else (if have_top then VERT_PRED else DC_128_PRED).
(** lines 46-48 *)
Definition mode_to_angle_map : list Z := [90; 180; 45; 135; 113; 157; 203; 67].
(** av1_intra_prediction_edges: lines 50-73 *)
Definition is_one_of (l : list Z) (m : Z) : bool := existsb (Z.eqb m) l.
Definition needs_left : Z -> bool :=
  is_one_of [DC_PRED; HOR_PRED; LEFT_DC_PRED; Z2_PRED; Z3_PRED; SMOOTH_PRED; SMOOTH_V_PRED; SMOOTH_H_PRED; PAETH_PRED; FILTER_PRED].
Definition needs_top : Z -> bool :=
  is_one_of [DC_PRED; VERT_PRED; TOP_DC_PRED; Z1_PRED; Z2_PRED; SMOOTH_PRED; SMOOTH_V_PRED; SMOOTH_H_PRED; PAETH_PRED; FILTER_PRED].
Definition needs_topleft : Z -> bool := is_one_of [Z1_PRED; Z2_PRED; Z3_PRED; PAETH_PRED; FILTER_PRED].
Definition needs_topright : Z -> bool := is_one_of [Z1_PRED].
Definition needs_bottomleft : Z -> bool := is_one_of [Z3_PRED].

(** lines 90-115: the function to call and the angle *)
Definition conv_mode (mode angle : Z) (have_left have_top : bool) : outcome (Z * Z) :=
  if (VERT_PRED <=? mode) && (mode <=? VERT_LEFT_PRED) then
    let! base := rd_at mode_to_angle_map (mode - VERT_PRED) in
    let angle := base + 3 * angle in
    Ok (if angle <=? 90 then (if (angle <? 90) && have_top then Z1_PRED else VERT_PRED)
        else if angle <? 180 then Z2_PRED
        else (if (180 <? angle) && have_left then Z3_PRED else HOR_PRED), angle)
  else if (mode =? DC_PRED) || (mode =? PAETH_PRED) then Ok (mode_conv mode have_left have_top, angle)
  else Ok (mode, angle).

(** The cells of the buffer; [i] is relative to topleft_out. *)
Definition EDGE := 257.
Definition erd (c : Z) (b : arr) (i : Z) : outcome Z := rd1 EDGE b (c + i).
Definition ewr (c : Z) (b : arr) (i v : Z) : outcome arr := wr1 EDGE b (c + i) v.
(** pixel_set(&topleft_out[i], v, n) *)
Definition eset (c i v n : Z) (b : arr) : outcome arr := for_ 0 n (fun k b => ewr c b (i + k) v) b.

(** lines 117-201; [tr] and [bl] are EDGE_I444_TOP_HAS_RIGHT and EDGE_I444_LEFT_HAS_BOTTOM of edge_flags. *)
Definition prepare_left (bd c h y th : Z) (have_left have_top bl : bool) (dst : Z -> Z -> outcome Z) (dst_top : Z -> outcome Z)
    (mode : Z) (b : arr) : outcome arr :=
  let sz := Z.shiftl th 2 in
  let! b :=
    if have_left then
      let px_have := Z.min sz (Z.shiftl (h - y) 2) in
      let! b := for_ 0 px_have (fun i b => let! v := dst i (-1) in ewr c b (- sz + (sz - 1 - i)) v) b in
      if px_have <? sz then let! v := erd c b (- sz + (sz - px_have)) in eset c (- sz) v (sz - px_have) b else Ok b
    else
      let! v := if have_top then dst_top 0 else Ok (Z.shiftr (Z.shiftl 1 bd) 1 + 1) in
      eset c (- sz) v sz b in
  if needs_bottomleft mode then
    if have_left && (y + th <? h) && bl then
      let px_have := Z.min sz (Z.shiftl (h - y - th) 2) in
      let! b := for_ 0 px_have (fun i b => let! v := dst (sz + i) (-1) in ewr c b (- sz - (i + 1)) v) b in
      if px_have <? sz then let! v := erd c b (- sz - px_have) in eset c (- sz - sz) v (sz - px_have) b else Ok b
    else let! v := erd c b (- sz) in eset c (- sz - sz) v sz b
  else Ok b.
Definition prepare_top (bd c w x tw : Z) (have_left have_top tr : bool) (dst : Z -> Z -> outcome Z) (dst_top : Z -> outcome Z)
    (mode : Z) (b : arr) : outcome arr :=
  let sz := Z.shiftl tw 2 in
  let! b :=
    if have_top then
      let px_have := Z.min sz (Z.shiftl (w - x) 2) in
      let! b := for_ 0 px_have (fun i b => let! v := dst_top i in ewr c b (1 + i) v) b in
      if px_have <? sz then let! v := erd c b (1 + (px_have - 1)) in eset c (1 + px_have) v (sz - px_have) b else Ok b
    else
      let! v := if have_left then dst 0 (-1) else Ok (Z.shiftr (Z.shiftl 1 bd) 1 - 1) in
      eset c 1 v sz b in
  if needs_topright mode then
    if have_top && (x + tw <? w) && tr then
      let px_have := Z.min sz (Z.shiftl (w - x - tw) 2) in
      let! b := for_ 0 px_have (fun i b => let! v := dst_top (sz + i) in ewr c b (1 + sz + i) v) b in
      if px_have <? sz then let! v := erd c b (1 + (sz + px_have - 1)) in eset c (1 + sz + px_have) v (sz - px_have) b else Ok b
    else let! v := erd c b (1 + (sz - 1)) in eset c (1 + sz) v sz b
  else Ok b.
Definition prepare_topleft (bd c tw th : Z) (have_left have_top filter_edge : bool) (dst : Z -> Z -> outcome Z) (dst_top : Z -> outcome Z)
    (mode : Z) (b : arr) : outcome arr :=
  let! v :=
    if have_left then (if have_top then dst_top (-1) else dst 0 (-1))
    else (if have_top then dst_top 0 else Ok (Z.shiftr (Z.shiftl 1 bd) 1)) in
  let! b := ewr c b 0 v in
  if (mode =? Z2_PRED) && (6 <=? tw + th) && filter_edge then
    let! l := erd c b (-1) in
    let! t := erd c b 1 in
    let! m := erd c b 0 in
    ewr c b 0 (px bd (Z.shiftr ((l + t) * 5 + m * 6 + 8) 4))
  else Ok b.
(** dst_top is left uninitialised if it is not needed; the line of pixels above is then not read either. *)
Definition prepare_intra_edges (bd c x : Z) (have_left : bool) (y : Z) (have_top : bool) (w h : Z) (tr bl : bool)
    (dst : Z -> Z -> outcome Z) (dst_top : Z -> outcome Z) (mode angle tw th : Z) (filter_edge : bool) (b : arr) : outcome (Z * Z * arr) :=
  guard! (y <? h) && (x <? w) in
  let! (mode, angle) := conv_mode mode angle have_left have_top in
  let dst_top := if have_top && (needs_top mode || needs_topleft mode || (needs_left mode && negb have_left)) then dst_top else fun _ => Undef in
  let! b := if needs_left mode then prepare_left bd c h y th have_left have_top bl dst dst_top mode b else Ok b in
  let! b := if needs_top mode then prepare_top bd c w x tw have_left have_top tr dst dst_top mode b else Ok b in
  let! b := if needs_topleft mode then prepare_topleft bd c tw th have_left have_top filter_edge dst dst_top mode b else Ok b in
  Ok (mode, angle, b).

(** * The predictions: src/ipred_tmpl.c. [tl] reads topleft[i]. *)
Section Predictions.
  Variables (bd width height : Z).
  Variable tl : Z -> outcome Z.

  (** dst[y * stride + x] = v *)
  Definition st (y x v : Z) (d : plane) : outcome plane := wr2 height width d y x (px bd v).
  Definition block (val : Z -> Z -> outcome Z) (d : plane) : outcome plane :=
    for_ 0 height (fun y d => for_ 0 width (fun x d => let! v := val y x in st y x v d) d) d.

  (** splat_dc: lines 38-69. The words stored hold copies of the same pixel; width is a multiple of 4, and of 8 if
      it is larger than 4, so that the words cover the rows. *)
  Definition splat_dc (dc : Z) : plane -> outcome plane := fun d =>
    guard! (dc <=? (if bd =? 8 then 255 else 2 ^ bd - 1)) in block (fun _ _ => Ok dc) d.
  (** dc_gen_top, dc_gen_left, dc_gen: lines 87-92, 114-119, 143-171 *)
  Definition dc_gen_top : outcome Z :=
    let! dc := for_ 0 width (fun i dc => let! v := tl (1 + i) in Ok (u32 (dc + v))) (Z.shiftr width 1) in
    let! k := ctz width in Ok (Z.shiftr dc k).
  Definition dc_gen_left : outcome Z :=
    let! dc := for_ 0 height (fun i dc => let! v := tl (-(1 + i)) in Ok (u32 (dc + v))) (Z.shiftr height 1) in
    let! k := ctz height in Ok (Z.shiftr dc k).
  Definition dc_gen : outcome Z :=
    let! dc := for_ 0 width (fun i dc => let! v := tl (i + 1) in Ok (u32 (dc + v))) (Z.shiftr (width + height) 1) in
    let! dc := for_ 0 height (fun i dc => let! v := tl (-(i + 1)) in Ok (u32 (dc + v))) dc in
    let! k := ctz (width + height) in
    let dc := Z.shiftr dc k in
    if width =? height then Ok dc
    else
      let m := if (height * 2 <? width) || (width * 2 <? height) then (if bd =? 8 then 13108 else 26215)
               else (if bd =? 8 then 21846 else 43691) in
      Ok (Z.shiftr (u32 (dc * m)) (if bd =? 8 then 16 else 17)).
  (** lines 194-197 *)
  Definition dc_128 : Z := if bd =? 8 then 128 else Z.shiftr (2 ^ bd - 1 + 1) 1.
  (** lines 213-261 *)
  Definition ipred_v : plane -> outcome plane := block (fun _ x => tl (1 + x)).
  Definition ipred_h : plane -> outcome plane := block (fun y _ => tl (-(1 + y))).
  Definition ipred_paeth : plane -> outcome plane := block (fun y x =>
    let! topleft := tl 0 in
    let! lft := tl (-(y + 1)) in
    let! top := tl (1 + x) in
    let base := lft + top - topleft in
    let ldiff := Z.abs (lft - base) in
    let tdiff := Z.abs (top - base) in
    let tldiff := Z.abs (topleft - base) in
    Ok (if (ldiff <=? tdiff) && (ldiff <=? tldiff) then lft else if tdiff <=? tldiff then top else topleft)).
  (** dav1d_sm_weights: src/tables.c:686-712 *)
  Definition sm_weights : list Z :=
    [0; 0;
     255; 128;
     255; 149; 85; 64;
     255; 197; 146; 105; 73; 50; 37; 32;
     255; 225; 196; 170; 145; 123; 102; 84; 68; 54; 43; 33; 26; 20; 17; 16;
     255; 240; 225; 210; 196; 182; 169; 157; 145; 133; 122; 111; 101; 92; 83; 74; 66; 59; 52; 45; 39; 34; 29; 25; 21; 17; 14; 12; 10; 9; 8; 8;
     255; 248; 240; 233; 225; 218; 210; 203; 196; 189; 182; 176; 169; 163; 156; 150; 144; 138; 133; 127; 121; 116; 111; 106; 101; 96; 91; 86; 82; 77; 73; 69;
     65; 61; 57; 54; 50; 47; 44; 41; 38; 35; 32; 29; 27; 25; 22; 20; 18; 16; 15; 13; 12; 10; 9; 8; 7; 6; 6; 5; 5; 4; 4; 4].
  (** lines 263-319 *)
  Definition ipred_smooth : plane -> outcome plane := block (fun y x =>
    let! rgt := tl width in
    let! bottom := tl (- height) in
    let! wv := rd_at sm_weights (height + y) in
    let! wh := rd_at sm_weights (width + x) in
    let! t := tl (1 + x) in
    let! l := tl (-(1 + y)) in
    let! pred := ck (wv * t + (256 - wv) * bottom + wh * l + (256 - wh) * rgt) in
    Ok (Z.shiftr (pred + 256) 9)).
  Definition ipred_smooth_v : plane -> outcome plane := block (fun y x =>
    let! bottom := tl (- height) in
    let! wv := rd_at sm_weights (height + y) in
    let! t := tl (1 + x) in
    let! pred := ck (wv * t + (256 - wv) * bottom) in
    Ok (Z.shiftr (pred + 128) 8)).
  Definition ipred_smooth_h : plane -> outcome plane := block (fun y x =>
    let! rgt := tl width in
    let! wh := rd_at sm_weights (width + x) in
    let! l := tl (-(y + 1)) in
    let! pred := ck (wh * l + (256 - wh) * rgt) in
    Ok (Z.shiftr (pred + 128) 8)).

  (** get_filter_strength: lines 321-356 *)
  Definition get_filter_strength (wh angle : Z) (is_sm : bool) : Z :=
    if is_sm then
      if wh <=? 8 then (if 64 <=? angle then 2 else if 40 <=? angle then 1 else 0)
      else if wh <=? 16 then (if 48 <=? angle then 2 else if 20 <=? angle then 1 else 0)
      else if wh <=? 24 then (if 4 <=? angle then 3 else 0)
      else 3
    else
      if wh <=? 8 then (if 56 <=? angle then 1 else 0)
      else if wh <=? 16 then (if 40 <=? angle then 1 else 0)
      else if wh <=? 24 then (if 32 <=? angle then 3 else if 16 <=? angle then 2 else if 8 <=? angle then 1 else 0)
      else if wh <=? 32 then (if 32 <=? angle then 3 else if 4 <=? angle then 2 else 1)
      else 3.
  (** filter_edge: lines 358-383. [n] is the size of the array out points into, [o] the index of out in it, [inp]
      reads in[i]. *)
  Definition edge_kernel : list (list Z) := [[0; 4; 8; 4; 0]; [0; 5; 6; 5; 0]; [2; 4; 4; 4; 2]].
  Definition filter_edge (n o sz lim_from lim_to : Z) (inp : Z -> outcome Z) (from to strength : Z) (out : arr) : outcome arr :=
    guard! (0 <? strength) in
    let i1 := Z.max 0 (Z.min sz lim_from) in
    let! out := for_ 0 i1 (fun i out => let! v := inp (iclip i from (to - 1)) in wr1 n out (o + i) v) out in
    let i2 := Z.max i1 (Z.min lim_to sz) in
    let! out := for_ i1 i2 (fun i out =>
      let! s := for_ 0 5 (fun j s =>
        let! v := inp (iclip (i - 2 + j) from (to - 1)) in
        let! row := rd_at edge_kernel (strength - 1) in
        let! k := rd_at row j in
        ck (s + v * k)) 0 in
      wr1 n out (o + i) (px bd (Z.shiftr (s + 8) 4))) out in
    for_ i2 sz (fun i out => let! v := inp (iclip i from (to - 1)) in wr1 n out (o + i) v) out.
  (** get_upsample, upsample_edge: lines 385-407 *)
  Definition get_upsample (wh angle : Z) (is_sm : bool) : bool := (angle <? 40) && (wh <=? Z.shiftr 16 (b2z is_sm)).
  Definition upsample_kernel : list Z := [-1; 9; 9; -1].
  Definition upsample_edge (n o hsz : Z) (inp : Z -> outcome Z) (from to : Z) (out : arr) : outcome arr :=
    let! out := for_ 0 (hsz - 1) (fun i out =>
      let! v := inp (iclip i from (to - 1)) in
      let! out := wr1 n out (o + i * 2) v in
      let! s := for_ 0 4 (fun j s =>
        let! v := inp (iclip (i + j - 1) from (to - 1)) in
        let! k := rd_at upsample_kernel j in
        ck (s + v * k)) 0 in
      wr1 n out (o + (i * 2 + 1)) (clip_pixel bd (Z.shiftr (s + 8) 4))) out in
    let i := Z.max 0 (hsz - 1) in
    let! v := inp (iclip i from (to - 1)) in
    wr1 n out (o + i * 2) v.

  (** dav1d_dr_intra_derivative: src/tables.c:714-744 *)
  Definition dr_intra_derivative : list Z :=
    [0; 1023; 0; 547; 372; 0; 0; 273; 215; 0; 178; 151; 0; 132; 116; 0; 102; 0; 90; 80; 0; 71; 64; 0; 57; 51; 0; 45; 0; 40; 35; 0; 31; 27; 0; 23; 19; 0;
     15; 0; 11; 0; 7; 3].

  (** The flags in the angle: lines 415-417 *)
  Definition ang_sm (angle : Z) : bool := negb (Z.land (Z.shiftr angle 9) 1 =? 0).
  Definition ang_filter (angle : Z) : bool := negb (Z.shiftr angle 10 =? 0).
  Definition ang_deg (angle : Z) : Z := Z.land angle 511.

  (** ipred_z1_c: lines 409-461. The loops over x and over y of z1 and z3 end with the first base that is not below
      the limit. *)
  Definition z_value (p : Z -> outcome Z) (i0 i1 frac : Z) : outcome Z :=
    let! a := p i0 in
    let! b := p i1 in
    let! v := ck (a * (64 - frac) + b * frac) in
    Ok (Z.shiftr (v + 32) 6).
  Fixpoint z1_row (n : nat) (top : Z -> outcome Z) (max_base inc frac y x base : Z) (d : plane) : outcome plane :=
    match n with
    | O => Ok d
    | S n =>
        if base <? max_base then
          let! v := z_value top base (base + 1) frac in
          let! d := st y x v d in
          z1_row n top max_base inc frac y (x + 1) (base + inc) d
        else for_ x width (fun x d => let! v := top max_base in st y x v d) d
    end.
  Definition z1_edge (angle : Z) : outcome ((Z -> outcome Z) * Z * Z * Z) :=
    let is_sm := ang_sm angle in
    let enable := ang_filter angle in
    let angle := ang_deg angle in
    guard! (angle <? 90) in
    let! dx := rd_at dr_intra_derivative (Z.shiftr angle 1) in
    let inp := fun i => tl (1 + i) in
    let to := width + Z.min width height in
    if enable && get_upsample (width + height) (90 - angle) is_sm then
      let! out := upsample_edge 128 0 (width + height) inp (-1) to arr0 in
      Ok (rd1 128 out, 2 * (width + height) - 2, Z.shiftl dx 1, 1)
    else
      let strength := if enable then get_filter_strength (width + height) (90 - angle) is_sm else 0 in
      if strength =? 0 then Ok (inp, to - 1, dx, 0)
      else
        let! out := filter_edge 128 0 (width + height) 0 (width + height) inp (-1) to strength arr0 in
        Ok (rd1 128 out, width + height - 1, dx, 0).
  Definition ipred_z1 (angle : Z) (d : plane) : outcome plane :=
    let! (top, max_base, dx, up) := z1_edge angle in
    let! (d, _) := for_ 0 height (fun y s =>
      let '(d, xpos) := s in
      let! d := z1_row (Z.to_nat width) top max_base (1 + up) (Z.land xpos 62) y 0 (Z.shiftr xpos 6) d in
      let! xpos := ck (xpos + dx) in
      Ok (d, xpos)) (d, dx) in
    Ok d.

  (** ipred_z2_c: lines 463-541. topleft is cell 64 of edge. *)
  Definition copy_edge (n o len : Z) (inp : Z -> outcome Z) (out : arr) : outcome arr :=
    for_ 0 len (fun i out => let! v := inp i in wr1 n out (o + i) v) out.
  Definition z2_edge (angle max_width max_height : Z) : outcome (arr * Z * Z * Z * Z) :=
    let is_sm := ang_sm angle in
    let enable := ang_filter angle in
    let angle := ang_deg angle in
    guard! (90 <? angle) && (angle <? 180) in
    let! dy := rd_at dr_intra_derivative (Z.shiftr (angle - 90) 1) in
    let! dx := rd_at dr_intra_derivative (Z.shiftr (180 - angle) 1) in
    let up_left := enable && get_upsample (width + height) (180 - angle) is_sm in
    let up_above := enable && get_upsample (width + height) (angle - 90) is_sm in
    let! e :=
      if up_above then upsample_edge 129 64 (width + 1) tl 0 (width + 1) arr0
      else
        let strength := if enable then get_filter_strength (width + height) (angle - 90) is_sm else 0 in
        if strength =? 0 then copy_edge 129 65 width (fun i => tl (1 + i)) arr0
        else filter_edge 129 65 width 0 max_width (fun i => tl (1 + i)) (-1) width strength arr0 in
    let! e :=
      if up_left then upsample_edge 129 (64 - height * 2) (height + 1) (fun i => tl (- height + i)) 0 (height + 1) e
      else
        let strength := if enable then get_filter_strength (width + height) (180 - angle) is_sm else 0 in
        if strength =? 0 then copy_edge 129 (64 - height) height (fun i => tl (- height + i)) e
        else filter_edge 129 (64 - height) height (height - max_height) height (fun i => tl (- height + i)) 0 (height + 1) strength e in
    let! v := tl 0 in
    let! e := wr1 129 e 64 v in
    Ok (e, if up_above then Z.shiftl dx 1 else dx, if up_left then Z.shiftl dy 1 else dy, b2z up_above, b2z up_left).
  Definition ipred_z2 (angle max_width max_height : Z) (d : plane) : outcome plane :=
    let! (e, dx, dy, up_above, up_left) := z2_edge angle max_width max_height in
    let topleft := fun i => rd1 129 e (64 + i) in
    let lft := fun i => topleft (-(1 + up_left) + i) in
    let! (d, _) := for_ 0 height (fun y s =>
      let '(d, xpos) := s in
      let frac_x := Z.land xpos 62 in
      let! (d, _, _) := for_ 0 width (fun x s =>
        let '(d, base_x, ypos) := s in
        let! v :=
          if 0 <=? base_x then z_value topleft base_x (base_x + 1) frac_x
          else
            let base_y := Z.shiftr ypos 6 in
            guard! (-(1 + up_left) <=? base_y) in
            z_value lft (- base_y) (-(base_y + 1)) (Z.land ypos 62) in
        let! d := st y x v d in
        let! ypos := ck (ypos - dy) in
        Ok (d, base_x + (1 + up_above), ypos)) (d, Z.shiftr xpos 6, Z.shiftl y (6 + up_left) - dy) in
      let! xpos := ck (xpos - dx) in
      Ok (d, xpos)) (d, Z.shiftl (1 + up_above) 6 - dx) in
    Ok d.

  (** ipred_z3_c: lines 543-602. left points to the last cell written of left_out, so that left[-i] is its cell
      (number of the last cell) - i. *)
  Fixpoint z3_col (n : nat) (left : Z -> outcome Z) (max_base inc frac x y base : Z) (d : plane) : outcome plane :=
    match n with
    | O => Ok d
    | S n =>
        if base <? max_base then
          let! v := z_value left (- base) (-(base + 1)) frac in
          let! d := st y x v d in
          z3_col n left max_base inc frac x (y + 1) (base + inc) d
        else for_ y height (fun y d => let! v := left (- max_base) in st y x v d) d
    end.
  Definition z3_edge (angle : Z) : outcome ((Z -> outcome Z) * Z * Z * Z) :=
    let is_sm := ang_sm angle in
    let enable := ang_filter angle in
    let angle := ang_deg angle in
    guard! (180 <? angle) in
    let! dy := rd_at dr_intra_derivative (Z.shiftr (270 - angle) 1) in
    let inp := fun i => tl (-(width + height) + i) in
    let from := Z.max (width - height) 0 in
    if enable && get_upsample (width + height) (angle - 180) is_sm then
      let! out := upsample_edge 128 0 (width + height) inp from (width + height + 1) arr0 in
      Ok (fun i => rd1 128 out (2 * (width + height) - 2 + i), 2 * (width + height) - 2, Z.shiftl dy 1, 1)
    else
      let strength := if enable then get_filter_strength (width + height) (angle - 180) is_sm else 0 in
      if strength =? 0 then Ok (fun i => tl (-1 + i), height + Z.min width height - 1, dy, 0)
      else
        let! out := filter_edge 128 0 (width + height) 0 (width + height) inp from (width + height + 1) strength arr0 in
        Ok (fun i => rd1 128 out (width + height - 1 + i), width + height - 1, dy, 0).
  Definition ipred_z3 (angle : Z) (d : plane) : outcome plane :=
    let! (lft, max_base, dy, up) := z3_edge angle in
    let! (d, _) := for_ 0 width (fun x s =>
      let '(d, ypos) := s in
      let! d := z3_col (Z.to_nat height) lft max_base (1 + up) (Z.land ypos 62) x 0 (Z.shiftr ypos 6) d in
      let! ypos := ck (ypos + dy) in
      Ok (d, ypos)) (d, dy) in
    Ok d.

  (** dav1d_filter_intra_taps: src/tables.c:747-806; rows of the seven taps f0..f6 of the macro F, which stores them
      where FILTER (src/ipred_tmpl.c:604-619) finds them in both configurations *)
  Definition filter_intra_taps : list (list (list Z)) :=
    [ [ [-6; 10; 0; 0; 0; 12; 0]; [-5; 2; 10; 0; 0; 9; 0]; [-3; 1; 1; 10; 0; 7; 0]; [-3; 1; 1; 2; 10; 5; 0];
        [-4; 6; 0; 0; 0; 2; 12]; [-3; 2; 6; 0; 0; 2; 9]; [-3; 2; 2; 6; 0; 2; 7]; [-3; 1; 2; 2; 6; 3; 5] ];
      [ [-10; 16; 0; 0; 0; 10; 0]; [-6; 0; 16; 0; 0; 6; 0]; [-4; 0; 0; 16; 0; 4; 0]; [-2; 0; 0; 0; 16; 2; 0];
        [-10; 16; 0; 0; 0; 0; 10]; [-6; 0; 16; 0; 0; 0; 6]; [-4; 0; 0; 16; 0; 0; 4]; [-2; 0; 0; 0; 16; 0; 2] ];
      [ [-8; 8; 0; 0; 0; 16; 0]; [-8; 0; 8; 0; 0; 16; 0]; [-8; 0; 0; 8; 0; 16; 0]; [-8; 0; 0; 0; 8; 16; 0];
        [-4; 4; 0; 0; 0; 0; 16]; [-4; 0; 4; 0; 0; 0; 16]; [-4; 0; 0; 4; 0; 0; 16]; [-4; 0; 0; 0; 4; 0; 16] ];
      [ [-2; 8; 0; 0; 0; 10; 0]; [-1; 3; 8; 0; 0; 6; 0]; [-1; 2; 3; 8; 0; 4; 0]; [0; 1; 2; 3; 8; 2; 0];
        [-1; 4; 0; 0; 0; 3; 10]; [-1; 3; 4; 0; 0; 4; 6]; [-1; 2; 3; 4; 0; 4; 4]; [-1; 2; 2; 3; 4; 3; 3] ];
      [ [-12; 14; 0; 0; 0; 14; 0]; [-10; 0; 14; 0; 0; 12; 0]; [-9; 0; 0; 14; 0; 11; 0]; [-8; 0; 0; 0; 14; 10; 0];
        [-10; 12; 0; 0; 0; 0; 14]; [-9; 1; 12; 0; 0; 0; 12]; [-8; 0; 0; 12; 0; 1; 11]; [-7; 0; 0; 1; 12; 1; 9] ] ].
  (** ipred_filter_c: lines 621-663. [top] reads top[i], [topleft] and [left] likewise; they point into the edge for
      the first row and the first column and into the block after that. *)
  Definition drd (d : plane) (y x : Z) : outcome Z := rd2 height width d y x.
  Definition filter_4x2 (flt : list (list Z)) (y x p0 p1 p2 p3 p4 p5 p6 : Z) (d : plane) : outcome plane :=
    for_ 0 2 (fun yy d => for_ 0 4 (fun xx d =>
      let! f := rd_at flt (4 * yy + xx) in
      let! f0 := rd_at f 0 in let! f1 := rd_at f 1 in let! f2 := rd_at f 2 in let! f3 := rd_at f 3 in
      let! f4 := rd_at f 4 in let! f5 := rd_at f 5 in let! f6 := rd_at f 6 in
      let! acc := ck (f0 * p0 + f1 * p1 + f2 * p2 + f3 * p3 + f4 * p4 + f5 * p5 + f6 * p6) in
      st (y + yy) (x + xx) (clip_pixel bd (Z.shiftr (acc + 8) 4)) d) d) d.
  Definition ipred_filter (filt_idx : Z) (d : plane) : outcome plane :=
    let filt_idx := Z.land filt_idx 511 in
    let! flt := rd_at filter_intra_taps filt_idx in
    for_ 0 (Z.shiftr (height + 1) 1) (fun i d =>
      let y := 2 * i in
      let top := fun d x => if y =? 0 then tl (1 + x) else drd d (y - 1) x in
      for_ 0 (Z.shiftr (width + 3) 2) (fun j d =>
        let x := 4 * j in
        let! p0 := if x =? 0 then tl (- y) else top d (x - 1) in
        let! p1 := top d x in
        let! p2 := top d (x + 1) in
        let! p3 := top d (x + 2) in
        let! p4 := top d (x + 3) in
        let! p5 := if x =? 0 then tl (- y - 1) else drd d y (x - 1) in
        let! p6 := if x =? 0 then tl (- y - 1 - 1) else drd d (y + 1) (x - 1) in
        filter_4x2 flt y x p0 p1 p2 p3 p4 p5 p6 d) d) d.

  (** The table of functions: src/ipred_tmpl.c:752-782 (dav1d_intra_pred_dsp_init) *)
  Definition intra_pred (mode a max_width max_height : Z) (d : plane) : outcome plane :=
    if mode =? DC_PRED then let! dc := dc_gen in splat_dc dc d
    else if mode =? DC_128_PRED then splat_dc dc_128 d
    else if mode =? TOP_DC_PRED then let! dc := dc_gen_top in splat_dc dc d
    else if mode =? LEFT_DC_PRED then let! dc := dc_gen_left in splat_dc dc d
    else if mode =? HOR_PRED then ipred_h d
    else if mode =? VERT_PRED then ipred_v d
    else if mode =? PAETH_PRED then ipred_paeth d
    else if mode =? SMOOTH_PRED then ipred_smooth d
    else if mode =? SMOOTH_V_PRED then ipred_smooth_v d
    else if mode =? SMOOTH_H_PRED then ipred_smooth_h d
    else if mode =? Z1_PRED then ipred_z1 a d
    else if mode =? Z2_PRED then ipred_z2 a max_width max_height d
    else if mode =? Z3_PRED then ipred_z3 a d
    else if mode =? FILTER_PRED then ipred_filter a d
    else Undef.

  (** cfl_pred: lines 71-85; [ac] reads ac[y * width + x]. *)
  Definition cfl_block (dc : Z) (ac : Z -> Z -> outcome Z) (alpha : Z) : plane -> outcome plane := block (fun y x =>
    let! a := ac y x in
    let! diff := ck (alpha * a) in
    Ok (clip_pixel bd (dc + apply_sign (Z.shiftr (Z.abs diff + 32) 6) diff))).
  (** The table of functions: src/ipred_tmpl.c:773-776 *)
  Definition cfl_pred (mode : Z) (ac : Z -> Z -> outcome Z) (alpha : Z) (d : plane) : outcome plane :=
    let! dc :=
      if mode =? DC_PRED then dc_gen
      else if mode =? DC_128_PRED then Ok dc_128
      else if mode =? TOP_DC_PRED then dc_gen_top
      else if mode =? LEFT_DC_PRED then dc_gen_left
      else Undef in
    cfl_block dc ac alpha d.
  (** cfl_ac_c: lines 665-713; [ypx] reads ypx[y * stride + x]; the array ac of width * height values is a plane. *)
  Definition ac_st (y x v : Z) (a : plane) : outcome plane := wr2 height width a y x (s16 v).
  Definition cfl_ac (ss_hor ss_ver : bool) (w_pad h_pad : Z) (ypx : Z -> Z -> outcome Z) : outcome plane :=
    guard! (0 <=? w_pad) && (w_pad * 4 <? width) && (0 <=? h_pad) && (h_pad * 4 <? height) in
    let hn := height - 4 * h_pad in
    let wn := width - 4 * w_pad in
    let! a := for_ 0 hn (fun y a =>
      let ypx := fun r x => ypx (Z.shiftl y (b2z ss_ver) + r) x in
      let! a := for_ 0 wn (fun x a =>
        let! s := ypx 0 (Z.shiftl x (b2z ss_hor)) in
        let! s := if ss_hor then let! v := ypx 0 (x * 2 + 1) in Ok (s + v) else Ok s in
        let! s := if ss_ver then
            let! v := ypx 1 (Z.shiftl x (b2z ss_hor)) in
            let s := s + v in
            if ss_hor then let! v := ypx 1 (x * 2 + 1) in Ok (s + v) else Ok s
          else Ok s in
        ac_st y x (Z.shiftl s (1 + b2z (negb ss_ver) + b2z (negb ss_hor))) a) a in
      for_ wn width (fun x a => let! v := drd a y (x - 1) in ac_st y x v a) a) plane0 in
    let! a := for_ hn height (fun y a => for_ 0 width (fun x a => let! v := drd a (y - 1) x in ac_st y x v a) a) a in
    let! kw := ctz width in
    let! kh := ctz height in
    let log2sz := kw + kh in
    let! sum := for_ 0 height (fun y s => for_ 0 width (fun x s => let! v := drd a y x in ck (s + v)) s) (Z.shiftr (Z.shiftl 1 log2sz) 1) in
    let sum := Z.shiftr sum log2sz in
    for_ 0 height (fun y a => for_ 0 width (fun x a => let! v := drd a y x in ac_st y x (v - sum) a) a) a.

  (** pal_pred_c: lines 729-743; [idx] reads the packed indices. *)
  Definition pal_pred (pal : list Z) (idx : Z -> outcome Z) (d : plane) : outcome plane :=
    for_ 0 height (fun y d => for_ 0 (Z.shiftr (width + 1) 1) (fun k d =>
      let x := 2 * k in
      let! i := idx (y * Z.shiftr (width + 1) 1 + k) in
      guard! (Z.land i 136 =? 0) in
      let! p0 := rd_at pal (Z.land i 7) in
      let! d := st y x p0 d in
      let! p1 := rd_at pal (Z.shiftr i 4) in
      st y (x + 1) p1 d) d) d.
End Predictions.

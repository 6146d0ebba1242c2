(** Prediction of a block with warped motion: warp_affine (src/recon_tmpl.c:1118-1176), warp_affine_8x8_c and
    warp_affine_8x8t_c (src/mc_tmpl.c:758-831).

    Pictures, strides and the int16_t predictions are as in [Mc.Model]. The wait for the rows of the reference is not
    part of the function. *)
From Coq Require Import ZArith List Bool.
From Verif Require Import Base.CInt Base.Loop Mc.Model Warp.Model.
Import ListNotations.
Open Scope Z_scope.
Local Open Scope outcome_scope.

(** dav1d_mc_warp_filter: src/tables.c:547-649 *)
Definition warp_filter : list (list Z) :=
  [ [0; 0; 127; 1; 0; 0; 0; 0]; [0; -1; 127; 2; 0; 0; 0; 0]; [1; -3; 127; 4; -1; 0; 0; 0]; [1; -4; 126; 6; -2; 1; 0; 0];
    [1; -5; 126; 8; -3; 1; 0; 0]; [1; -6; 125; 11; -4; 1; 0; 0]; [1; -7; 124; 13; -4; 1; 0; 0]; [2; -8; 123; 15; -5; 1; 0; 0];
    [2; -9; 122; 18; -6; 1; 0; 0]; [2; -10; 121; 20; -6; 1; 0; 0]; [2; -11; 120; 22; -7; 2; 0; 0]; [2; -12; 119; 25; -8; 2; 0; 0];
    [3; -13; 117; 27; -8; 2; 0; 0]; [3; -13; 116; 29; -9; 2; 0; 0]; [3; -14; 114; 32; -10; 3; 0; 0]; [3; -15; 113; 35; -10; 2; 0; 0];
    [3; -15; 111; 37; -11; 3; 0; 0]; [3; -16; 109; 40; -11; 3; 0; 0]; [3; -16; 108; 42; -12; 3; 0; 0]; [4; -17; 106; 45; -13; 3; 0; 0];
    [4; -17; 104; 47; -13; 3; 0; 0]; [4; -17; 102; 50; -14; 3; 0; 0]; [4; -17; 100; 52; -14; 3; 0; 0]; [4; -18; 98; 55; -15; 4; 0; 0];
    [4; -18; 96; 58; -15; 3; 0; 0]; [4; -18; 94; 60; -16; 4; 0; 0]; [4; -18; 91; 63; -16; 4; 0; 0]; [4; -18; 89; 65; -16; 4; 0; 0];
    [4; -18; 87; 68; -17; 4; 0; 0]; [4; -18; 85; 70; -17; 4; 0; 0]; [4; -18; 82; 73; -17; 4; 0; 0]; [4; -18; 80; 75; -17; 4; 0; 0];
    [4; -18; 78; 78; -18; 4; 0; 0]; [4; -17; 75; 80; -18; 4; 0; 0]; [4; -17; 73; 82; -18; 4; 0; 0]; [4; -17; 70; 85; -18; 4; 0; 0];
    [4; -17; 68; 87; -18; 4; 0; 0]; [4; -16; 65; 89; -18; 4; 0; 0]; [4; -16; 63; 91; -18; 4; 0; 0]; [4; -16; 60; 94; -18; 4; 0; 0];
    [3; -15; 58; 96; -18; 4; 0; 0]; [4; -15; 55; 98; -18; 4; 0; 0]; [3; -14; 52; 100; -17; 4; 0; 0]; [3; -14; 50; 102; -17; 4; 0; 0];
    [3; -13; 47; 104; -17; 4; 0; 0]; [3; -13; 45; 106; -17; 4; 0; 0]; [3; -12; 42; 108; -16; 3; 0; 0]; [3; -11; 40; 109; -16; 3; 0; 0];
    [3; -11; 37; 111; -15; 3; 0; 0]; [2; -10; 35; 113; -15; 3; 0; 0]; [3; -10; 32; 114; -14; 3; 0; 0]; [2; -9; 29; 116; -13; 3; 0; 0];
    [2; -8; 27; 117; -13; 3; 0; 0]; [2; -8; 25; 119; -12; 2; 0; 0]; [2; -7; 22; 120; -11; 2; 0; 0]; [1; -6; 20; 121; -10; 2; 0; 0];
    [1; -6; 18; 122; -9; 2; 0; 0]; [1; -5; 15; 123; -8; 2; 0; 0]; [1; -4; 13; 124; -7; 1; 0; 0]; [1; -4; 11; 125; -6; 1; 0; 0];
    [1; -3; 8; 126; -5; 1; 0; 0]; [1; -2; 6; 126; -4; 1; 0; 0]; [0; -1; 4; 127; -3; 1; 0; 0]; [0; 0; 2; 127; -1; 0; 0; 0];
    [0; 0; 0; 127; 1; 0; 0; 0]; [0; 0; -1; 127; 2; 0; 0; 0]; [0; 1; -3; 127; 4; -2; 1; 0]; [0; 1; -5; 127; 6; -2; 1; 0];
    [0; 2; -6; 126; 8; -3; 1; 0]; [-1; 2; -7; 126; 11; -4; 2; -1]; [-1; 3; -8; 125; 13; -5; 2; -1]; [-1; 3; -10; 124; 16; -6; 3; -1];
    [-1; 4; -11; 123; 18; -7; 3; -1]; [-1; 4; -12; 122; 20; -7; 3; -1]; [-1; 4; -13; 121; 23; -8; 3; -1]; [-2; 5; -14; 120; 25; -9; 4; -1];
    [-1; 5; -15; 119; 27; -10; 4; -1]; [-1; 5; -16; 118; 30; -11; 4; -1]; [-2; 6; -17; 116; 33; -12; 5; -1]; [-2; 6; -17; 114; 35; -12; 5; -1];
    [-2; 6; -18; 113; 38; -13; 5; -1]; [-2; 7; -19; 111; 41; -14; 6; -2]; [-2; 7; -19; 110; 43; -15; 6; -2]; [-2; 7; -20; 108; 46; -15; 6; -2];
    [-2; 7; -20; 106; 49; -16; 6; -2]; [-2; 7; -21; 104; 51; -16; 7; -2]; [-2; 7; -21; 102; 54; -17; 7; -2]; [-2; 8; -21; 100; 56; -18; 7; -2];
    [-2; 8; -22; 98; 59; -18; 7; -2]; [-2; 8; -22; 96; 62; -19; 7; -2]; [-2; 8; -22; 94; 64; -19; 7; -2]; [-2; 8; -22; 91; 67; -20; 8; -2];
    [-2; 8; -22; 89; 69; -20; 8; -2]; [-2; 8; -22; 87; 72; -21; 8; -2]; [-2; 8; -21; 84; 74; -21; 8; -2]; [-2; 8; -22; 82; 77; -21; 8; -2];
    [-2; 8; -21; 79; 79; -21; 8; -2]; [-2; 8; -21; 77; 82; -22; 8; -2]; [-2; 8; -21; 74; 84; -21; 8; -2]; [-2; 8; -21; 72; 87; -22; 8; -2];
    [-2; 8; -20; 69; 89; -22; 8; -2]; [-2; 8; -20; 67; 91; -22; 8; -2]; [-2; 7; -19; 64; 94; -22; 8; -2]; [-2; 7; -19; 62; 96; -22; 8; -2];
    [-2; 7; -18; 59; 98; -22; 8; -2]; [-2; 7; -18; 56; 100; -21; 8; -2]; [-2; 7; -17; 54; 102; -21; 7; -2]; [-2; 7; -16; 51; 104; -21; 7; -2];
    [-2; 6; -16; 49; 106; -20; 7; -2]; [-2; 6; -15; 46; 108; -20; 7; -2]; [-2; 6; -15; 43; 110; -19; 7; -2]; [-2; 6; -14; 41; 111; -19; 7; -2];
    [-1; 5; -13; 38; 113; -18; 6; -2]; [-1; 5; -12; 35; 114; -17; 6; -2]; [-1; 5; -12; 33; 116; -17; 6; -2]; [-1; 4; -11; 30; 118; -16; 5; -1];
    [-1; 4; -10; 27; 119; -15; 5; -1]; [-1; 4; -9; 25; 120; -14; 5; -2]; [-1; 3; -8; 23; 121; -13; 4; -1]; [-1; 3; -7; 20; 122; -12; 4; -1];
    [-1; 3; -7; 18; 123; -11; 4; -1]; [-1; 3; -6; 16; 124; -10; 3; -1]; [-1; 2; -5; 13; 125; -8; 3; -1]; [-1; 2; -4; 11; 126; -7; 2; -1];
    [0; 1; -3; 8; 126; -6; 2; 0]; [0; 1; -2; 6; 127; -5; 1; 0]; [0; 1; -2; 4; 127; -3; 1; 0]; [0; 0; 0; 2; 127; -1; 0; 0];
    [0; 0; 0; 1; 127; 0; 0; 0]; [0; 0; 0; -1; 127; 2; 0; 0]; [0; 0; 1; -3; 127; 4; -1; 0]; [0; 0; 1; -4; 126; 6; -2; 1];
    [0; 0; 1; -5; 126; 8; -3; 1]; [0; 0; 1; -6; 125; 11; -4; 1]; [0; 0; 1; -7; 124; 13; -4; 1]; [0; 0; 2; -8; 123; 15; -5; 1];
    [0; 0; 2; -9; 122; 18; -6; 1]; [0; 0; 2; -10; 121; 20; -6; 1]; [0; 0; 2; -11; 120; 22; -7; 2]; [0; 0; 2; -12; 119; 25; -8; 2];
    [0; 0; 3; -13; 117; 27; -8; 2]; [0; 0; 3; -13; 116; 29; -9; 2]; [0; 0; 3; -14; 114; 32; -10; 3]; [0; 0; 3; -15; 113; 35; -10; 2];
    [0; 0; 3; -15; 111; 37; -11; 3]; [0; 0; 3; -16; 109; 40; -11; 3]; [0; 0; 3; -16; 108; 42; -12; 3]; [0; 0; 4; -17; 106; 45; -13; 3];
    [0; 0; 4; -17; 104; 47; -13; 3]; [0; 0; 4; -17; 102; 50; -14; 3]; [0; 0; 4; -17; 100; 52; -14; 3]; [0; 0; 4; -18; 98; 55; -15; 4];
    [0; 0; 4; -18; 96; 58; -15; 3]; [0; 0; 4; -18; 94; 60; -16; 4]; [0; 0; 4; -18; 91; 63; -16; 4]; [0; 0; 4; -18; 89; 65; -16; 4];
    [0; 0; 4; -18; 87; 68; -17; 4]; [0; 0; 4; -18; 85; 70; -17; 4]; [0; 0; 4; -18; 82; 73; -17; 4]; [0; 0; 4; -18; 80; 75; -17; 4];
    [0; 0; 4; -18; 78; 78; -18; 4]; [0; 0; 4; -17; 75; 80; -18; 4]; [0; 0; 4; -17; 73; 82; -18; 4]; [0; 0; 4; -17; 70; 85; -18; 4];
    [0; 0; 4; -17; 68; 87; -18; 4]; [0; 0; 4; -16; 65; 89; -18; 4]; [0; 0; 4; -16; 63; 91; -18; 4]; [0; 0; 4; -16; 60; 94; -18; 4];
    [0; 0; 3; -15; 58; 96; -18; 4]; [0; 0; 4; -15; 55; 98; -18; 4]; [0; 0; 3; -14; 52; 100; -17; 4]; [0; 0; 3; -14; 50; 102; -17; 4];
    [0; 0; 3; -13; 47; 104; -17; 4]; [0; 0; 3; -13; 45; 106; -17; 4]; [0; 0; 3; -12; 42; 108; -16; 3]; [0; 0; 3; -11; 40; 109; -16; 3];
    [0; 0; 3; -11; 37; 111; -15; 3]; [0; 0; 2; -10; 35; 113; -15; 3]; [0; 0; 3; -10; 32; 114; -14; 3]; [0; 0; 2; -9; 29; 116; -13; 3];
    [0; 0; 2; -8; 27; 117; -13; 3]; [0; 0; 2; -8; 25; 119; -12; 2]; [0; 0; 2; -7; 22; 120; -11; 2]; [0; 0; 1; -6; 20; 121; -10; 2];
    [0; 0; 1; -6; 18; 122; -9; 2]; [0; 0; 1; -5; 15; 123; -8; 2]; [0; 0; 1; -4; 13; 124; -7; 1]; [0; 0; 1; -4; 11; 125; -6; 1];
    [0; 0; 1; -3; 8; 126; -5; 1]; [0; 0; 1; -2; 6; 126; -4; 1]; [0; 0; 0; -1; 4; 127; -3; 1]; [0; 0; 0; 0; 2; 127; -1; 0];
    [0; 0; 0; 0; 2; 127; -1; 0] ].

(** Two nested loops of h rows and w columns of which the variable p is advanced by dy per row and, in a copy of it, by
    dx per column *)
Definition walk (w h p dx dy : Z) (val : Z -> Z -> Z -> outcome Z) (st : Z -> Z -> Z -> plane -> outcome plane) (d : plane) : outcome plane :=
  let! (d, _) := for_ 0 h (fun y (s : plane * Z) => let '(d, p) := s in
    let! (d, _) := for_ 0 w (fun x (s : plane * Z) => let '(d, t) := s in
      let! v := val y x t in
      let! d := st y x v d in
      let! t := ck (t + dx) in Ok (d, t)) (d, p) in
    let! p := ck (p + dy) in Ok (d, p)) (d, p) in
  Ok d.
(** dav1d_mc_warp_filter[64 + ((t + 512) >> 10)] *)
Definition get_warp_filter (t : Z) : outcome (list Z) :=
  let! t := ck (t + 512) in rd_at warp_filter (64 + Z.shiftr t 10).
Definition st_mid8 (y x v : Z) (d : plane) : outcome plane := wr2 15 8 d y x (s16 v).

Section Depth.
Variable bd : Z.
Let ib := inter_bits bd.
(** the first loops of both: src/mc_tmpl.c:763-778 *)
Definition warp_mid (src : Z -> Z -> outcome Z) (alpha beta mx : Z) : outcome plane :=
  walk 8 15 mx alpha beta (fun y x tmx =>
    let! F := get_warp_filter tmx in
    let! t := taps F (fun k => src (y - 3) (x + k)) in Ok (rnd t (7 - ib))) st_mid8 plane0.
(** warp_affine_8x8_c: src/mc_tmpl.c:758-793 *)
Definition warp_8x8 (src : Z -> Z -> outcome Z) (sh : shear) (mx my : Z) st (d : plane) : outcome plane :=
  let! mid := warp_mid src (sh_alpha sh) (sh_beta sh) mx in
  walk 8 8 my (sh_gamma sh) (sh_delta sh) (fun y x tmy =>
    let! F := get_warp_filter tmy in
    let! t := taps F (fun k => rd2 15 8 mid (3 + y + k) x) in Ok (clip_pixel bd (rnd t (7 + ib)))) st d.
(** warp_affine_8x8t_c: src/mc_tmpl.c:795-831 *)
Definition warp_8x8t (src : Z -> Z -> outcome Z) (sh : shear) (mx my : Z) st (d : plane) : outcome plane :=
  let! mid := warp_mid src (sh_alpha sh) (sh_beta sh) mx in
  walk 8 8 my (sh_gamma sh) (sh_delta sh) (fun y x tmy =>
    let! F := get_warp_filter tmy in
    let! t := taps F (fun k => rd2 15 8 mid (3 + y + k) x) in Ok (rnd t 7 - prep_bias bd)) st d.

(** warp_affine: src/recon_tmpl.c:1118-1176; [put] tells dst8 from dst16, [layout] as in [mc_in], [rw] and [rh] are
    refp->p.p.w and h. The asserts on the sizes are kept. *)
Definition warp_affine (layout rw rh : Z) (put : bool) (st : Z -> Z -> Z -> plane -> outcome plane) (d : plane)
    (bw4 bh4 bx by_ pl : Z) (refdata : Z -> Z -> outcome Z) (mat : matrix) (sh : shear) : outcome plane :=
  let ss_ver := b2z (ss_ver_of layout pl) in
  let ss_hor := b2z (ss_hor_of layout pl) in
  let h_mul := Z.shiftr 4 ss_hor in let v_mul := Z.shiftr 4 ss_ver in
  guard! (Z.land (bw4 * h_mul) 7 =? 0) && (Z.land (bh4 * v_mul) 7 =? 0) in
  let width := Z.shiftr (rw + ss_hor) ss_hor in
  let height := Z.shiftr (rh + ss_ver) ss_ver in
  for_ 0 (Z.shiftr (bh4 * v_mul + 7) 3) (fun j d =>
    let y := 8 * j in
    let! src_y := ck (by_ * 4 + Z.shiftl (y + 4) ss_ver) in
    let! mat3_y := ck64 (m3 mat * src_y + m0 mat) in
    let! mat5_y := ck64 (m5 mat * src_y + m1 mat) in
    for_ 0 (Z.shiftr (bw4 * h_mul + 7) 3) (fun i d =>
      let x := 8 * i in
      let! src_x := ck (bx * 4 + Z.shiftl (x + 4) ss_hor) in
      let! vx := ck64 (m2 mat * src_x + mat3_y) in
      let! vy := ck64 (m4 mat * src_x + mat5_y) in
      let mvx := Z.shiftr vx ss_hor in
      let mvy := Z.shiftr vy ss_ver in
      let! dx := ck (s32 (Z.shiftr mvx 16) - 4) in
      let! mx0 := ck (Z.land (s32 mvx) 0xffff - sh_alpha sh * 4 - sh_beta sh * 7) in
      let mx := Z.land mx0 (- 64) in
      let! dy := ck (s32 (Z.shiftr mvy 16) - 4) in
      let! my0 := ck (Z.land (s32 mvy) 0xffff - sh_gamma sh * 4 - sh_delta sh * 4) in
      let my := Z.land my0 (- 64) in
      let! ref := (if (dx <? 3) || (width <? dx + 8 + 4) || (dy <? 3) || (height <? dy + 8 + 4) then
          let! buf := emu_edge 15 15 width height (dx - 3) (dy - 3) 32 refdata in
          Ok (fun y x => rd2 (emu_rows 32) 32 buf (3 + y) (3 + x))
        else Ok (fun y x => refdata (dy + y) (dx + x))) in
      (if put then warp_8x8 else warp_8x8t) ref sh mx my (fun r c v d => st (y + r) (x + c) v d) d) d) d.
End Depth.

(** * Where it is used *)
(** What decides between a warp and a translation for one prediction of a block *)
Record motion : Type := {
  mo_global : bool;                              (* inter_mode is GLOBALMV or GLOBALMV_GLOBALMV *)
  mo_gm_type : Z; mo_gm : matrix;                (* gmv[ref]; 0 is the identity and 1 a translation *)
  mo_int : bool;                                 (* force_integer_mv *)
  mo_local : option (option (matrix * shear)) }. (* t->warpmv, if motion_mode is MM_WARP *)
(** src/decode.c:3472-3485: svc[i][0].scale *)
Definition svc_scale (f : mc_in) : outcome Z :=
  if negb (m_w f =? m_rw f) || negb (m_h f =? m_rh f) then scale_fac (m_rw f) (m_w f) else Ok 0.
(** src/decode.c:3486-3489: gmv_warp_allowed[i], and the u.p that was stored in gmv[i] *)
Definition gmv_warp_allowed (f : mc_in) (mo : motion) : outcome (bool * option shear) :=
  let! scale := svc_scale f in
  if (1 <? mo_gm_type mo) && negb (mo_int mo) then
    let! (bad, sh) := get_shear_params (mo_gm mo) in Ok (negb bad && (scale =? 0), sh)
  else Ok (false, None).
(** The warped prediction with the global motion *)
Definition warp_global (f : mc_in) (mo : motion) (gsh : option shear) put st d bw4 bh4 bx by_ pl refdata : outcome plane :=
  match gsh with
  | Some sh => warp_affine (m_bd f) (m_layout f) (m_rw f) (m_rh f) put st d bw4 bh4 bx by_ pl refdata (mo_gm mo) sh
  | None => Undef
  end.
(** src/recon_tmpl.c:1604-1617 for luma and 1716-1740 for chroma, without obmc. [bw4] and the rest are b_dim, t->bx and
    t->by; a block of one column of chroma units takes the even position. *)
Definition pred_single (f : mc_in) (mo : motion) st d (bw4 bh4 bx by_ pl mvx mvy : Z) refdata filter_2d : outcome plane :=
  let ss_hor := b2z (ss_hor_of (m_layout f) pl) in let ss_ver := b2z (ss_ver_of (m_layout f) pl) in
  let cbw4 := Z.shiftr (bw4 + ss_hor) ss_hor in let cbh4 := Z.shiftr (bh4 + ss_ver) ss_ver in
  let! (allowed, gsh) := gmv_warp_allowed f mo in
  if (1 <? Z.min cbw4 cbh4) &&
     ((mo_global mo && allowed) || match mo_local mo with Some (Some _) => true | _ => false end) then
    match mo_local mo with
    | Some (Some (m, sh)) => warp_affine (m_bd f) (m_layout f) (m_rw f) (m_rh f) true st d bw4 bh4 bx by_ pl refdata m sh
    | Some None => Undef
    | None => warp_global f mo gsh true st d bw4 bh4 bx by_ pl refdata
    end
  else
    mc f true st d (Z.shiftl bw4 (b2z (bw4 =? ss_hor))) (Z.shiftl bh4 (b2z (bh4 =? ss_ver)))
      (Z.land bx (Z.lnot ss_hor)) (Z.land by_ (Z.lnot ss_ver)) pl mvx mvy refdata filter_2d.
(** src/recon_tmpl.c:1792-1804 for luma and 1834-1849 for chroma: tmp[i] *)
Definition pred_tmp (k : comp_in) (mo : bool -> motion) (pl : Z) (i : bool) : outcome plane :=
  let f := k_f k i in
  let ss_hor := b2z (ss_hor_of (m_layout f) pl) in let ss_ver := b2z (ss_ver_of (m_layout f) pl) in
  let cbw4 := Z.shiftr (k_bw4 k + ss_hor) ss_hor in let cbh4 := Z.shiftr (k_bh4 k + ss_ver) ss_ver in
  let! (allowed, gsh) := gmv_warp_allowed f (mo i) in
  if mo_global (mo i) && ((pl =? 0) || (1 <? Z.min cbw4 cbh4)) && allowed then
    warp_global f (mo i) gsh false (st_tmp (plane_w k pl) (plane_h k pl)) plane0 (k_bw4 k) (k_bh4 k) (k_bx k) (k_by k) pl (k_ref k i pl)
  else comp_tmp k pl i.

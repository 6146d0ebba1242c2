(** The block warp process of the AV1 specification (7.11.3.5). *)
From Coq Require Import ZArith List Bool.
From Verif Require Mc.Spec Warp.Spec.
Import ListNotations.
Open Scope Z_scope.

(** Warped_Filters: the first half; the other half is its mirror image, and the last row repeats the one before *)
Definition Warped_Half : list (list Z) :=
  [ [0; 0; 127; 1; 0; 0; 0; 0]; [0; -1; 127; 2; 0; 0; 0; 0]; [1; -3; 127; 4; -1; 0; 0; 0]; [1; -4; 126; 6; -2; 1; 0; 0];
    [1; -5; 126; 8; -3; 1; 0; 0]; [1; -6; 125; 11; -4; 1; 0; 0]; [1; -7; 124; 13; -4; 1; 0; 0]; [2; -8; 123; 15; -5; 1; 0; 0];
    [2; -9; 122; 18; -6; 1; 0; 0]; [2; -10; 121; 20; -6; 1; 0; 0]; [2; -11; 120; 22; -7; 2; 0; 0]; [2; -12; 119; 25; -8; 2; 0; 0];
    [3; -13; 117; 27; -8; 2; 0; 0]; [3; -13; 116; 29; -9; 2; 0; 0]; [3; -14; 114; 32; -10; 3; 0; 0]; [3; -15; 113; 35; -10; 2; 0; 0];
    [3; -15; 111; 37; -11; 3; 0; 0]; [3; -16; 109; 40; -11; 3; 0; 0]; [3; -16; 108; 42; -12; 3; 0; 0]; [4; -17; 106; 45; -13; 3; 0; 0];
    [4; -17; 104; 47; -13; 3; 0; 0]; [4; -17; 102; 50; -14; 3; 0; 0]; [4; -17; 100; 52; -14; 3; 0; 0]; [4; -18; 98; 55; -15; 4; 0; 0];
    [4; -18; 96; 58; -15; 3; 0; 0]; [4; -18; 94; 60; -16; 4; 0; 0]; [4; -18; 91; 63; -16; 4; 0; 0]; [4; -18; 89; 65; -16; 4; 0; 0];
    [4; -18; 87; 68; -17; 4; 0; 0]; [4; -18; 85; 70; -17; 4; 0; 0]; [4; -18; 82; 73; -17; 4; 0; 0]; [4; -18; 80; 75; -17; 4; 0; 0];
    [4; -18; 78; 78; -18; 4; 0; 0]; [4; -17; 75; 80; -18; 4; 0; 0]; [4; -17; 73; 82; -18; 4; 0; 0]; [4; -17; 70; 85; -18; 4; 0; 0];
    [4; -17; 68; 87; -18; 4; 0; 0]; [4; -16; 65; 89; -18; 4; 0; 0]; [4; -16; 63; 91; -18; 4; 0; 0]; [4; -16; 60; 94; -18; 4; 0; 0];
    [3; -15; 58; 96; -18; 4; 0; 0]; [4; -15; 55; 98; -18; 4; 0; 0]; [3; -14; 52; 100; -17; 4; 0; 0]; [3; -14; 50; 102; -17; 4; 0; 0];
    [3; -13; 47; 104; -17; 4; 0; 0]; [3; -13; 45; 106; -17; 4; 0; 0]; [3; -12; 42; 108; -16; 3; 0; 0]; [3; -11; 40; 109; -16; 3; 0; 0];
    [3; -11; 37; 111; -15; 3; 0; 0]; [2; -10; 35; 113; -15; 3; 0; 0]; [3; -10; 32; 114; -14; 3; 0; 0]; [2; -9; 29; 116; -13; 3; 0; 0];
    [2; -8; 27; 117; -13; 3; 0; 0]; [2; -8; 25; 119; -12; 2; 0; 0]; [2; -7; 22; 120; -11; 2; 0; 0]; [1; -6; 20; 121; -10; 2; 0; 0];
    [1; -6; 18; 122; -9; 2; 0; 0]; [1; -5; 15; 123; -8; 2; 0; 0]; [1; -4; 13; 124; -7; 1; 0; 0]; [1; -4; 11; 125; -6; 1; 0; 0];
    [1; -3; 8; 126; -5; 1; 0; 0]; [1; -2; 6; 126; -4; 1; 0; 0]; [0; -1; 4; 127; -3; 1; 0; 0]; [0; 0; 2; 127; -1; 0; 0; 0];
    [0; 0; 0; 127; 1; 0; 0; 0]; [0; 0; -1; 127; 2; 0; 0; 0]; [0; 1; -3; 127; 4; -2; 1; 0]; [0; 1; -5; 127; 6; -2; 1; 0];
    [0; 2; -6; 126; 8; -3; 1; 0]; [-1; 2; -7; 126; 11; -4; 2; -1]; [-1; 3; -8; 125; 13; -5; 2; -1]; [-1; 3; -10; 124; 16; -6; 3; -1];
    [-1; 4; -11; 123; 18; -7; 3; -1]; [-1; 4; -12; 122; 20; -7; 3; -1]; [-1; 4; -13; 121; 23; -8; 3; -1]; [-2; 5; -14; 120; 25; -9; 4; -1];
    [-1; 5; -15; 119; 27; -10; 4; -1]; [-1; 5; -16; 118; 30; -11; 4; -1]; [-2; 6; -17; 116; 33; -12; 5; -1]; [-2; 6; -17; 114; 35; -12; 5; -1];
    [-2; 6; -18; 113; 38; -13; 5; -1]; [-2; 7; -19; 111; 41; -14; 6; -2]; [-2; 7; -19; 110; 43; -15; 6; -2]; [-2; 7; -20; 108; 46; -15; 6; -2];
    [-2; 7; -20; 106; 49; -16; 6; -2]; [-2; 7; -21; 104; 51; -16; 7; -2]; [-2; 7; -21; 102; 54; -17; 7; -2]; [-2; 8; -21; 100; 56; -18; 7; -2];
    [-2; 8; -22; 98; 59; -18; 7; -2]; [-2; 8; -22; 96; 62; -19; 7; -2]; [-2; 8; -22; 94; 64; -19; 7; -2]; [-2; 8; -22; 91; 67; -20; 8; -2];
    [-2; 8; -22; 89; 69; -20; 8; -2]; [-2; 8; -22; 87; 72; -21; 8; -2]; [-2; 8; -21; 84; 74; -21; 8; -2]; [-2; 8; -22; 82; 77; -21; 8; -2];
    [-2; 8; -21; 79; 79; -21; 8; -2] ].
Definition Warped_Filters (offs t : Z) : Z :=
  let at_ i t := nth (Z.to_nat t) (nth (Z.to_nat i) Warped_Half []) 0 in
  if offs <=? 96 then at_ offs t else at_ (192 - Z.min offs 191) (7 - t).

Definition WARPEDPIXEL_PREC_SHIFTS := 2 ^ 6.
Definition WARPEDDIFF_PREC_BITS := 10.
Section Warp.
(** [x] and [y] is the position of the block in the plane *)
Variables (BitDepth : Z) (isCompound : bool) (ref : Z -> Z -> Z) (lastX lastY subX subY x y : Z) (p : Spec.params) (sh : Spec.shear).
(** The centre of the block of 8x8 samples at (i8, j8): x4 and y4 *)
Definition srcX (j8 : Z) : Z := (x + j8 * 8 + 4) * 2 ^ subX.
Definition srcY (i8 : Z) : Z := (y + i8 * 8 + 4) * 2 ^ subY.
Definition x4 (i8 j8 : Z) : Z := (Spec.P2 p * srcX j8 + Spec.P3 p * srcY i8 + Spec.P0 p) / 2 ^ subX.
Definition y4 (i8 j8 : Z) : Z := (Spec.P4 p * srcX j8 + Spec.P5 p * srcY i8 + Spec.P1 p) / 2 ^ subY.
(** intermediate[ i1 + 7 ][ i2 + 4 ] *)
Definition intermediate (i8 j8 i1 i2 : Z) : Z :=
  let ix4 := x4 i8 j8 / 2 ^ Spec.WARPEDMODEL_PREC_BITS in
  let sx4 := x4 i8 j8 mod 2 ^ Spec.WARPEDMODEL_PREC_BITS in
  let iy4 := y4 i8 j8 / 2 ^ Spec.WARPEDMODEL_PREC_BITS in
  let sx := sx4 + Spec.alpha sh * i2 + Spec.beta sh * i1 in
  let offs := Mc.Spec.Round2 sx WARPEDDIFF_PREC_BITS + WARPEDPIXEL_PREC_SHIFTS in
  Mc.Spec.Round2 (Mc.Spec.sum8 (fun i3 => Warped_Filters offs i3 *
    ref (Mc.Spec.Clip3 0 lastY (iy4 + i1)) (Mc.Spec.Clip3 0 lastX (ix4 + i2 - 3 + i3)))) (Mc.Spec.InterRound0 BitDepth).
Definition pred8 (i8 j8 i1 i2 : Z) : Z :=
  let sy4 := y4 i8 j8 mod 2 ^ Spec.WARPEDMODEL_PREC_BITS in
  let sy := sy4 + Spec.gamma sh * i2 + Spec.delta sh * i1 in
  let offs := Mc.Spec.Round2 sy WARPEDDIFF_PREC_BITS + WARPEDPIXEL_PREC_SHIFTS in
  Mc.Spec.Round2 (Mc.Spec.sum8 (fun i3 => Warped_Filters offs i3 * intermediate i8 j8 (i1 + i3 + 4 - 7) i2)) (Mc.Spec.InterRound1 BitDepth isCompound).
(** pred[ r ][ c ] *)
Definition pred (r c : Z) : Z := pred8 (r / 8) (c / 8) (r mod 8 - 4) (c mod 8 - 4).
End Warp.
(** The block at (x, y) of a plane, from the plane [ref] of a frame of RefUpscaledWidth x RefFrameHeight *)
Definition block_warp (BitDepth : Z) (isCompound : bool) (ref : Z -> Z -> Z) (RefUpscaledWidth RefFrameHeight subX subY x y : Z) (p : Spec.params) (r c : Z) : Z :=
  pred BitDepth isCompound ref ((RefUpscaledWidth + subX) / 2 ^ subX - 1) ((RefFrameHeight + subY) / 2 ^ subY - 1) subX subY x y p (Spec.setup_shear p) r c.

(** is_scaled: 5.11.27 *)
Definition is_scaled (RefUpscaledWidth RefFrameHeight FrameWidth FrameHeight : Z) : bool :=
  let noScale := 2 ^ 14 in
  negb (Mc.Spec.xScale RefUpscaledWidth FrameWidth =? noScale) || negb (Mc.Spec.xScale RefFrameHeight FrameHeight =? noScale).
(** The choice of the warp in 7.11.3.1 *)
Record block_motion : Type := {
  force_integer_mv : bool;
  globalMode : bool;                        (* YMode is GLOBALMV or GLOBAL_GLOBALMV *)
  GmType : Z; gm_params : Spec.params;      (* of the reference frame; IDENTITY 0, TRANSLATION 1 *)
  localWarp : bool;                         (* motion_mode is LOCALWARP *)
  LocalWarpParams : option Spec.params }.   (* None if LocalValid is 0 *)
Definition warp_params (w h : Z) (scaled : bool) (b : block_motion) : option Spec.params :=
  let globalValid := Spec.warpValid (Spec.setup_shear (gm_params b)) in
  if (w <? 8) || (h <? 8) || force_integer_mv b then None else
  match (if localWarp b then LocalWarpParams b else None) with
  | Some p => Some p
  | None => if globalMode b && (1 <? GmType b) && negb scaled && globalValid then Some (gm_params b) else None
  end.
(** The prediction of the block of w x h samples at (x, y) of a plane from one reference *)
Definition block_pred (BitDepth : Z) (isCompound : bool) (ref : Z -> Z -> Z) (RefUpscaledWidth RefFrameHeight FrameWidth FrameHeight subX subY x y w h mvRow mvCol interp_filter0 interp_filter1 : Z) (b : block_motion) (r c : Z) : Z :=
  match warp_params w h (is_scaled RefUpscaledWidth RefFrameHeight FrameWidth FrameHeight) b with
  | Some p => block_warp BitDepth isCompound ref RefUpscaledWidth RefFrameHeight subX subY x y p r c
  | None => Mc.Spec.block_inter BitDepth isCompound ref RefUpscaledWidth RefFrameHeight FrameWidth FrameHeight subX subY x y w h mvRow mvCol interp_filter0 interp_filter1 r c
  end.

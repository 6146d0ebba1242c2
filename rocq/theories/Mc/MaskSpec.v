(** The masks of the AV1 specification: 7.11.3.11 (wedge mask process), 7.11.3.13 (intra mode variant mask process),
    with their tables; written from the specification. *)
From Coq Require Import ZArith List Bool.
From Verif Require Mc.Spec.
Import ListNotations.
Open Scope Z_scope.

Definition MASK_MASTER_SIZE := 64.
Definition tab (l : list Z) (i : Z) : Z := nth (Z.to_nat i) l 0.
Definition Clip3 (lo hi x : Z) : Z := if x <? lo then lo else if hi <? x then hi else x.

Definition Wedge_Master_Oblique_Odd : list Z :=
  [ 0; 0; 0; 0; 0; 0; 0; 0; 0; 0; 0; 0; 0; 0; 0; 0;
    0; 0; 0; 0; 0; 0; 0; 0; 0; 0; 0; 0; 1; 2; 6; 18;
    37; 53; 60; 63; 64; 64; 64; 64; 64; 64; 64; 64; 64; 64; 64; 64;
    64; 64; 64; 64; 64; 64; 64; 64; 64; 64; 64; 64; 64; 64; 64; 64 ].
Definition Wedge_Master_Oblique_Even : list Z :=
  [ 0; 0; 0; 0; 0; 0; 0; 0; 0; 0; 0; 0; 0; 0; 0; 0;
    0; 0; 0; 0; 0; 0; 0; 0; 0; 0; 0; 0; 1; 4; 11; 27;
    46; 58; 62; 63; 64; 64; 64; 64; 64; 64; 64; 64; 64; 64; 64; 64;
    64; 64; 64; 64; 64; 64; 64; 64; 64; 64; 64; 64; 64; 64; 64; 64 ].
Definition Wedge_Master_Vertical : list Z :=
  [ 0; 0; 0; 0; 0; 0; 0; 0; 0; 0; 0; 0; 0; 0; 0; 0;
    0; 0; 0; 0; 0; 0; 0; 0; 0; 0; 0; 0; 0; 2; 7; 21;
    43; 57; 62; 64; 64; 64; 64; 64; 64; 64; 64; 64; 64; 64; 64; 64;
    64; 64; 64; 64; 64; 64; 64; 64; 64; 64; 64; 64; 64; 64; 64; 64 ].

Inductive direction := WEDGE_HORIZONTAL | WEDGE_VERTICAL | WEDGE_OBLIQUE27 | WEDGE_OBLIQUE63 | WEDGE_OBLIQUE117 | WEDGE_OBLIQUE153.
(** MasterMask[ WEDGE_OBLIQUE63 ][ i ][ j ]: the shift of a pair of rows is MASK_MASTER_SIZE / 4 less the number of the
    pairs before it, and one less in its second row *)
Definition oblique63 (i j : Z) : Z :=
  let shift := MASK_MASTER_SIZE / 4 - i / 2 in
  if Z.even i then tab Wedge_Master_Oblique_Even (Clip3 0 (MASK_MASTER_SIZE - 1) (j - shift))
  else tab Wedge_Master_Oblique_Odd (Clip3 0 (MASK_MASTER_SIZE - 1) (j - (shift - 1))).
Definition MasterMask (d : direction) (i j : Z) : Z :=
  match d with
  | WEDGE_OBLIQUE63 => oblique63 i j
  | WEDGE_VERTICAL => tab Wedge_Master_Vertical j
  | WEDGE_OBLIQUE27 => oblique63 j i
  | WEDGE_OBLIQUE117 => 64 - oblique63 i (MASK_MASTER_SIZE - 1 - j)
  | WEDGE_OBLIQUE153 => 64 - oblique63 j (MASK_MASTER_SIZE - 1 - i)
  | WEDGE_HORIZONTAL => tab Wedge_Master_Vertical i
  end.

(** Wedge_Codebook: direction, x offset, y offset *)
Definition codebook_hgtw : list (direction * Z * Z) :=
  [ (WEDGE_OBLIQUE27, 4, 4); (WEDGE_OBLIQUE63, 4, 4); (WEDGE_OBLIQUE117, 4, 4); (WEDGE_OBLIQUE153, 4, 4);
    (WEDGE_HORIZONTAL, 4, 2); (WEDGE_HORIZONTAL, 4, 4); (WEDGE_HORIZONTAL, 4, 6); (WEDGE_VERTICAL, 4, 4);
    (WEDGE_OBLIQUE27, 4, 2); (WEDGE_OBLIQUE27, 4, 6); (WEDGE_OBLIQUE153, 4, 2); (WEDGE_OBLIQUE153, 4, 6);
    (WEDGE_OBLIQUE63, 2, 4); (WEDGE_OBLIQUE63, 6, 4); (WEDGE_OBLIQUE117, 2, 4); (WEDGE_OBLIQUE117, 6, 4) ].
Definition codebook_hltw : list (direction * Z * Z) :=
  [ (WEDGE_OBLIQUE27, 4, 4); (WEDGE_OBLIQUE63, 4, 4); (WEDGE_OBLIQUE117, 4, 4); (WEDGE_OBLIQUE153, 4, 4);
    (WEDGE_VERTICAL, 2, 4); (WEDGE_VERTICAL, 4, 4); (WEDGE_VERTICAL, 6, 4); (WEDGE_HORIZONTAL, 4, 4);
    (WEDGE_OBLIQUE27, 4, 2); (WEDGE_OBLIQUE27, 4, 6); (WEDGE_OBLIQUE153, 4, 2); (WEDGE_OBLIQUE153, 4, 6);
    (WEDGE_OBLIQUE63, 2, 4); (WEDGE_OBLIQUE63, 6, 4); (WEDGE_OBLIQUE117, 2, 4); (WEDGE_OBLIQUE117, 6, 4) ].
Definition codebook_heqw : list (direction * Z * Z) :=
  [ (WEDGE_OBLIQUE27, 4, 4); (WEDGE_OBLIQUE63, 4, 4); (WEDGE_OBLIQUE117, 4, 4); (WEDGE_OBLIQUE153, 4, 4);
    (WEDGE_HORIZONTAL, 4, 2); (WEDGE_HORIZONTAL, 4, 6); (WEDGE_VERTICAL, 2, 4); (WEDGE_VERTICAL, 6, 4);
    (WEDGE_OBLIQUE27, 4, 2); (WEDGE_OBLIQUE27, 4, 6); (WEDGE_OBLIQUE153, 4, 2); (WEDGE_OBLIQUE153, 4, 6);
    (WEDGE_OBLIQUE63, 2, 4); (WEDGE_OBLIQUE63, 6, 4); (WEDGE_OBLIQUE117, 2, 4); (WEDGE_OBLIQUE117, 6, 4) ].
(** get_wedge_direction, get_wedge_xoff, get_wedge_yoff for a block of w x h *)
Definition wedge_code (w h wedge : Z) : direction * Z * Z :=
  nth (Z.to_nat wedge) (if w <? h then codebook_hgtw else if h <? w then codebook_hltw else codebook_heqw) (WEDGE_VERTICAL, 4, 4).
(** the part of the master mask, and its sign *)
Definition wedge_part (w h wedge i j : Z) : Z :=
  let '(d, xo, yo) := wedge_code w h wedge in
  MasterMask d (MASK_MASTER_SIZE / 2 - (yo * h) / 8 + i) (MASK_MASTER_SIZE / 2 - (xo * w) / 8 + j).
Definition sum_to (n : Z) (f : Z -> Z) : Z := fold_right (fun i s => f (Z.of_nat i) + s) 0 (seq 0 (Z.to_nat n)).
Definition flipSign (w h wedge : Z) : bool :=
  let sum := sum_to w (fun i => wedge_part w h wedge 0 i) + sum_to (h - 1) (fun i => wedge_part w h wedge (i + 1) 0) in
  (sum + (w + h - 1) / 2) / (w + h - 1) <? 32.
(** WedgeMasks[ bsize ][ sign ][ wedge ][ i ][ j ] *)
Definition WedgeMasks (w h : Z) (sign : bool) (wedge i j : Z) : Z :=
  if Bool.eqb sign (flipSign w h wedge) then wedge_part w h wedge i j else 64 - wedge_part w h wedge i j.

(** Ii_Weights_1d *)
Definition Ii_Weights_1d : list Z :=
  [ 60; 58; 56; 54; 52; 50; 48; 47; 45; 44; 42; 41; 39; 38; 37; 35;
    34; 33; 32; 31; 30; 29; 28; 27; 26; 25; 24; 23; 22; 22; 21; 20;
    19; 19; 18; 18; 17; 16; 16; 15; 15; 14; 14; 13; 13; 12; 12; 12;
    11; 11; 10; 10; 10; 9; 9; 9; 8; 8; 8; 8; 7; 7; 7; 7;
    6; 6; 6; 6; 6; 5; 5; 5; 5; 5; 4; 4; 4; 4; 4; 4;
    4; 4; 3; 3; 3; 3; 3; 3; 3; 3; 3; 2; 2; 2; 2; 2;
    2; 2; 2; 2; 2; 2; 2; 2; 2; 2; 2; 1; 1; 1; 1; 1;
    1; 1; 1; 1; 1; 1; 1; 1; 1; 1; 1; 1; 1; 1; 1; 1 ].
Inductive interintra_mode := II_DC_PRED | II_V_PRED | II_H_PRED | II_SMOOTH_PRED.
(** 7.11.3.13 for a block of w x h *)
Definition intra_variant_mask (w h : Z) (mode : interintra_mode) (i j : Z) : Z :=
  let sizeScale := 128 / Z.max h w in
  match mode with
  | II_V_PRED => tab Ii_Weights_1d (i * sizeScale)
  | II_H_PRED => tab Ii_Weights_1d (j * sizeScale)
  | II_SMOOTH_PRED => tab Ii_Weights_1d (Z.min i j * sizeScale)
  | II_DC_PRED => 32
  end.

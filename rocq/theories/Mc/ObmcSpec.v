(** AV1 specification, 7.11.3.10 (overlapped motion compensation), and the inter-intra case of 7.11.3.14. *)
From Coq Require Import ZArith List Bool.
From Verif Require Mc.Spec Mc.MaskSpec.
Import ListNotations.
Open Scope Z_scope.
Import Mc.Spec.

Definition Obmc_Mask_2 := [45; 64].
Definition Obmc_Mask_4 := [39; 50; 59; 64].
Definition Obmc_Mask_8 := [36; 42; 48; 53; 57; 61; 64; 64].
Definition Obmc_Mask_16 := [34; 37; 40; 43; 46; 49; 52; 54; 56; 58; 60; 61; 64; 64; 64; 64].
Definition Obmc_Mask_32 :=
  [33; 35; 36; 38; 40; 41; 43; 44; 45; 47; 48; 50; 51; 52; 53; 55; 56; 57; 58; 59; 60; 60; 61; 62; 64; 64; 64; 64; 64; 64; 64; 64].
Definition get_obmc_mask (len : Z) : list Z :=
  if len =? 2 then Obmc_Mask_2 else if len =? 4 then Obmc_Mask_4 else if len =? 8 then Obmc_Mask_8 else if len =? 16 then Obmc_Mask_16 else Obmc_Mask_32.

Section Overlap.
(** the block, in units of 4 x 4 luma samples *)
Variables (MiRows MiCols MiRow MiCol bw4 bh4 Mi_Width_Log2 Mi_Height_Log2 : Z).
(** what is known of the blocks decoded before, by position *)
Variables (RefFrame MvRow MvCol Wide High Filter0 Filter1 : Z -> Z -> Z).
(** the current frame and the reference frames *)
Variables (BitDepth FrameWidth FrameHeight : Z) (RefUpscaledWidth RefFrameHeight : Z -> Z) (ref : Z -> Z -> Z -> Z -> Z).
Variables (plane subX subY : Z).
Definition w : Z := bw4 * 4 / 2 ^ subX.
Definition h : Z := bh4 * 4 / 2 ^ subY.
(** get_plane_residual_size( MiSize, plane ) >= BLOCK_8X8 *)
Definition at_least_8x8 : bool := negb (((w =? 4) && (h =? 4)) || ((w =? 4) && (h =? 8)) || ((w =? 8) && (h =? 4))).
Definition step4 (n : Z) : Z := Clip3 2 16 n.

(** the positions x4 of the blocks above that are used, and y4 of those to the left *)
Fixpoint above (fuel : nat) (nCount x4 : Z) : list Z :=
  match fuel with
  | O => []
  | S fuel =>
    if (nCount <? Z.min 4 Mi_Width_Log2) && (x4 <? Z.min MiCols (MiCol + bw4)) then
      let candRow := MiRow - 1 in let candCol := Z.lor x4 1 in
      if 0 <? RefFrame candRow candCol then x4 :: above fuel (nCount + 1) (x4 + step4 (Wide candRow candCol))
      else above fuel nCount (x4 + step4 (Wide candRow candCol))
    else []
  end.
Fixpoint left (fuel : nat) (nCount y4 : Z) : list Z :=
  match fuel with
  | O => []
  | S fuel =>
    if (nCount <? Z.min 4 Mi_Height_Log2) && (y4 <? Z.min MiRows (MiRow + bh4)) then
      let candCol := MiCol - 1 in let candRow := Z.lor y4 1 in
      if 0 <? RefFrame candRow candCol then y4 :: left fuel (nCount + 1) (y4 + step4 (High candRow candCol))
      else left fuel nCount (y4 + step4 (High candRow candCol))
    else []
  end.
(** predict_overlap and the overlap blending process *)
Definition obmcPred (candRow candCol predX predY predW predH i j : Z) : Z :=
  let r := RefFrame candRow candCol in
  single BitDepth (block_inter BitDepth false (ref r plane) (RefUpscaledWidth r) (RefFrameHeight r) FrameWidth FrameHeight subX subY
    predX predY predW predH (MvRow candRow candCol) (MvCol candRow candCol) (Filter0 candRow candCol) (Filter1 candRow candCol) i j).
Definition overlap (pass : bool) (candRow candCol predX predY predW predH : Z) (mask : list Z) (CurrFrame : Z -> Z -> Z) (y x : Z) : Z :=
  let i := y - predY in let j := x - predX in
  if (0 <=? i) && (i <? predH) && (0 <=? j) && (j <? predW) then
    let m := nth (Z.to_nat (if pass then j else i)) mask 0 in
    Round2 (m * CurrFrame y x + (64 - m) * obmcPred candRow candCol predX predY predW predH i j) 6
  else CurrFrame y x.
Definition overlap_above (CurrFrame : Z -> Z -> Z) (x4 : Z) : Z -> Z -> Z :=
  let candRow := MiRow - 1 in let candCol := Z.lor x4 1 in
  let predW := Z.min bw4 (step4 (Wide candRow candCol)) * 4 / 2 ^ subX in
  let predH := Z.min (h / 2) (32 / 2 ^ subY) in
  overlap false candRow candCol (x4 * 4 / 2 ^ subX) (MiRow * 4 / 2 ^ subY) predW predH (get_obmc_mask predH) CurrFrame.
Definition overlap_left (CurrFrame : Z -> Z -> Z) (y4 : Z) : Z -> Z -> Z :=
  let candCol := MiCol - 1 in let candRow := Z.lor y4 1 in
  let predW := Z.min (w / 2) (32 / 2 ^ subX) in
  let predH := Z.min bh4 (step4 (High candRow candCol)) * 4 / 2 ^ subY in
  overlap true candRow candCol (MiCol * 4 / 2 ^ subX) (y4 * 4 / 2 ^ subY) predW predH (get_obmc_mask predW) CurrFrame.
Definition overlapped (AvailU AvailL : bool) (CurrFrame : Z -> Z -> Z) : Z -> Z -> Z :=
  let CurrFrame := if AvailU && at_least_8x8 then fold_left overlap_above (above 16 0 MiCol) CurrFrame else CurrFrame in
  if AvailL then fold_left overlap_left (left 16 0 MiRow) CurrFrame else CurrFrame.
End Overlap.

(** 7.11.3.14 for an inter-intra block: [intra] is what the intra prediction left in CurrFrame, [p] the inter prediction *)
Definition interintra (m intra p : Z) : Z := Round2 (m * intra + (64 - m) * p) 6.

(** C48: blending of predictions. Overlapped motion compensation follows 7.11.3.10 of the AV1 specification, and so does
    the blend of an inter-intra block 7.11.3.14. *)
From Coq Require Import ZArith List Bool Lia.
From Verif Require Import Base.CInt Base.Loop Cdef.Block Mc.Model Mc.Kernel Mc.Blocks Mc.Whole Mc.Compound.
From Verif Require Import Mc.MaskModel Mc.MaskInit Mc.MaskProps Mc.ObmcModel Mc.Obmc Mc.ObmcFit Mc.Interintra.
From Verif Require Mc.Spec Mc.MaskSpec Mc.ObmcSpec Props.C47.
Import ListNotations.
Open Scope Z_scope.
Local Open Scope outcome_scope.

(** The weights. *)
Theorem C48_weights : forall n i, In n [2; 4; 8; 16; 32] -> 0 <= i < n ->
  let m := nth (Z.to_nat i) (ObmcSpec.get_obmc_mask n) 0 in
  (i < n * 3 / 4 -> rd_at obmc_masks (n + i) = Ok (64 - m)) /\ (n * 3 / 4 <= i -> m = 64).
Proof.
  intros n i Hn Hi m. assert (S : obmc_size n) by (unfold obmc_size; cbn [In] in Hn; intuition lia). destruct (table_at n i S Hi) as (_ & A & B).
  rewrite Z.shiftr_div_pow2 in A, B by lia. split; assumption.
Qed.
Print Assumptions C48_weights.

(** Overlapped motion compensation of a block. [cur] is the inter prediction of the block itself, [blk] are the blocks
    decoded before, of which [Wide] and [High] are the sizes and [F0], [F1] the filters; [S r] is the reference frame r.
    What is blended is what the specification blends, and nothing outside of the block is written. *)
Theorem C48_obmc : forall k rows stride bw4 bh4 lw lh pl bx4 by4 w4 h4 MiCols MiRows blk Wide High F0 F1 S fw fh rw rh d cur,
  obmc_ok k bw4 bh4 pl bx4 by4 MiCols MiRows blk Wide High F0 F1 S fw fh rw rh ->
  let bx := o_bx k in let by_ := o_by k in let sx := Spec.subX (o_layout k) pl in let sy := Spec.subY (o_layout k) pl in
  let w := bw4 * 4 / 2 ^ sx in let h := bh4 * 4 / 2 ^ sy in let y0 := by_ * 4 / 2 ^ sy in let x0 := bx * 4 / 2 ^ sx in
  w4 = Z.min bw4 (MiCols - bx) -> h4 = Z.min bh4 (MiRows - by_) -> y0 + h <= rows -> x0 + w <= stride ->
  bx mod bw4 = 0 -> by_ mod bh4 = 0 -> MiCols mod 2 = 0 -> MiRows mod 2 = 0 ->
  (o_row_start k < by_ -> tiled (Wide (by_ - 1)) bx (Z.min MiCols (bx + bw4))) ->
  (o_col_start k < bx -> tiled (fun r => High r (bx - 1)) by_ (Z.min MiRows (by_ + bh4))) ->
  (forall Y X, y0 <= Y < y0 + h -> x0 <= X < x0 + w -> d Y X = Some (cur Y X) /\ pixel (o_bd k) (cur Y X)) ->
  exists d', obmc k rows stride y0 x0 (bw4, bh4, lw, lh) pl bx4 by4 w4 h4 d = Ok d' /\
    (forall Y X, y0 <= Y < y0 + h -> x0 <= X < x0 + w -> d' Y X =
      Some (ObmcSpec.overlapped MiRows MiCols by_ bx bw4 bh4 lw lh (fun r c => r_ref0 (blk r c)) (fun r c => r_mvy (blk r c)) (fun r c => r_mvx (blk r c))
        Wide High F0 F1 (o_bd k) fw fh rw rh S pl sx sy (o_row_start k <? by_) (o_col_start k <? bx) cur Y X)) /\
    (forall Y X, ~ (y0 <= Y < y0 + h /\ x0 <= X < x0 + w) -> d' Y X = d Y X).
Proof.
  intros k rows stride bw4 bh4 lw lh pl bx4 by4 w4 h4 MiCols MiRows blk Wide High F0 F1 S fw fh rw rh d cur OO bx by_ sx sy w h y0 x0 W4 H4 B2 B4 MX MY MC MR TA TL HC.
  assert (G : geo k bw4 bh4 pl (o_bd k) bx by_ sx sy w h y0 x0) by (constructor; reflexivity).
  pose proof OO as OO'. destruct OO' as [_ _ _ _ SW SH SX SY _ _ _ _].
  destruct (obmc_holds k rows stride bw4 bh4 lw lh pl bx4 by4 MiCols MiRows blk Wide High F0 F1 S fw fh rw rh OO (o_bd k) bx by_ sx sy w h y0 x0 G B2 B4 w4 h4 W4 H4 d cur) as (d' & E & A & B).
  - split; [exact HC|reflexivity].
  - intros L _. unfold aboves. rewrite above_scan.
    exact (all_fit (Wide (by_ - 1)) _ _ bx bw4 MiCols SW (conj (proj1 (proj1 SX)) MX) MC (TA L) (proj2 (proj1 SX)) 16).
  - intros L. unfold lefts. rewrite left_scan.
    exact (all_fit (fun r => High r (bx - 1)) _ _ by_ bh4 MiRows SH (conj (proj1 (proj1 SY)) MY) MR (TL L) (proj2 (proj1 SY)) 16).
  - exists d'. split; [exact E|]. split; [|exact B]. intros Y X HY HX. exact (proj1 (A Y X HY HX)).
Qed.
Print Assumptions C48_obmc.

(** An inter-intra block of the plane size pw x ph, with the masks of C47: [I] is the intra prediction, [P] the inter
    prediction that is in the plane. *)
Definition ii_spec_mask (w h pw ph l : Z) (t : ii_type) (y x : Z) : Z :=
  match t with
  | INTER_INTRA_BLEND mode => MaskSpec.intra_variant_mask pw ph (mode_of mode) y x
  | INTER_INTRA_WEDGE idx => Spec.mask_at (MaskSpec.WedgeMasks w h false idx) (lsx l =? 1) (lsy l =? 1) y x
  end.
Definition ii_type_ok (t : ii_type) : Prop := match t with INTER_INTRA_BLEND mode => 0 <= mode < 4 | INTER_INTRA_WEDGE idx => 0 <= idx < 16 end.
Theorem C48_interintra : forall m w h bs l t bd rows stride y0 x0 tmp d I P, init_ii_wedge_masks = Ok m -> In (w, h, bs) ii_sizes -> 0 <= l < 3 -> ii_type_ok t -> depth bd ->
  let pw := w / 2 ^ lsx l in let ph := h / 2 ^ lsy l in
  0 <= y0 -> y0 + ph <= rows -> 0 <= x0 -> x0 + pw <= stride ->
  (forall y x, 0 <= y < ph -> 0 <= x < pw -> (d (y0 + y) (x0 + x) = Some (P y x) /\ pixel bd (P y x)) /\ (tmp y x = Ok (I y x) /\ pixel bd (I y x))) ->
  exists d', interintra_blend m bd rows stride y0 x0 l bs t tmp pw ph d = Ok d' /\
    (forall y x, 0 <= y < ph -> 0 <= x < pw -> d' (y0 + y) (x0 + x) = Some (ObmcSpec.interintra (ii_spec_mask w h pw ph l t y x) (I y x) (P y x))) /\
    (forall Y X, ~ (y0 <= Y < y0 + ph /\ x0 <= X < x0 + pw) -> d' Y X = d Y X).
Proof.
  intros m w h bs l t bd rows stride y0 x0 tmp d I P E HI Hl HT D pw ph H1 H2 H3 H4 HG.
  assert (SZ : 1 <= pw /\ 1 <= ph).
  { assert (LX : lsx l = 0 \/ lsx l = 1) by (unfold lsx; destruct (l =? 0); [left|right]; reflexivity). assert (LY : lsy l = 0 \/ lsy l = 1) by (unfold lsy; destruct (l =? 2); [right|left]; reflexivity).
    subst pw ph. cbn [ii_sizes In] in HI. decompose [or] HI; try contradiction; match goal with H : (_, _, _) = _ |- _ => injection H as <- <- <- end;
    destruct LX as [-> | ->]; destruct LY as [-> | ->]; split; vm_compute; intro; discriminate. }
  destruct (ii_blend_ok m bd rows stride y0 x0 l bs t tmp pw ph d (ii_spec_mask w h pw ph l t) I P D (proj1 SZ) (proj2 SZ) H1 H2 H3 H4) as (d' & E' & A & B).
  - intros y x Hy Hx. destruct t as [mode|idx]; cbn [ii_spec_mask ii_type_ok] in *.
    + split; [apply (C47.C47_interintra m w h bs l mode y x E HI Hl HT Hy Hx)|apply variant_range].
    + split; [apply (C47.C47_interintra_wedge m w h bs l idx y x E HI Hl HT Hy Hx)|apply mask_at_range; intros; apply wedge_range].
  - exact HG.
  - exists d'. split; [exact E'|]. split; [exact A|exact B].
Qed.
Print Assumptions C48_interintra.

(** * An 8 x 8 block at (8, 8) of a frame of 16 x 16, between blocks of the same size *)
Definition ex_f : mc_in := {| m_bd := 8; m_layout := 1; m_w := 16; m_h := 16; m_bw := 4; m_bh := 4; m_rw := 16; m_rh := 16; m_same := false; m_scale_x := 0; m_step_x := 0; m_scale_y := 0; m_step_y := 0 |}.
Definition ex_blk : refmvs_block := {| r_bs := 17; r_ref0 := 1; r_mvx := 4; r_mvy := 0 |}.
Definition ex_k : obmc_in := {| o_f := fun _ => ex_f; o_ref := fun _ _ _ _ => Ok 100; o_r := fun _ _ => Ok ex_blk; o_a := fun _ _ => Ok 0; o_l := fun _ _ => Ok 2;
  o_layout := 1; o_bd := 8; o_bx := 2; o_by := 2; o_row_start := 0; o_col_start := 0 |}.
Example ex_ok : obmc_ok ex_k 2 2 0 2 2 4 4 (fun _ _ => ex_blk) (fun _ _ => 2) (fun _ _ => 2) (fun r _ => if r <? 2 then 0 else 2) (fun r _ => if r <? 2 then 0 else 2) (fun _ _ _ _ => 100) 16 16 (fun _ => 16) (fun _ => 16) /\
  tiled (fun _ => 2) 2 4 /\
  ObmcSpec.overlapped 4 4 2 2 2 2 1 1 (fun _ _ => 1) (fun _ _ => 0) (fun _ _ => 4) (fun _ _ => 2) (fun _ _ => 2) (fun _ _ => 0) (fun _ _ => 0) 8 16 16 (fun _ => 16) (fun _ => 16) (fun _ _ _ _ => 100) 0 0 0 true true (fun _ _ => 20) 8 8 = 70.
Proof.
  split; [|split; [|vm_compute; reflexivity]].
  2: { split; [intros; right; left; reflexivity|reflexivity]. }
  assert (FO : frame_ok ex_f) by (constructor; cbn; try lia; left; reflexivity).
  constructor; cbn [o_f o_ref o_r o_a o_l o_layout o_bd o_bx o_by o_row_start o_col_start ex_k].
  - intros r _. split; [exact FO|reflexivity].
  - intros r _. repeat split.
  - intros r _ y x _ _. split; [reflexivity|unfold pixel; cbn; lia].
  - left. reflexivity.
  - left. reflexivity.
  - left. reflexivity.
  - split; [lia|exists 1; reflexivity].
  - split; [lia|exists 1; reflexivity].
  - cbn; lia.
  - cbn; lia.
  - intros _ x Hx _ _. split; [reflexivity|]. split; [exists 1, 1; reflexivity|]. intros _. cbn [ex_blk r_ref0 r_mvx r_mvy]. change (2 - 1 <? 2) with true. unfold int16, modes. repeat split; lia.
  - intros _ y Hy _ _. split; [reflexivity|]. split; [exists 1, 1; reflexivity|]. intros _. cbn [ex_blk r_ref0 r_mvx r_mvy]. destruct (Z.ltb_spec (2 + y + 1) 2); [lia|]. unfold int16, modes. repeat split; lia.
Qed.

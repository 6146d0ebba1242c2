(** The ranges of the masks and the inter-intra blend. *)
From Coq Require Import ZArith List Bool Lia.
From Verif Require Import Base.CInt Base.Loop Mc.Model Mc.Kernel Mc.Blocks Mc.MaskModel Mc.MaskTables Mc.MaskProps Mc.ObmcModel Mc.Obmc.
From Verif Require Mc.Spec Mc.MaskSpec Mc.ObmcSpec.
Import ListNotations.
Open Scope Z_scope.

Lemma wedge_range : forall w h s n y x, 0 <= MaskSpec.WedgeMasks w h s n y x <= 64.
Proof.
  intros w h s n y x. unfold MaskSpec.WedgeMasks. assert (R : 0 <= MaskSpec.wedge_part w h n y x <= 64).
  { unfold MaskSpec.wedge_part. destruct (MaskSpec.wedge_code w h n) as [[d a] b]. apply master_range. }
  destruct (Bool.eqb s _); lia.
Qed.
Lemma variant_range : forall w h m y x, 0 <= MaskSpec.intra_variant_mask w h m y x <= 64.
Proof. intros w h m y x. unfold MaskSpec.intra_variant_mask. destruct m; try (apply tab_range; reflexivity). lia. Qed.
Lemma mask_at_range : forall M sx sy y x, (forall y x, 0 <= M y x <= 64) -> 0 <= Spec.mask_at M sx sy y x <= 64.
Proof.
  intros M sx sy y x H. unfold Spec.mask_at. destruct sx; [destruct sy|apply H].
  - pose proof (H (2 * y) (2 * x)). pose proof (H (2 * y) (2 * x + 1)). pose proof (H (2 * y + 1) (2 * x)). pose proof (H (2 * y + 1) (2 * x + 1)).
    unfold Spec.Round2. cbn [Z.eqb]. change (2 ^ (2 - 1)) with 2. change (2 ^ 2) with 4. lia.
  - pose proof (H y (2 * x)). pose proof (H y (2 * x + 1)). unfold Spec.Round2. cbn [Z.eqb]. change (2 ^ (1 - 1)) with 1. change (2 ^ 1) with 2. lia.
Qed.
Lemma ii_blend_ok : forall m bd rows stride y0 x0 l bs t tmp w h (d : plane) M I P, depth bd -> 1 <= w -> 1 <= h -> 0 <= y0 -> y0 + h <= rows -> 0 <= x0 -> x0 + w <= stride ->
  (forall y x, 0 <= y < h -> 0 <= x < w -> ii_mask m l bs t (y * w + x) = Ok (M y x) /\ 0 <= M y x <= 64) ->
  (forall y x, 0 <= y < h -> 0 <= x < w -> (d (y0 + y) (x0 + x) = Some (P y x) /\ pixel bd (P y x)) /\ (tmp y x = Ok (I y x) /\ pixel bd (I y x))) ->
  exists d', interintra_blend m bd rows stride y0 x0 l bs t tmp w h d = Ok d' /\ filled d d' w h y0 x0 (fun y x => ObmcSpec.interintra (M y x) (I y x) (P y x)).
Proof.
  intros m bd rows stride y0 x0 l bs t tmp w h d M I P D Hw Hh H1 H2 H3 H4 HM HG. unfold interintra_blend.
  destruct (blend_c_ok bd rows stride y0 x0 tmp P I D w h H1 H2 H3 H4 (ii_mask m l bs t) M d Hh ltac:(lia) HG HM) as (d' & E & A & B).
  exists d'. split; [exact E|]. split; [|exact B]. intros y x Hy Hx. rewrite (A y x Hy Hx). f_equal. unfold mix, ObmcSpec.interintra. f_equal. ring.
Qed.

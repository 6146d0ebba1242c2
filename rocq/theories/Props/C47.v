(** C47: the wedge and inter-intra masks. The table that dav1d_init_ii_wedge_masks() builds from its templates, code books
    and sign words holds the masks of the AV1 specification, for every block size, plane subsampling and mask number. *)
From Coq Require Import ZArith List Bool Lia.
From Verif Require Import Base.CInt Base.Loop Cdef.Block Mc.Model Mc.Kernel Mc.Blocks Mc.Whole Mc.Compound.
From Verif Require Import Mc.MaskModel Mc.MaskInit Mc.MaskProps.
From Verif Require Mc.Spec Mc.MaskSpec Props.C46.
Import ListNotations.
Open Scope Z_scope.
Local Open Scope outcome_scope.

(** No index is out of bounds and no value is cut off on the way to the table. *)
Theorem C47_init : exists m, init_ii_wedge_masks = Ok m.
Proof. destruct init_ok as (m & E & _). exists m. exact E. Qed.
Print Assumptions C47_init.

(** The mask of luma is the one of the first sign: the second prediction takes the place of the first for the other. *)
Theorem C47_wedge_luma : forall m w h bs s idx y x, init_ii_wedge_masks = Ok m -> In (w, h, bs) wedge_sizes -> 0 <= idx < 16 ->
  0 <= y < h -> 0 <= x < w -> wedge_mask m 0 bs (b2z s) idx (y * w + x) = Ok (MaskSpec.WedgeMasks w h false idx y x).
Proof.
  intros m w h bs s idx y x E I Hi Hy Hx. destruct init_ok as (m' & E' & G & _). rewrite E' in E. injection E as <-.
  pose proof (wedge_mask_ok m' G w h bs 0 s idx y x I ltac:(lia) Hi) as A. change (lsx 0) with 0 in A. change (lsy 0) with 0 in A. rewrite Z.pow_0_r, !Z.div_1_r in A.
  exact (A Hy Hx).
Qed.
Print Assumptions C47_wedge_luma.

(** The mask of the chroma planes is that of 7.11.3.14: the averages of the wedge mask of the sign, rounded. *)
Theorem C47_wedge_chroma : forall m w h bs (s : bool) idx layout y x, init_ii_wedge_masks = Ok m -> In (w, h, bs) wedge_sizes -> 0 <= idx < 16 -> 1 <= layout <= 3 ->
  let pw := w / 2 ^ Spec.subX layout 1 in let ph := h / 2 ^ Spec.subY layout 1 in
  0 <= y < ph -> 0 <= x < pw ->
  wedge_mask m (layout_idx layout) bs (b2z s) idx (y * pw + x) =
    Ok (let v := Spec.mask_at (MaskSpec.WedgeMasks w h s idx) (Spec.subX layout 1 =? 1) (Spec.subY layout 1 =? 1) y x in if s then 64 - v else v).
Proof.
  intros m w h bs s idx layout y x E I Hi HL pw ph Hy Hx. destruct init_ok as (m' & E' & G & _). rewrite E' in E. injection E as <-.
  pose proof (wedge_mask_ok m' G w h bs (layout_idx layout) s idx y x I) as A. unfold pw, ph in *. clear pw ph.
  assert (HI : 0 <= layout_idx layout < 3 /\ lsx (layout_idx layout) = Spec.subX layout 1 /\ lsy (layout_idx layout) = Spec.subY layout 1 /\
    (layout_idx layout = 0 -> Spec.subX layout 1 = 0)).
  { clear - HL. assert (CL : layout = 1 \/ layout = 2 \/ layout = 3) by lia. destruct CL as [->|[->| ->]]; (split; [unfold layout_idx; cbn [Z.eqb Pos.eqb]; lia|]); (split; [reflexivity|]); (split; [reflexivity|]); intros Q; first [reflexivity|discriminate Q]. }
  destruct HI as (HI & LX & LY & L0). rewrite LX, LY in A. rewrite (A HI Hi Hy Hx). destruct (Z.eqb_spec (layout_idx layout) 0) as [Z0|]; [|reflexivity].
  rewrite (L0 Z0). cbn [Z.eqb Spec.mask_at]. destruct s; [|reflexivity]. rewrite wedge_compl. f_equal. symmetry. apply compl2.
Qed.
Print Assumptions C47_wedge_chroma.

(** The masks of an inter-intra block of the plane size pw x ph: 7.11.3.13, or the wedge of the first sign. *)
Theorem C47_interintra : forall m w h bs l mode y x, init_ii_wedge_masks = Ok m -> In (w, h, bs) ii_sizes -> 0 <= l < 3 -> 0 <= mode < 4 ->
  let pw := w / 2 ^ lsx l in let ph := h / 2 ^ lsy l in
  0 <= y < ph -> 0 <= x < pw ->
  ii_mask m l bs (INTER_INTRA_BLEND mode) (y * pw + x) = Ok (MaskSpec.intra_variant_mask pw ph (mode_of mode) y x).
Proof.
  intros m w h bs l mode y x E I Hl Hm pw ph Hy Hx. destruct init_ok as (m' & E' & _ & G). rewrite E' in E. injection E as <-.
  exact (ii_mask_ok m' G w h bs l mode y x I Hl Hm Hy Hx).
Qed.
Print Assumptions C47_interintra.
Theorem C47_interintra_wedge : forall m w h bs l idx y x, init_ii_wedge_masks = Ok m -> In (w, h, bs) ii_sizes -> 0 <= l < 3 -> 0 <= idx < 16 ->
  let pw := w / 2 ^ lsx l in let ph := h / 2 ^ lsy l in
  0 <= y < ph -> 0 <= x < pw ->
  ii_mask m l bs (INTER_INTRA_WEDGE idx) (y * pw + x) = Ok (Spec.mask_at (MaskSpec.WedgeMasks w h false idx) (lsx l =? 1) (lsy l =? 1) y x).
Proof.
  intros m w h bs l idx y x E I Hl Hi pw ph Hy Hx. destruct init_ok as (m' & E' & G & _). rewrite E' in E. injection E as <-.
  assert (I' : In (w, h, bs) wedge_sizes) by (cbn [ii_sizes wedge_sizes In] in *; tauto).
  pose proof (wedge_mask_ok m' G w h bs l false idx y x I' Hl Hi Hy Hx) as A. cbn [b2z] in A. unfold wedge_mask in A. unfold ii_mask, pw. rewrite A. f_equal.
  unfold lsx, lsy, plane_mask. destruct (Z.eqb_spec l 0) as [->|]; reflexivity.
Qed.
Print Assumptions C47_interintra_wedge.

(** A wedge compound block of these sizes, with the masks that the decoder uses: 7.11.3.1 with the masks of 7.11.3.11.
    [C46_compound_luma] and [C46_compound_chroma] without a hypothesis about the masks. *)
Definition table_wedge (m : masks) (w bs idx l s y x : Z) : outcome Z := wedge_mask m l bs s idx (y * (w / 2 ^ lsx l) + x).
Theorem C47_compound_wedge : forall k (s : bool) layout bd S f0 f1 m w h bs idx d rows stride y0 x0,
  init_ii_wedge_masks = Ok m -> In (w, h, bs) wedge_sizes -> 0 <= idx < 16 -> k_bw4 k * 4 = w -> k_bh4 k * 4 = h ->
  (forall l s y x, k_wedge k l s y x = table_wedge m w bs idx l s y x) ->
  comp_ok k layout bd f0 f1 -> refs_ok k S 0 -> 0 <= y0 -> y0 + h <= rows -> 0 <= x0 -> x0 + w <= stride ->
  let wedge := fun s => MaskSpec.WedgeMasks w h s idx in
  exists d' mask, comp_luma k (COMP_WEDGE s) (st_px rows stride y0 x0) d = Ok (d', mask) /\
    (forall r c, 0 <= r < h -> 0 <= c < w -> d' (y0 + r) (x0 + c) = Some (Spec.compound bd layout (Spec.COMPOUND_WEDGE s) (two k S f0 f1) wedge 0 r c)) /\
    (forall Y X, ~ (y0 <= Y < y0 + h /\ x0 <= X < x0 + w) -> d' Y X = d Y X) /\
    forall pl e rows stride y0 x0, layout <> 0 -> pl = 1 \/ pl = 2 -> refs_ok k S pl ->
      let pw := w / 2 ^ Spec.subX layout pl in let ph := h / 2 ^ Spec.subY layout pl in
      0 <= y0 -> y0 + ph <= rows -> 0 <= x0 -> x0 + pw <= stride ->
      exists e', comp_chroma k (COMP_WEDGE s) pl mask (st_px rows stride y0 x0) e = Ok e' /\
        (forall r c, 0 <= r < ph -> 0 <= c < pw -> e' (y0 + r) (x0 + c) = Some (Spec.compound bd layout (Spec.COMPOUND_WEDGE s) (two k S f0 f1) wedge pl r c)) /\
        (forall Y X, ~ (y0 <= Y < y0 + ph /\ x0 <= X < x0 + pw) -> e' Y X = e Y X).
Proof.
  intros k s layout bd S f0 f1 m w h bs idx d rows stride y0 x0 E I Hi Ew Eh KW CO RO B1 B2 B3 B4 wedge. subst w h. pose proof (co_layout_r _ _ _ _ _ CO) as LR.
  assert (WO : wedge_ok k (COMP_WEDGE s) layout wedge).
  { split; [|split].
    - intros y x. apply wedge_compl.
    - intros y x Hy Hx. unfold bh, bw in Hy, Hx. change (Spec.subX layout 0) with 0 in Hx. change (Spec.subY layout 0) with 0 in Hy. rewrite Z.pow_0_r, Z.div_1_r in Hx, Hy.
      rewrite KW. unfold table_wedge. change (lsx 0) with 0. rewrite Z.pow_0_r, Z.div_1_r. apply (C47_wedge_luma m _ _ bs false idx y x E I Hi Hy Hx).
    - intros NZ y x Hy Hx. rewrite KW. unfold table_wedge.
      assert (LS : lsx (layout_idx layout) = Spec.subX layout 1) by (assert (CL : layout = 1 \/ layout = 2 \/ layout = 3) by lia; destruct CL as [->|[->| ->]]; reflexivity).
      rewrite LS. apply (C47_wedge_chroma m _ _ bs s idx layout y x E I Hi ltac:(lia) Hy Hx). }
  destruct (C46.C46_compound_luma k (COMP_WEDGE s) layout bd S wedge f0 f1 d rows stride y0 x0 CO WO RO B1 B2 B3 B4) as (d' & mask & A1 & A2 & A3 & A4).
  exists d', mask. split; [exact A1|]. split; [exact A2|]. split; [exact A3|]. intros pl e rows' stride' y0' x0' NZ Hpl RO' pw ph D1 D2 D3 D4.
  exact (C46.C46_compound_chroma k (COMP_WEDGE s) layout bd S wedge f0 f1 e rows' stride' y0' x0' pl mask CO WO RO' NZ Hpl A4 D1 D2 D3 D4).
Qed.
Print Assumptions C47_compound_wedge.

(** * Some of the values *)
Example wedge_values : In (8, 8, BS_8x8) wedge_sizes /\
  map (fun x => MaskSpec.WedgeMasks 8 8 false 0 3 x) [0; 1; 2; 3; 4; 5; 6; 7] = [60; 58; 53; 46; 37; 27; 18; 11] /\
  map (fun x => MaskSpec.WedgeMasks 8 8 true 0 3 x) [0; 1; 2; 3; 4; 5; 6; 7] = [4; 6; 11; 18; 27; 37; 46; 53].
Proof. split; [cbn; tauto|]. split; vm_compute; reflexivity. Qed.
Example ii_values : In (16, 8, BS_16x8) ii_sizes /\
  map (MaskSpec.intra_variant_mask 8 4 MaskSpec.II_V_PRED 3) [0; 7] = [11; 11] /\ map (MaskSpec.intra_variant_mask 8 4 MaskSpec.II_SMOOTH_PRED 3) [0; 1; 2; 3; 4] = [60; 34; 19; 11; 11].
Proof. split; [cbn; tauto|]. split; vm_compute; reflexivity. Qed.

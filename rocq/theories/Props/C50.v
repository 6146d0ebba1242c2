(** C50: warped prediction. The samples that warp_affine predicts are those of the block warp process of the AV1
    specification (7.11.3.5), and a block is warped, with the model of the block or of the frame, exactly if 7.11.3.1 says
    so, for luma and chroma, for one reference and for two. *)
From Coq Require Import ZArith List Bool Lia.
From Verif Require Import Base.CInt Base.Loop Cdef.Block Mc.Model Mc.Kernel Mc.Blocks Mc.Whole Mc.Compound Warp.Model Warp.Shear Warp.BlockModel Warp.Block Warp.Choice.
From Verif Require Mc.Spec Warp.Spec Warp.BlockSpec Warp.Samples.
Import ListNotations.
Open Scope Z_scope.
Local Open Scope outcome_scope.

(** A warped block: [S] are the samples of the plane of the reference frame; nothing outside of it is read, and nothing
    outside of the block is written. No intermediate value overflows. *)
Theorem C50_warp : forall f d rows stride y0 x0 bw4 bh4 bx by_ pl refdata S mat sh,
  let sx := Mc.Spec.subX (m_layout f) pl in let sy := Mc.Spec.subY (m_layout f) pl in
  let x := bx * 4 / 2 ^ sx in let y := by_ * 4 / 2 ^ sy in let w := bw4 * 4 / 2 ^ sx in let h := bh4 * 4 / 2 ^ sy in
  let p := {| Spec.P0 := m0 mat; Spec.P1 := m1 mat; Spec.P2 := m2 mat; Spec.P3 := m3 mat; Spec.P4 := m4 mat; Spec.P5 := m5 mat |} in
  frame_ok f -> 1 <= bw4 <= 32 -> 1 <= bh4 <= 32 -> w mod 8 = 0 -> h mod 8 = 0 -> 0 <= bx < 2 ^ 15 -> 0 <= by_ < 2 ^ 15 ->
  mat_range mat -> trans_range mat -> Spec.warpValid (Spec.setup_shear p) = true -> shear_eq sh (Spec.setup_shear p) -> ref_ok f pl refdata S ->
  0 <= y0 -> y0 + h <= rows -> 0 <= x0 -> x0 + w <= stride ->
  exists d', warp_affine (m_bd f) (m_layout f) (m_rw f) (m_rh f) true (st_px rows stride y0 x0) d bw4 bh4 bx by_ pl refdata mat sh = Ok d' /\
    (forall r c, 0 <= r < h -> 0 <= c < w -> d' (y0 + r) (x0 + c) =
      Some (Mc.Spec.single (m_bd f) (BlockSpec.block_warp (m_bd f) false S (m_rw f) (m_rh f) sx sy x y p r c))) /\
    (forall Y X, ~ (y0 <= Y < y0 + h /\ x0 <= X < x0 + w) -> d' Y X = d Y X).
Proof.
  intros f d rows stride y0 x0 bw4 bh4 bx by_ pl refdata S mat sh sx sy x y w h p FO Hw Hh Mw Mh Hx Hy MR TR V SE HR B1 B2 B3 B4.
  exact (warp_at f true (st_px rows stride y0 x0) d y0 x0 bw4 bh4 bx by_ pl refdata S mat sh FO Hw Hh Mw Mh Hx Hy MR TR V SE
    (st_px_ok rows stride y0 x0 w h (fun _ => True) B1 B2 B3 B4) HR).
Qed.
Print Assumptions C50_warp.

(** One prediction of a block of any size, warped or not. [motion_ok] says that the model and the specification are given
    the same motion, that its parameters are in the range of those read from the bitstream, and that a block with a warp
    of its own does not use the one of the frame (src/decode.c:1776-1780). *)
Theorem C50_single : forall f mo b d rows stride y0 x0 bw4 bh4 bx by_ pl mvx mvy refdata S f0 f1 filter_2d,
  let sx := Mc.Spec.subX (m_layout f) pl in let sy := Mc.Spec.subY (m_layout f) pl in
  let x := 4 * (bx / 2 ^ sx) in let y := 4 * (by_ / 2 ^ sy) in let w := 4 * Z.max 1 (bw4 / 2 ^ sx) in let h := 4 * Z.max 1 (bh4 / 2 ^ sy) in
  frame_ok f -> m_same f = false -> size_ok f -> motion_ok mo b ->
  size bw4 /\ 0 <= bx < 2 ^ 15 /\ (bw4 = 1 \/ bx mod 2 = 0) -> size bh4 /\ 0 <= by_ < 2 ^ 15 /\ (bh4 = 1 \/ by_ mod 2 = 0) ->
  int16 mvx -> int16 mvy -> filter_ok f0 f1 filter_2d -> ref_ok f pl refdata S ->
  0 <= y0 -> y0 + h <= rows -> 0 <= x0 -> x0 + w <= stride ->
  exists d', pred_single f mo (st_px rows stride y0 x0) d bw4 bh4 bx by_ pl mvx mvy refdata filter_2d = Ok d' /\
    (forall r c, 0 <= r < h -> 0 <= c < w -> d' (y0 + r) (x0 + c) =
      Some (Mc.Spec.single (m_bd f) (BlockSpec.block_pred (m_bd f) false S (m_rw f) (m_rh f) (m_w f) (m_h f) sx sy x y w h mvy mvx f0 f1 b r c))) /\
    (forall Y X, ~ (y0 <= Y < y0 + h /\ x0 <= X < x0 + w) -> d' Y X = d Y X).
Proof.
  intros f mo b d rows stride y0 x0 bw4 bh4 bx by_ pl mvx mvy refdata S f0 f1 filter_2d sx sy x y w h FO NS SO MO BW BH MX MY HF HR B1 B2 B3 B4.
  exact (pred_single_ok f mo b (st_px rows stride y0 x0) d y0 x0 bw4 bh4 bx by_ pl mvx mvy refdata S f0 f1 filter_2d FO NS SO MO BW BH MX MY HF HR
    (st_px_ok rows stride y0 x0 w h (fun _ => True) B1 B2 B3 B4)).
Qed.
Print Assumptions C50_single.

(** The warp that derive_warpmv finds is what [motion_ok] asks of a block with a warp of its own. *)
Theorem C50_local : forall k mi avail have_top have_left bx by_ MiRows MiCols bw4 bh4 ref mvx mvy,
  Samples.nbhd k mi avail have_top have_left bx by_ MiRows MiCols bw4 bh4 -> -32768 <= mvx <= 32767 -> -32768 <= mvy <= 32767 ->
  forall m0 m1, find_matching_ref k bw4 bh4 (Z.min bw4 (MiCols - bx)) (Z.min bh4 (MiRows - by_)) have_left have_top ref = Ok (m0, m1) -> Z.lor m0 m1 <> 0 ->
  exists w, derive_warpmv k bw4 bh4 m0 m1 mvx mvy = Ok w /\
    local_ok w (option_map fst (Spec.local_warp (Spec.warp_estimation by_ bx bw4 bh4 mvy mvx (Spec.warp_samples mi avail have_top have_left by_ bx MiRows MiCols bw4 bh4 (ref + 1) mvy mvx)))).
Proof. exact local_link. Qed.
Print Assumptions C50_local.

(** Compound blocks: either prediction may be warped with the global motion of its reference; [both] is the prediction
    of the specification, and the rest is as in C46. *)
Section Compound.
Variables (k : comp_in) (mo : bool -> motion) (b : bool -> BlockSpec.block_motion) (ct : comp_type) (layout bd : Z) (S : bool -> Z -> Z -> Z -> Z) (wedge : bool -> Z -> Z -> Z) (f0 f1 : Z).
Hypothesis CO : comp_ok k layout bd f0 f1.
Hypothesis SO : forall i, size_ok (k_f k i).
Hypothesis MO : forall i, motion_ok (mo i) (b i) /\ mo_local (mo i) = None.
Hypothesis BW : size (k_bw4 k) /\ 2 <= k_bw4 k.
Hypothesis BH : size (k_bh4 k) /\ 2 <= k_bh4 k.
Hypothesis WO : wedge_ok k ct layout wedge.
Theorem C50_compound_luma : forall d rows stride y0 x0, refs_ok k S 0 ->
  let w := k_bw4 k * 4 in let h := k_bh4 k * 4 in
  0 <= y0 -> y0 + h <= rows -> 0 <= x0 -> x0 + w <= stride ->
  exists d' mask, comp_luma_of k ct (pred_tmp k mo) (st_px rows stride y0 x0) d = Ok (d', mask) /\
    (forall r c, 0 <= r < h -> 0 <= c < w -> d' (y0 + r) (x0 + c) = Some (Mc.Spec.compound bd layout (ctype ct) (both k b layout bd S f0 f1) wedge 0 r c)) /\
    (forall Y X, ~ (y0 <= Y < y0 + h /\ x0 <= X < x0 + w) -> d' Y X = d Y X) /\
    mask_good_of k ct layout bd wedge (both k b layout bd S f0 f1) mask.
Proof.
  intros d rows stride y0 x0 RO w h B1 B2 B3 B4.
  assert (EW : bw k layout 0 = w) by (unfold bw; change (Mc.Spec.subX layout 0) with 0; apply Z.div_1_r).
  assert (EH : bh k layout 0 = h) by (unfold bh; change (Mc.Spec.subY layout 0) with 0; apply Z.div_1_r).
  destruct (comp_luma_of_ok k ct layout bd S wedge f0 f1 (pred_tmp k mo) (both k b layout bd S f0 f1) CO WO (st_px rows stride y0 x0) d y0 x0
    (pred_tmp_ok k mo b layout bd S f0 f1 CO SO MO BW BH 0 RO)) as (d' & mask & E & (A & B) & M).
  - rewrite EW, EH. apply st_px_ok; assumption.
  - rewrite EW, EH in A, B. exists d', mask. split; [exact E|]. split; [exact A|]. split; [exact B|exact M].
Qed.
Theorem C50_compound_chroma : forall d rows stride y0 x0 pl mask, refs_ok k S pl -> layout <> 0 -> pl = 1 \/ pl = 2 ->
  mask_good_of k ct layout bd wedge (both k b layout bd S f0 f1) mask ->
  let w := k_bw4 k * 4 / 2 ^ Mc.Spec.subX layout pl in let h := k_bh4 k * 4 / 2 ^ Mc.Spec.subY layout pl in
  0 <= y0 -> y0 + h <= rows -> 0 <= x0 -> x0 + w <= stride ->
  exists d', comp_chroma_of k ct (pred_tmp k mo) pl mask (st_px rows stride y0 x0) d = Ok d' /\
    (forall r c, 0 <= r < h -> 0 <= c < w -> d' (y0 + r) (x0 + c) = Some (Mc.Spec.compound bd layout (ctype ct) (both k b layout bd S f0 f1) wedge pl r c)) /\
    (forall Y X, ~ (y0 <= Y < y0 + h /\ x0 <= X < x0 + w) -> d' Y X = d Y X).
Proof.
  intros d rows stride y0 x0 pl mask RO NZ Hpl MG w h B1 B2 B3 B4.
  exact (comp_chroma_of_ok k ct layout bd S wedge f0 f1 (pred_tmp k mo) (both k b layout bd S f0 f1) CO (st_px rows stride y0 x0) d y0 x0 pl mask ltac:(lia) NZ MG
    (pred_tmp_ok k mo b layout bd S f0 f1 CO SO MO BW BH pl RO) (st_px_ok rows stride y0 x0 w h (fun _ => True) B1 B2 B3 B4)).
Qed.
End Compound.
Print Assumptions C50_compound_luma.
Print Assumptions C50_compound_chroma.

(** * Examples: the hypotheses can be met, and the model computes *)
Definition ramp (r c : Z) : Z := (37 * r + 11 * c + r * c) mod 256.
Definition ramp_ref (r c : Z) : outcome Z := if (0 <=? r) && (r <? 16) && (0 <=? c) && (c <? 16) then Ok (ramp r c) else Undef.
Definition small : mc_in := {| m_bd := 8; m_layout := 1; m_w := 16; m_h := 16; m_bw := 4; m_bh := 4; m_rw := 16; m_rh := 16; m_same := false;
  m_scale_x := 0; m_step_x := 0; m_scale_y := 0; m_step_y := 0 |}.
Definition ex_mat : matrix := {| m0 := 70000; m1 := -30000; m2 := 66000; m3 := -500; m4 := 900; m5 := 65000 |}.
Definition ex_mo : motion := {| mo_global := true; mo_gm_type := 3; mo_gm := ex_mat; mo_int := false; mo_local := None |}.
Definition ex_b : BlockSpec.block_motion := {| BlockSpec.force_integer_mv := false; BlockSpec.globalMode := true; BlockSpec.GmType := 3; BlockSpec.gm_params := to_spec ex_mat; BlockSpec.localWarp := false; BlockSpec.LocalWarpParams := None |}.
Example C50_ex_motion : motion_ok ex_mo ex_b /\ size_ok small /\ frame_ok small.
Proof.
  split; [|split].
  - constructor; try reflexivity. split; [unfold mat_range|unfold trans_range]; cbn; lia.
  - constructor; cbn; lia.
  - constructor; cbn; try lia. left. reflexivity.
Qed.
Example C50_ex_put : (let! d := pred_single small ex_mo (st_px 8 8 0 0) plane0 2 2 2 0 0 3 5 ramp_ref 8 in rd2 8 8 d 5 3)
  = Ok (Mc.Spec.single 8 (BlockSpec.block_pred 8 false ramp 16 16 16 16 0 0 8 0 8 8 5 3 2 1 ex_b 5 3))
  /\ BlockSpec.warp_params 8 8 false ex_b = Some (to_spec ex_mat).
Proof. vm_compute. split; reflexivity. Qed.

(** * Frames of 32768 samples and more *)
(** [size_ok] is needed: dav1d takes a reference for scaled if its size differs, the specification if the factor
    differs from 1 after rounding. A wide frame and a reference that is one sample narrower, both accepted, are not
    scaled for the specification, and a block that it warps with the global motion is not warped by dav1d. *)
Definition wide : mc_in := {| m_bd := 8; m_layout := 1; m_w := 65536; m_h := 16; m_bw := 16384; m_bh := 4; m_rw := 65535; m_rh := 16; m_same := false;
  m_scale_x := 16384; m_step_x := 1024; m_scale_y := 16384; m_step_y := 1024 |}.
Theorem C50_wide_refuted : frame_ok wide /\ m_w wide <= 16 * m_rw wide /\ motion_ok ex_mo ex_b /\
  BlockSpec.warp_params 8 8 (BlockSpec.is_scaled (m_rw wide) (m_rh wide) (m_w wide) (m_h wide)) ex_b = Some (to_spec ex_mat) /\
  (exists sh, gmv_warp_allowed wide ex_mo = Ok (false, sh)) /\
  forall st d bw4 bh4 bx by_ mvx mvy refdata filter_2d,
    pred_single wide ex_mo st d bw4 bh4 bx by_ 0 mvx mvy refdata filter_2d =
    mc wide true st d (Z.shiftl bw4 (b2z (bw4 =? 0))) (Z.shiftl bh4 (b2z (bh4 =? 0))) (Z.land bx (Z.lnot 0)) (Z.land by_ (Z.lnot 0)) 0 mvx mvy refdata filter_2d.
Proof.
  assert (G : exists sh, gmv_warp_allowed wide ex_mo = Ok (false, sh)) by (eexists; vm_compute; reflexivity).
  split; [constructor; cbn; try lia; [left; reflexivity|intros _; split; reflexivity|intros _; split; reflexivity]|].
  split; [cbn; lia|]. split; [exact (proj1 C50_ex_motion)|]. split; [vm_compute; reflexivity|]. split; [exact G|].
  intros st d bw4 bh4 bx by_ mvx mvy refdata filter_2d. destruct G as (sh & G). unfold pred_single. rewrite G. cbn [obind mo_local mo_global ex_mo andb orb]. rewrite andb_false_r. reflexivity.
Qed.
Print Assumptions C50_wide_refuted.

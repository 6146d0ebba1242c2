(** C49: local warped motion. The samples found in the neighbourhood of a block, the model that is fitted to them and its
    shear are those of 7.10.4, 7.11.3.8 and 7.11.3.6 of the AV1 specification, and nothing overflows on the way. *)
From Coq Require Import ZArith List Bool Lia.
From Verif Require Import Base.CInt Base.Loop Mc.ObmcModel Warp.Model Warp.Shear Warp.Samples Warp.Final.
From Verif Require Warp.Spec.
Import ListNotations.
Open Scope Z_scope.
Local Open Scope outcome_scope.

(** The divisor table is 2^22 / (256 + i), rounded; every divisor is resolved as in 7.11.3.7. *)
Theorem C49_divisor : forall d, d <> 0 -> exists y, resolve_divisor (Z.abs d) = Ok (y, fst (Spec.resolve_divisor d)) /\ snd (Spec.resolve_divisor d) = Z.sgn d * y.
Proof.
  intros d D. destruct (resolve_ok d ltac:(lia)) as (y & E & Y & _). exists y. split; [exact E|]. rewrite Y. unfold apply_sign. destruct (Z.ltb_spec d 0); [rewrite Z.sgn_neg by lia|rewrite Z.sgn_pos by lia]; lia.
Qed.
Print Assumptions C49_divisor.

(** The shear parameters of a model in the range of global and local motion, and whether it can be used. *)
Theorem C49_shear : forall m, 65536 - 8192 <= m2 m <= 65536 + 8192 -> -8192 <= m3 m <= 8192 -> -8192 <= m4 m <= 8192 -> 65536 - 8192 <= m5 m <= 65536 + 8192 ->
  let t := Spec.setup_shear {| Spec.P0 := m0 m; Spec.P1 := m1 m; Spec.P2 := m2 m; Spec.P3 := m3 m; Spec.P4 := m4 m; Spec.P5 := m5 m |} in
  exists sh, get_shear_params m = Ok (negb (Spec.warpValid t), Some sh) /\
    (Spec.warpValid t = true -> sh_alpha sh = Spec.alpha t /\ sh_beta sh = Spec.beta t /\ sh_gamma sh = Spec.gamma t /\ sh_delta sh = Spec.delta t).
Proof. intros m A B C D. exact (shear_ok m (conj A (conj B (conj C D)))). Qed.
Print Assumptions C49_shear.

(** The blocks that refer to the same frame as the current one: [mi] is what has been decoded at the units for which
    [avail] holds, and [nbhd] says that t->rt.r[] holds it and that blocks are aligned and do not overlap. The masks are
    not empty exactly if the specification finds samples. *)
Section Local.
Variables (k : warp_in) (mi : Z -> Z -> Spec.mode_info) (avail : Z -> Z -> bool) (have_top have_left : bool).
Variables (bx by_ MiRows MiCols bw4 bh4 ref mvx mvy : Z).
Hypothesis NB : nbhd k mi avail have_top have_left bx by_ MiRows MiCols bw4 bh4.
Hypothesis MVX : -32768 <= mvx <= 32767.
Hypothesis MVY : -32768 <= mvy <= 32767.
Definition found := Spec.warp_samples mi avail have_top have_left by_ bx MiRows MiCols bw4 bh4 (ref + 1) mvy mvx.
Theorem C49_samples : exists m0 m1, find_matching_ref k bw4 bh4 (Z.min bw4 (MiCols - bx)) (Z.min bh4 (MiRows - by_)) have_left have_top ref = Ok (m0, m1) /\
  0 <= m0 /\ 0 <= m1 /\ (Z.lor m0 m1 <> 0 <-> 0 < Spec.NumSamples found).
Proof. exact (samples_masks _ _ _ _ _ _ _ _ _ _ _ ref mvx mvy NB). Qed.

(** The model that derive_warpmv fits is LocalWarpParams, with its shear; there is none if LocalValid is 0. *)
Theorem C49_local_warp : forall m0 m1, find_matching_ref k bw4 bh4 (Z.min bw4 (MiCols - bx)) (Z.min bh4 (MiRows - by_)) have_left have_top ref = Ok (m0, m1) -> Z.lor m0 m1 <> 0 ->
  exists w, derive_warpmv k bw4 bh4 m0 m1 mvx mvy = Ok w /\ warp_matches w (Spec.local_warp (Spec.warp_estimation by_ bx bw4 bh4 mvy mvx found)).
Proof. intros m0 m1 E N. destruct (local_warp_ok _ _ _ _ _ _ _ _ _ _ _ ref mvx mvy NB MVX MVY m0 m1 E N) as (w & A & _ & B). exists w. split; assumption. Qed.

(** With frame threading the second pass recovers it from what the first one kept. *)
Theorem C49_second_pass : forall m0 m1 w, find_matching_ref k bw4 bh4 (Z.min bw4 (MiCols - bx)) (Z.min bh4 (MiRows - by_)) have_left have_top ref = Ok (m0, m1) -> Z.lor m0 m1 <> 0 ->
  derive_warpmv k bw4 bh4 m0 m1 mvx mvy = Ok w -> exists b, store_matrix w = Ok b /\ load_matrix b bw4 bh4 mvx mvy bx by_ = Ok w.
Proof.
  intros m0 m1 w E N D. destruct (local_warp_ok _ _ _ _ _ _ _ _ _ _ _ ref mvx mvy NB MVX MVY m0 m1 E N) as (w' & A & R & B). rewrite D in A. injection A as <-.
  destruct (nb_bx _ _ _ _ _ _ _ _ _ _ _ NB) as (_ & BX & _). destruct (nb_by _ _ _ _ _ _ _ _ _ _ _ NB) as (_ & BY & _). destruct (nb_bw _ _ _ _ _ _ _ _ _ _ _ NB) as (SB & _). destruct (nb_bh _ _ _ _ _ _ _ _ _ _ _ NB) as (SH & _).
  destruct (nb_dim _ _ _ _ _ _ _ _ _ _ _ NB) as (D1 & D2 & _). apply size_pos in SB. apply size_pos in SH.
  apply (second_pass_ok bw4 bh4 mvx mvy bx by_ found w); try assumption; lia.
Qed.
End Local.
Print Assumptions C49_samples.
Print Assumptions C49_local_warp.
Print Assumptions C49_second_pass.

(** Satisfiability: an 8x8 block among 8x8 blocks whose motion differs. *)
Definition ex_mi (r c : Z) : Spec.mode_info := {| Spec.W4 := 2; Spec.H4 := 2; Spec.Ref0 := 1; Spec.Ref1 := -1; Spec.MvRow := 3 * (r / 2) - c / 2; Spec.MvCol := 5 + 2 * (c / 2) |}.
Definition ex_avail (r c : Z) : bool := (0 <=? r) && (0 <=? c) && (c <? 8) && ((r <? 2) || ((r <? 4) && (c <? 2))).
Definition ex_k : warp_in := {|
  w_r := fun r c => Ok {| rb_bs := 17; rb_ref0 := 1; rb_ref1 := -1; rb_mvx := 5 + 2 * (c / 2); rb_mvy := 3 * ((r - 5) / 2) - c / 2 |};
  w_bx := 2; w_by := 2; w_col_end := 8; w_tr := true |}.
Lemma ex_avail_iff : forall r c, ex_avail r c = true <-> 0 <= r /\ 0 <= c < 8 /\ (r < 2 \/ (r < 4 /\ c < 2)). Proof. intros r c. unfold ex_avail. lia. Qed.
Example C49_ex_nbhd : nbhd ex_k ex_mi ex_avail true true 2 2 8 8 2 2.
Proof.
  constructor.
  - cbn; repeat split; lia.
  - cbn; repeat split; lia.
  - split; [right; left; reflexivity|lia].
  - split; [right; left; reflexivity|lia].
  - cbn; lia.
  - intros _ c C. apply ex_avail_iff. lia.
  - intros _ r R. apply ex_avail_iff. lia.
  - reflexivity.
  - intros _. reflexivity.
  - intros r c R C. destruct (ex_avail r c) eqn:E; [apply ex_avail_iff in E; lia|reflexivity].
  - intros r c r' c' A R C R' C'. cbn [ex_mi Spec.W4 Spec.H4] in R, C. apply ex_avail_iff in A. split; [apply ex_avail_iff; lia|]. unfold ex_mi. rewrite R, C. reflexivity.
  - intros r c A. apply ex_avail_iff in A. lia.
  - intros r c A R. eexists _, _, _. split; [reflexivity|]. split; [reflexivity|]. cbn [rb_ref0 rb_ref1 rb_mvx rb_mvy ex_mi Spec.Ref0 Spec.Ref1 Spec.MvRow Spec.MvCol]. repeat split. unfold ex_k. cbn [w_by]. change (Z.land 2 31) with 2. f_equal. f_equal. f_equal. lia.
  - intros r c A. apply ex_avail_iff in A. cbn [ex_mi Spec.MvRow Spec.MvCol]. lia.
Qed.
Example C49_ex : (let! (m0, m1) := find_matching_ref ex_k 2 2 2 2 true true 0 in let! w := derive_warpmv ex_k 2 2 m0 m1 7 2 in Ok (m0, m1, w)) =
  Ok (2 ^ 32 + 1, 2 ^ 32 + 1, Some ({| m0 := 33683; m1 := -7255; m2 := 67552; m3 := 135; m4 := -975; m5 := 68660 |},
    {| sh_alpha := 2048; sh_beta := 128; sh_gamma := -960; sh_delta := 3136 |})).
Proof. vm_compute. reflexivity. Qed.

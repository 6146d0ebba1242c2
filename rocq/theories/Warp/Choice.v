(** The choice between a warp and a translation. *)
From Coq Require Import ZArith List Bool Lia.
From Verif Require Import Base.CInt Base.Lemmas Base.Loop Cdef.Block Mc.Model Mc.Kernel Mc.Blocks Mc.Whole Mc.Compound Warp.Model Warp.Shear Warp.Solve Warp.Final Warp.BlockModel Warp.Block.
From Verif Require Mc.Spec Warp.Spec Warp.BlockSpec.
Import ListNotations.
Open Scope Z_scope.
Local Open Scope outcome_scope.
Module WS := Warp.Spec.
Module BS := Warp.BlockSpec.

(** What the model and the specification know about the motion of a block *)
Definition shear_eq (sh : shear) (t : WS.shear) : Prop := sh_alpha sh = WS.alpha t /\ sh_beta sh = WS.beta t /\ sh_gamma sh = WS.gamma t /\ sh_delta sh = WS.delta t.
Definition trans_range (m : matrix) : Prop := (-2 ^ 30 <= m0 m <= 2 ^ 30) /\ (-2 ^ 30 <= m1 m <= 2 ^ 30).
Definition local_ok (w : option (matrix * shear)) (p : option WS.params) : Prop :=
  match w, p with
  | None, None => True
  | Some (m, sh), Some p => to_spec m = p /\ mat_range m /\ trans_range m /\ WS.warpValid (WS.setup_shear p) = true /\ shear_eq sh (WS.setup_shear p)
  | _, _ => False
  end.
Record motion_ok (mo : motion) (b : BS.block_motion) : Prop := {
  mk_int : BS.force_integer_mv b = mo_int mo;
  mk_global : BS.globalMode b = mo_global mo;
  mk_type : BS.GmType b = mo_gm_type mo;
  mk_gm : BS.gm_params b = to_spec (mo_gm mo);
  mk_range : mat_range (mo_gm mo) /\ trans_range (mo_gm mo);
  mk_local : match mo_local mo with
    | None => BS.localWarp b = false
    | Some w => BS.localWarp b = true /\ mo_int mo = false /\ ~ (mo_global mo = true /\ 1 < mo_gm_type mo) /\ local_ok w (BS.LocalWarpParams b)
    end }.
Record size_ok (f : mc_in) : Prop := {
  so_w : m_w f < 32768; so_h : m_h f < 32768; so_rw : m_w f <= 16 * m_rw f; so_rh : m_h f <= 16 * m_rh f }.

Lemma scale_one : forall r c, 1 <= c < 32768 -> 1 <= r -> Mc.Spec.xScale r c = 2 ^ 14 <-> r = c.
Proof.
  intros r c Hc Hr. unfold Mc.Spec.xScale. change (2 ^ 14) with 16384. split.
  - intros E. pose proof (Z.div_mod (r * 16384 + c / 2) c ltac:(lia)) as D. rewrite E in D. pose proof (Z.mod_pos_bound (r * 16384 + c / 2) c ltac:(lia)) as M. lia.
  - intros ->. rewrite Z.add_comm, Z.mul_comm, Z.div_add by lia. rewrite Z.div_small by lia. reflexivity.
Qed.
Lemma svc_ok : forall f, frame_ok f -> size_ok f -> exists s, svc_scale f = Ok s /\ (s =? 0) = negb (BS.is_scaled (m_rw f) (m_rh f) (m_w f) (m_h f)).
Proof.
  intros f [D W H RW RH (X2 & Y2) SX SY] [SW SH S16 T16]. unfold svc_scale, BS.is_scaled. cbv zeta.
  pose proof (scale_one (m_rw f) (m_w f) ltac:(lia) ltac:(lia)) as E1. pose proof (scale_one (m_rh f) (m_h f) ltac:(lia) ltac:(lia)) as E2.
  destruct (Z.eqb_spec (m_w f) (m_rw f)) as [K1|K1], (Z.eqb_spec (m_h f) (m_rh f)) as [K2|K2]; cbn [negb orb].
  - exists 0. split; [reflexivity|]. rewrite (proj2 E1), (proj2 E2) by lia. reflexivity.
  - destruct (SX ltac:(lia)) as (E & _). exists (m_scale_x f). split; [exact E|]. destruct (scale_fac_ok (m_rw f) (m_w f) (m_scale_x f) ltac:(lia) ltac:(lia) ltac:(lia) E) as (V & _).
    rewrite (proj2 E1) in V by lia. rewrite V. replace (Mc.Spec.xScale (m_rh f) (m_h f) =? 2 ^ 14) with false by (symmetry; apply Z.eqb_neq; intros C; apply E2 in C; lia). rewrite orb_true_r. reflexivity.
  - destruct (SX ltac:(lia)) as (E & _). exists (m_scale_x f). split; [exact E|]. destruct (scale_fac_ok (m_rw f) (m_w f) (m_scale_x f) ltac:(lia) ltac:(lia) ltac:(lia) E) as (V & _).
    replace (Mc.Spec.xScale (m_rw f) (m_w f) =? 2 ^ 14) with false by (symmetry; apply Z.eqb_neq; intros C; apply E1 in C; lia). cbn [negb orb]. apply Z.eqb_neq. rewrite V.
    unfold Mc.Spec.xScale. change (2 ^ 14) with 16384. assert (1 <= (m_rw f * 16384 + m_w f / 2) / m_w f) by (apply Z.div_le_lower_bound; lia). lia.
  - destruct (SX ltac:(lia)) as (E & _). exists (m_scale_x f). split; [exact E|]. destruct (scale_fac_ok (m_rw f) (m_w f) (m_scale_x f) ltac:(lia) ltac:(lia) ltac:(lia) E) as (V & _).
    replace (Mc.Spec.xScale (m_rw f) (m_w f) =? 2 ^ 14) with false by (symmetry; apply Z.eqb_neq; intros C; apply E1 in C; lia). cbn [negb orb]. apply Z.eqb_neq. rewrite V.
    unfold Mc.Spec.xScale. change (2 ^ 14) with 16384. assert (1 <= (m_rw f * 16384 + m_w f / 2) / m_w f) by (apply Z.div_le_lower_bound; lia). lia.
Qed.
(** gmv_warp_allowed *)
Definition allowed (f : mc_in) (b : BS.block_motion) : bool :=
  (1 <? BS.GmType b) && negb (BS.force_integer_mv b) && negb (BS.is_scaled (m_rw f) (m_rh f) (m_w f) (m_h f)) && WS.warpValid (WS.setup_shear (BS.gm_params b)).
Lemma gmv_ok : forall f mo b, frame_ok f -> size_ok f -> motion_ok mo b -> exists gsh, gmv_warp_allowed f mo = Ok (allowed f b, gsh) /\
  (allowed f b = true -> exists sh, gsh = Some sh /\ shear_eq sh (WS.setup_shear (BS.gm_params b))).
Proof.
  intros f mo b FO SO [K1 K2 K3 K4 (K5 & K5') K6]. destruct (svc_ok f FO SO) as (s & E & SC). unfold gmv_warp_allowed, allowed. rewrite E. cbn [obind]. rewrite SC, K1, K3, K4.
  destruct ((1 <? mo_gm_type mo) && negb (mo_int mo)) eqn:C.
  - destruct (shear_ok (mo_gm mo) K5) as (sh & ES & V). rewrite ES. cbn [obind]. rewrite negb_involutive. exists (Some sh). cbn [andb]. split; [rewrite andb_comm; reflexivity|].
    intros A. apply andb_true_iff in A as (_ & A). exists sh. split; [reflexivity|]. exact (V A).
  - exists None. cbn [andb]. split; [reflexivity|discriminate].
Qed.

(** [warp_affine_ok] with the sizes of the specification *)
Lemma warp_at : forall f put st d y0 x0 bw4 bh4 bx by_ pl refdata S mat sh,
  let sx := Mc.Spec.subX (m_layout f) pl in let sy := Mc.Spec.subY (m_layout f) pl in
  let w := bw4 * 4 / 2 ^ sx in let h := bh4 * 4 / 2 ^ sy in
  frame_ok f -> 1 <= bw4 <= 32 -> 1 <= bh4 <= 32 -> w mod 8 = 0 -> h mod 8 = 0 -> 0 <= bx < 2 ^ 15 -> 0 <= by_ < 2 ^ 15 ->
  mat_range mat -> trans_range mat -> WS.warpValid (WS.setup_shear (to_spec mat)) = true -> shear_eq sh (WS.setup_shear (to_spec mat)) ->
  stores_for w h st y0 x0 put -> ref_ok f pl refdata S ->
  exists d', warp_affine (m_bd f) (m_layout f) (m_rw f) (m_rh f) put st d bw4 bh4 bx by_ pl refdata mat sh = Ok d' /\
    filled d d' w h y0 x0 (fun y x => value (m_bd f) put (BS.block_warp (m_bd f) (negb put) S (m_rw f) (m_rh f) sx sy (bx * 4 / 2 ^ sx) (by_ * 4 / 2 ^ sy) (to_spec mat) y x)).
Proof.
  intros f put st d y0 x0 bw4 bh4 bx by_ pl refdata S mat sh sx sy w h FO Hw Hh Mw Mh Hx Hy MR (T0 & T1) V SE ST HR.
  assert (SX := subX_01 (m_layout f) pl). assert (SY := subY_01 (m_layout f) pl). destruct FO as [D _ _ RW RH _ _ _].
  assert (NX : 0 <= Mc.Spec.subX (m_layout f) pl) by (clear - SX; lia). assert (NY : 0 <= Mc.Spec.subY (m_layout f) pl) by (clear - SY; lia).
  assert (M := warp_affine_ok (m_bd f) (m_layout f) (m_rw f) (m_rh f) put st d y0 x0 bw4 bh4 bx by_ pl refdata S mat sh D). unfold ref_ok in HR.
  rewrite subX_eq, subY_eq in M. fold sx in M, SX, HR, NX. fold sy in M, SY, HR, NY. rewrite (proj1 (size_eq bw4 _ SX)), (proj1 (size_eq bh4 _ SY)), (proj1 (size_eq bx _ SX)), (proj1 (size_eq by_ _ SY)) in M. fold w in M. fold h in M.
  rewrite (Z.shiftr_div_pow2 (m_rw f + sx) sx NX), (Z.shiftr_div_pow2 (m_rh f + sy) sy NY) in M.
  exact (M (conj Hw Mw) (conj Hh Mh) Hx Hy RW RH MR T0 T1 V SE ST HR).
Qed.

(** The block in a plane: a block of four samples shares its chroma with its neighbour *)
Definition size (n : Z) : Prop := n = 1 \/ n = 2 \/ n = 4 \/ n = 8 \/ n = 16 \/ n = 32.
Lemma dims : forall s n b, s = 0 \/ s = 1 -> size n -> 0 <= b < 2 ^ 15 -> n = 1 \/ b mod 2 = 0 ->
  let n' := Z.shiftl n (b2z (n =? s)) in let b' := Z.land b (Z.lnot s) in let W := 4 * Z.max 1 (n / 2 ^ s) in let X := 4 * (b / 2 ^ s) in
  1 <= n' <= 32 /\ 0 <= b' < 2 ^ 15 /\ n' * 4 / 2 ^ s = W /\ b' * 4 / 2 ^ s = X /\ (1 <? Z.shiftr (n + s) s) = negb (W <? 8) /\
  (8 <= W -> n * 4 / 2 ^ s = W /\ W mod 8 = 0 /\ b * 4 / 2 ^ s = X).
Proof.
  intros s n b Hs Hn Hb Ha. cbv zeta. change (2 ^ 15) with 32768 in *.
  assert (L : Z.land b (Z.lnot s) = if s =? 0 then b else 2 * (b / 2)).
  { destruct Hs as [->| ->].
    - change (Z.lnot 0) with (-1). apply Z.land_m1_r.
    - cbn [Z.eqb Pos.eqb]. rewrite <- Z.ldiff_land. change 1 with (Z.ones 1) at 1. rewrite Z.ldiff_ones_r by lia. rewrite Z.shiftl_mul_pow2, Z.shiftr_div_pow2 by lia. change (2 ^ 1) with 2. lia. }
  rewrite L. clear L. destruct Hs as [->| ->]; cbn [Z.eqb Pos.eqb]; [change (2 ^ 0) with 1|change (2 ^ 1) with 2];
    destruct Hn as [->|[->|[->|[->|[->| ->]]]]]; vm_compute (b2z _); cbn [Z.shiftl Z.shiftr Z.add Pos.add Z.mul Pos.mul Z.eqb Pos.eqb]; repeat split; try lia; try (vm_compute; congruence); try (intros K; vm_compute in K; congruence).
Qed.
Lemma mins : forall a b, (1 <? Z.min a b) = (1 <? a) && (1 <? b). Proof. intros. lia. Qed.
Section Single.
Variables (f : mc_in) (mo : motion) (b : BS.block_motion) (st : Z -> Z -> Z -> plane -> outcome plane) (d : plane) (y0 x0 : Z).
Variables (bw4 bh4 bx by_ pl mvx mvy : Z) (refdata : Z -> Z -> outcome Z) (S : Z -> Z -> Z) (f0 f1 filter_2d : Z).
Let sx := Mc.Spec.subX (m_layout f) pl.
Let sy := Mc.Spec.subY (m_layout f) pl.
Let w := 4 * Z.max 1 (bw4 / 2 ^ sx).
Let h := 4 * Z.max 1 (bh4 / 2 ^ sy).
Hypothesis FO : frame_ok f.
Hypothesis NS : m_same f = false.
Hypothesis SO : size_ok f.
Hypothesis MO : motion_ok mo b.
Hypothesis BW : size bw4 /\ 0 <= bx < 2 ^ 15 /\ (bw4 = 1 \/ bx mod 2 = 0).
Hypothesis BH : size bh4 /\ 0 <= by_ < 2 ^ 15 /\ (bh4 = 1 \/ by_ mod 2 = 0).
Hypothesis MX : int16 mvx.
Hypothesis MY : int16 mvy.
Hypothesis HF : filter_ok f0 f1 filter_2d.
Hypothesis HR : ref_ok f pl refdata S.
Hypothesis ST : stores st w h y0 x0 (fun _ => True).
Lemma size_32 : forall n, size n -> 1 <= n <= 32. Proof. intros n [->|[->|[->|[->|[->| ->]]]]]; lia. Qed.
Theorem pred_single_ok : exists d', pred_single f mo st d bw4 bh4 bx by_ pl mvx mvy refdata filter_2d = Ok d' /\
  filled d d' w h y0 x0 (fun r c => Mc.Spec.single (m_bd f) (BS.block_pred (m_bd f) false S (m_rw f) (m_rh f) (m_w f) (m_h f) sx sy (4 * (bx / 2 ^ sx)) (4 * (by_ / 2 ^ sy)) w h mvy mvx f0 f1 b r c)).
Proof.
  destruct BW as (W1 & W2 & W3). destruct BH as (H1 & H2 & H3).
  destruct (dims sx bw4 bx (subX_01 _ _) W1 W2 W3) as (A1 & A2 & A3 & A4 & A5 & A6). destruct (dims sy bh4 by_ (subY_01 _ _) H1 H2 H3) as (B1 & B2 & B3 & B4 & B5 & B6). cbv zeta in *.
  fold w in A3, A5, A6. fold h in B3, B5, B6. unfold pred_single. cbv zeta. rewrite subX_eq, subY_eq. fold sx. fold sy.
  destruct (gmv_ok f mo b FO SO MO) as (gsh & EG & VG). rewrite EG. cbn [obind]. rewrite mins, A5, B5. unfold BS.block_pred, BS.warp_params.
  assert (TR : exists d', mc f true st d (Z.shiftl bw4 (b2z (bw4 =? sx))) (Z.shiftl bh4 (b2z (bh4 =? sy))) (Z.land bx (Z.lnot sx)) (Z.land by_ (Z.lnot sy)) pl mvx mvy refdata filter_2d = Ok d' /\
    filled d d' w h y0 x0 (fun r c => Mc.Spec.single (m_bd f) (Mc.Spec.block_inter (m_bd f) false S (m_rw f) (m_rh f) (m_w f) (m_h f) sx sy (4 * (bx / 2 ^ sx)) (4 * (by_ / 2 ^ sy)) w h mvy mvx f0 f1 r c))).
  { pose proof (mc_at f true st d y0 x0 _ _ (Z.land bx (Z.lnot sx)) (Z.land by_ (Z.lnot sy)) pl mvx mvy refdata S f0 f1 filter_2d A1 B1 HF) as M. cbv zeta in M. unfold at_block in M. cbv zeta in M. fold sx sy in M. rewrite A3, A4, B3, B4 in M. exact (M ST FO NS A2 B2 MX MY HR). }
  assert (WR : forall m sh, 8 <= w -> 8 <= h -> mat_range m -> trans_range m -> WS.warpValid (WS.setup_shear (to_spec m)) = true -> shear_eq sh (WS.setup_shear (to_spec m)) ->
    exists d', warp_affine (m_bd f) (m_layout f) (m_rw f) (m_rh f) true st d bw4 bh4 bx by_ pl refdata m sh = Ok d' /\
    filled d d' w h y0 x0 (fun r c => Mc.Spec.single (m_bd f) (BS.block_warp (m_bd f) false S (m_rw f) (m_rh f) sx sy (4 * (bx / 2 ^ sx)) (4 * (by_ / 2 ^ sy)) (to_spec m) r c))).
  { intros m sh K1 K2 R T V E. destruct (A6 K1) as (A7 & A8 & A9). destruct (B6 K2) as (B7 & B8 & B9).
    pose proof (warp_at f true st d y0 x0 bw4 bh4 bx by_ pl refdata S m sh FO (size_32 _ W1) (size_32 _ H1)) as M. cbv zeta in M. fold sx sy in M. rewrite A7, A9, B7, B9 in M. exact (M A8 B8 W2 H2 R T V E ST HR). }
  destruct MO as [K1 K2 K3 K4 (K5 & K5') K6]. rewrite K1, K2, K3.
  destruct (Z.ltb_spec w 8) as [C1|C1]; cbn [negb andb orb]; [exact TR|]. destruct (Z.ltb_spec h 8) as [C2|C2]; cbn [negb andb orb]; [exact TR|].
  destruct (mo_local mo) as [l|].
  - destruct K6 as (L1 & L2 & L3 & L4). rewrite L1, L2. unfold local_ok in L4.
    assert (NG : mo_global mo && allowed f b = false). { destruct (mo_global mo) eqn:G; [|reflexivity]. unfold allowed. rewrite K3. destruct (Z.ltb_spec 1 (mo_gm_type mo)); [|reflexivity]. exfalso. apply L3. split; [reflexivity|assumption]. }
    assert (NG' : mo_global mo && (1 <? mo_gm_type mo) = false). { destruct (mo_global mo) eqn:G; [|reflexivity]. destruct (Z.ltb_spec 1 (mo_gm_type mo)); [|reflexivity]. exfalso. apply L3. split; [reflexivity|assumption]. }
    rewrite NG. cbn [orb]. destruct l as [(m, sh)|].
    + destruct (BS.LocalWarpParams b) as [p|]; [|contradiction]. destruct L4 as (<- & R & T & V & E). exact (WR m sh C1 C2 R T V E).
    + destruct (BS.LocalWarpParams b) as [p|]; [contradiction|]. rewrite NG'. exact TR.
  - rewrite K6. rewrite orb_false_r. unfold allowed at 1. rewrite K1, K3.
    destruct (mo_int mo) eqn:FI; [cbn [negb andb]; rewrite !andb_false_r; exact TR|]. cbn [negb]. rewrite andb_true_r.
    destruct (mo_global mo && (1 <? mo_gm_type mo) && negb (BS.is_scaled (m_rw f) (m_rh f) (m_w f) (m_h f)) && WS.warpValid (WS.setup_shear (BS.gm_params b))) eqn:C.
    + rewrite !andb_assoc, C. apply andb_true_iff in C as (C & V). apply andb_true_iff in C as (C & N). apply andb_true_iff in C as (G & T).
      destruct VG as (sh & -> & E). { unfold allowed. rewrite K1, K3, T, N, V. reflexivity. }
      unfold warp_global. rewrite K4 in *. exact (WR (mo_gm mo) sh C1 C2 K5 K5' V E).
    + rewrite !andb_assoc, C. exact TR.
Qed.
End Single.

(** Both predictions of a compound block *)
Section Two.
Variables (k : comp_in) (mo : bool -> motion) (b : bool -> BS.block_motion) (layout bd : Z) (S : bool -> Z -> Z -> Z -> Z) (f0 f1 : Z).
Hypothesis OK : comp_ok k layout bd f0 f1.
Hypothesis SO : forall i, size_ok (k_f k i).
Hypothesis MO : forall i, motion_ok (mo i) (b i) /\ mo_local (mo i) = None.
Hypothesis BW : size (k_bw4 k) /\ 2 <= k_bw4 k.
Hypothesis BH : size (k_bh4 k) /\ 2 <= k_bh4 k.
Definition both (i : bool) (pl y x : Z) : Z :=
  let f := k_f k i in let sx := Mc.Spec.subX layout pl in let sy := Mc.Spec.subY layout pl in
  BS.block_pred bd true (S i pl) (m_rw f) (m_rh f) (m_w f) (m_h f) sx sy (k_bx k * 4 / 2 ^ sx) (k_by k * 4 / 2 ^ sy) (bw k layout pl) (bh k layout pl) (k_mvy k i) (k_mvx k i) f0 f1 (b i) y x.
Lemma dims2 : forall s n, s = 0 \/ s = 1 -> size n -> 2 <= n -> (1 <? Z.shiftr (n + s) s) = negb (n * 4 / 2 ^ s <? 8) /\ (8 <= n * 4 / 2 ^ s -> (n * 4 / 2 ^ s) mod 8 = 0) /\ (s = 0 -> 8 <= n * 4 / 2 ^ s).
Proof.
  intros s n [->| ->] [->|[->|[->|[->|[->| ->]]]]] H; try (exfalso; lia); (split; [reflexivity|]); (split; [|try discriminate; intros _; vm_compute; congruence]);
    first [intros _; reflexivity|intros K; exfalso; vm_compute in K; congruence].
Qed.
Theorem pred_tmp_ok : forall pl, refs_ok k S pl -> tmps_ok k layout bd (pred_tmp k mo) both pl.
Proof.
  intros pl HR i. destruct (MO i) as (MOi & ML). pose proof (co_layout _ _ _ _ _ OK i) as EL. pose proof (co_bd _ _ _ _ _ OK i) as EB. pose proof (co_frame _ _ _ _ _ OK i) as FO.
  destruct BW as (W1 & W2). destruct BH as (H1 & H2). pose proof (subX_01 layout pl) as SX. pose proof (subY_01 layout pl) as SY.
  destruct (dims2 _ _ SX W1 W2) as (A1 & A2 & A3). destruct (dims2 _ _ SY H1 H2) as (B1 & B2 & B3).
  fold (bw k layout pl) in A1, A2, A3. fold (bh k layout pl) in B1, B2, B3.
  unfold pred_tmp. cbv zeta. rewrite subX_eq, subY_eq, EL.
  destruct (gmv_ok _ _ _ FO (SO i) MOi) as (gsh & EG & VG). rewrite EG. cbn [obind]. rewrite mins, A1, B1.
  assert (TR : BS.warp_params (bw k layout pl) (bh k layout pl) (BS.is_scaled (m_rw (k_f k i)) (m_rh (k_f k i)) (m_w (k_f k i)) (m_h (k_f k i))) (b i) = None ->
    exists t, comp_tmp k pl i = Ok t /\ forall y x, 0 <= y < bh k layout pl -> 0 <= x < bw k layout pl -> tmp_rd k pl t y x = Ok (both i pl y x - prep_bias bd)).
  { intros E. destruct (comp_tmp_ok k layout bd S f0 f1 OK pl i HR) as (t & ET & AT). exists t. split; [exact ET|]. intros y x Hy Hx. rewrite (AT y x Hy Hx). unfold two, at_block, both, BS.block_pred. cbv zeta. rewrite E, EL, EB. reflexivity. }
  destruct MOi as [K1 K2 K3 K4 (K5 & K5') K6]. rewrite ML in K6.
  assert (PL : (pl =? 0) || negb (bw k layout pl <? 8) && negb (bh k layout pl <? 8) = negb (bw k layout pl <? 8) && negb (bh k layout pl <? 8)).
  { destruct (Z.eqb_spec pl 0) as [->|]; [|reflexivity]. cbn [orb]. specialize (A3 eq_refl). specialize (B3 eq_refl). apply Z.ltb_ge in A3. apply Z.ltb_ge in B3. rewrite A3, B3. reflexivity. }
  rewrite PL. clear PL A1 B1.
  destruct (mo_global (mo i) && (negb (bw k layout pl <? 8) && negb (bh k layout pl <? 8)) && allowed (k_f k i) (b i)) eqn:C.
  - apply andb_true_iff in C as (C & AL). apply andb_true_iff in C as (G & C). apply andb_true_iff in C as (C1 & C2). apply negb_true_iff, Z.ltb_ge in C1. apply negb_true_iff, Z.ltb_ge in C2.
    destruct (VG AL) as (sh & -> & E). unfold warp_global. unfold allowed in AL. apply andb_true_iff in AL as (AL & V). apply andb_true_iff in AL as (AL & N). apply andb_true_iff in AL as (T & FI).
    pose proof (warp_at (k_f k i) false (st_tmp (plane_w k pl) (plane_h k pl)) plane0 0 0 (k_bw4 k) (k_bh4 k) (k_bx k) (k_by k) pl (k_ref k i pl) (S i pl) (mo_gm (mo i)) sh FO (co_w _ _ _ _ _ OK) (co_h _ _ _ _ _ OK)) as M.
    cbv zeta in M. rewrite EL in M. fold (bw k layout pl) in M. fold (bh k layout pl) in M. rewrite K4 in *.
    destruct (M (A2 C1) (B2 C2) (co_x _ _ _ _ _ OK) (co_y _ _ _ _ _ OK) K5 K5' V E) as (t & ET & AT & _).
    + rewrite (plane_w_eq k layout bd f0 f1 OK), (plane_h_eq k layout bd f0 f1 OK). apply st_tmp_ok.
    + exact (HR i).
    + exists t. split; [rewrite EL; exact ET|]. intros y x Hy Hx. unfold tmp_rd. rewrite (plane_w_eq k layout bd f0 f1 OK), (plane_h_eq k layout bd f0 f1 OK). apply rd2_ok; [exact Hy|exact Hx|].
      specialize (AT y x Hy Hx). rewrite !Z.add_0_l in AT. rewrite AT. unfold both, BS.block_pred, BS.warp_params. cbv zeta. apply Z.ltb_ge in C1. apply Z.ltb_ge in C2. rewrite C1, C2, K6, K2, G, T, N. apply negb_true_iff in FI. rewrite FI, K4, V. cbn [orb andb].
      unfold value. cbn [negb]. rewrite EB. reflexivity.
  - apply TR. unfold BS.warp_params. cbv zeta. rewrite K6, K2. unfold allowed in C.
    destruct (bw k layout pl <? 8); [reflexivity|]. destruct (bh k layout pl <? 8); [reflexivity|]. cbn [negb andb orb] in *. destruct (BS.force_integer_mv (b i)); [reflexivity|]. cbn [negb] in C. rewrite !andb_true_r in C. rewrite !andb_assoc in C. rewrite C. reflexivity.
Qed.
End Two.

(** What derive_warpmv returns *)
Lemma local_link : forall k mi avail have_top have_left bx by_ MiRows MiCols bw4 bh4 ref mvx mvy,
  Samples.nbhd k mi avail have_top have_left bx by_ MiRows MiCols bw4 bh4 -> -32768 <= mvx <= 32767 -> -32768 <= mvy <= 32767 ->
  forall m0 m1, find_matching_ref k bw4 bh4 (Z.min bw4 (MiCols - bx)) (Z.min bh4 (MiRows - by_)) have_left have_top ref = Ok (m0, m1) -> Z.lor m0 m1 <> 0 ->
  exists w, derive_warpmv k bw4 bh4 m0 m1 mvx mvy = Ok w /\
    local_ok w (option_map fst (WS.local_warp (WS.warp_estimation by_ bx bw4 bh4 mvy mvx (WS.warp_samples mi avail have_top have_left by_ bx MiRows MiCols bw4 bh4 (ref + 1) mvy mvx)))).
Proof.
  intros k mi avail have_top have_left bx by_ MiRows MiCols bw4 bh4 ref mvx mvy NB MX MY mm0 mm1 E N.
  destruct (local_warp_ok _ _ _ _ _ _ _ _ _ _ _ ref mvx mvy NB MX MY mm0 mm1 E N) as (w & D & R & M). exists w. split; [exact D|].
  unfold WS.local_warp, warp_matches in *. destruct (WS.warp_estimation by_ bx bw4 bh4 mvy mvx _) as [p|] eqn:EP; [|destruct w as [(m, sh)|]; [destruct M|exact I]].
  cbv zeta in *. destruct (WS.warpValid (WS.setup_shear p)) eqn:V; [|destruct w as [(m, sh)|]; [destruct M|exact I]].
  destruct w as [(m, sh)|]; [|destruct M]. destruct M as (EM & SE). destruct R as (R & _). destruct (solve_trans _ _ _ _ _ _ _ _ EP) as (T0 & T1).
  assert (B0 : -8388608 <= m0 m <= 8388607). { rewrite <- EM in T0. cbn [to_spec WS.P0] in T0. rewrite T0. apply clip_range. vm_compute. congruence. }
  assert (B1 : -8388608 <= m1 m <= 8388607). { rewrite <- EM in T1. cbn [to_spec WS.P1] in T1. rewrite T1. apply clip_range. vm_compute. congruence. }
  cbn [option_map fst local_ok]. split; [exact EM|]. split; [exact R|]. split; [unfold trans_range; clear - B0 B1; lia|]. split; [exact V|exact SE].
Qed.

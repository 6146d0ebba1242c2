(** The shear parameters are those of the specification. *)
From Coq Require Import ZArith List Bool Lia.
From Verif Require Import Base.CInt Base.Loop Base.Lemmas Warp.Model.
From Verif Require Warp.Spec.
Import ListNotations.
Open Scope Z_scope.
Local Open Scope outcome_scope.

Lemma ck64_ok : forall v, - 2 ^ 63 <= v < 2 ^ 63 -> ck64 v = Ok v.
Proof. intros. unfold ck64. replace (- 2 ^ 63 <=? v) with true by lia. replace (v <? 2 ^ 63) with true by lia. reflexivity. Qed.
Definition lut_check (i : nat) : bool := match nth_error div_lut i with Some v => (v =? Spec.Div_Lut (Z.of_nat i)) | None => false end.
Lemma lut_all : forallb lut_check (seq 0 257) = true.
Proof. vm_compute. reflexivity. Qed.
Lemma lut_at : forall f, 0 <= f <= 256 -> rd_at div_lut f = Ok (Spec.Div_Lut f).
Proof.
  intros f H. pose proof (proj1 (forallb_forall _ _) lut_all (Z.to_nat f)) as L. rewrite in_seq in L. specialize (L ltac:(lia)).
  unfold lut_check in L. unfold rd_at. destruct (Z.ltb_spec f 0); [lia|]. destruct (nth_error div_lut (Z.to_nat f)); [|discriminate].
  apply Z.eqb_eq in L. rewrite L, Z2Nat.id by lia. reflexivity.
Qed.
Lemma lut_range : forall f, 0 <= f <= 256 -> 8192 <= Spec.Div_Lut f <= 16384.
Proof.
  intros f H. unfold Spec.Div_Lut. change (2 ^ (Spec.DIV_LUT_BITS + Spec.DIV_LUT_PREC_BITS)) with 4194304.
  split; [apply Z.div_le_lower_bound; lia|apply Z.lt_succ_r; apply Z.div_lt_upper_bound; lia].
Qed.
Lemma resolve_ok : forall d, 0 < Z.abs d -> exists y,
  resolve_divisor (Z.abs d) = Ok (y, fst (Spec.resolve_divisor d)) /\ snd (Spec.resolve_divisor d) = apply_sign y d /\
  8192 <= y <= 16384 /\ fst (Spec.resolve_divisor d) = Z.log2 (Z.abs d) + 14.
Proof.
  intros d H. unfold resolve_divisor, Spec.resolve_divisor, ulog2, Spec.Round2, Spec.DIV_LUT_BITS, Spec.DIV_LUT_PREC_BITS.
  replace (0 <? Z.abs d) with true by lia. set (n := Z.log2 (Z.abs d)). cbv zeta.
  pose proof (Z.log2_nonneg (Z.abs d)) as N0. pose proof (Z.log2_spec (Z.abs d) H) as (L & U). fold n in N0, L, U.
  rewrite !Z.shiftl_1_l. rewrite Z.pow_succ_r in U by lia.
  set (f1 := if 8 <? n then Z.shiftr (Z.abs d - 2 ^ n + 2 ^ (n - 9)) (n - 8) else Z.shiftl (Z.abs d - 2 ^ n) (8 - n)).
  set (f2 := if 8 <? n then _ else _ : Z).
  assert (E : f2 = f1 /\ 0 <= f2 <= 256).
  { unfold f1, f2. destruct (Z.ltb_spec 8 n).
    - replace (n - 8 =? 0) with false by lia. rewrite Z.shiftr_div_pow2 by lia. replace (n - 8 - 1) with (n - 9) by lia.
      split; [reflexivity|]. pose proof (Z.pow_pos_nonneg 2 (n - 8) ltac:(lia) ltac:(lia)).
      replace (2 ^ n) with (256 * 2 ^ (n - 8)) in * by (change 256 with (2 ^ 8); rewrite <- Z.pow_add_r by lia; f_equal; lia).
      assert (E9 : 2 ^ (n - 8) = 2 * 2 ^ (n - 9)) by (replace (n - 8) with (Z.succ (n - 9)) by lia; apply Z.pow_succ_r; lia).
      pose proof (Z.pow_pos_nonneg 2 (n - 9) ltac:(lia) ltac:(lia)).
      set (a := 2 ^ (n - 8)) in *. set (b := 2 ^ (n - 9)) in *. clearbody a b. clear - H0 H1 H2 E9 L U.
      split; [apply Z.div_pos; lia|]. apply Z.lt_succ_r. apply Z.div_lt_upper_bound; lia.
    - rewrite Z.shiftl_mul_pow2 by lia. split; [reflexivity|]. pose proof (Z.pow_pos_nonneg 2 (8 - n) ltac:(lia) ltac:(lia)).
      assert (E : 2 ^ n * 2 ^ (8 - n) = 256) by (rewrite <- Z.pow_add_r by lia; replace (n + (8 - n)) with 8 by lia; reflexivity).
      generalize dependent (2 ^ (8 - n)). generalize dependent (2 ^ n). intros. nia. }
  destruct E as (E & F). rewrite <- E. clear E. clearbody f2. replace (f2 <=? 256) with true by lia. rewrite (lut_at _ F). cbn [obind fst snd].
  eexists. split; [reflexivity|]. split; [reflexivity|]. split; [exact (lut_range _ F)|reflexivity].
Qed.

Lemma round2_nn : forall x n, 0 <= n -> Spec.Round2 x n = Z.shiftr (x + Z.shiftr (Z.shiftl 1 n) 1) n.
Proof.
  intros x n H. unfold Spec.Round2. destruct (Z.eqb_spec n 0) as [->|N].
  - change (Z.shiftr (Z.shiftl 1 0) 1) with 0. rewrite Z.add_0_r. symmetry. apply Z.shiftr_0_r.
  - rewrite Z.shiftl_1_l, !Z.shiftr_div_pow2 by lia. replace (2 ^ n / 2 ^ 1) with (2 ^ (n - 1)); [reflexivity|].
    symmetry. change (2 ^ 1) with 2. replace n with (Z.succ (n - 1)) at 1 by lia. rewrite Z.pow_succ_r by lia. rewrite Z.mul_comm. apply Z.div_mul. lia.
Qed.
Lemma s32_id : forall v, INT_MIN <= v <= INT_MAX -> s32 v = v.
Proof. intros v H. unfold s32, sN, INT_MIN, INT_MAX in *. change (2 ^ (32 - 1)) with 2147483648. change (2 ^ 32) with 4294967296. rewrite Z.mod_small by lia. lia. Qed.
Lemma div_round_ok : forall v n, 0 <= n <= 60 -> - 6 * 10 ^ 18 < v < 6 * 10 ^ 18 -> Z.abs v < 2147483647 * 2 ^ n ->
  div_round v (Z.shiftr (Z.shiftl 1 n) 1) n = Ok (Spec.Round2Signed v n) /\ - INT_MAX <= Spec.Round2Signed v n <= INT_MAX.
Proof.
  intros v n N V B. unfold div_round. rewrite ck64_ok by lia. cbn [obind].
  assert (R : 0 <= Z.shiftr (Z.shiftl 1 n) 1 < 2 ^ n).
  { rewrite Z.shiftl_1_l, Z.shiftr_div_pow2 by lia. pose proof (Z.pow_pos_nonneg 2 n ltac:(lia) ltac:(lia)). change (2 ^ 1) with 2. lia. }
  pose proof (Z.pow_le_mono_r 2 n 60 ltac:(lia) ltac:(lia)) as PN.
  assert (Q : 0 <= Z.shiftr (Z.abs v + Z.shiftr (Z.shiftl 1 n) 1) n <= INT_MAX).
  { rewrite (Z.shiftr_div_pow2 _ n) by lia. split; [apply Z.div_pos; lia|]. apply Z.lt_succ_r. apply Z.div_lt_upper_bound; unfold INT_MAX; lia. }
  rewrite ck64_ok by lia. cbn [obind]. rewrite s32_id by (unfold INT_MIN; lia). unfold Spec.Round2Signed. rewrite !round2_nn by lia.
  destruct (Z.leb_spec 0 v).
  - replace (v <? 0) with false by lia. rewrite Z.abs_eq in * by lia. rewrite ck_ok by (unfold INT_MIN; lia). split; [reflexivity|]. unfold INT_MAX in *. lia.
  - replace (v <? 0) with true by lia. rewrite Z.abs_neq in * by lia. rewrite ck_ok by (unfold INT_MIN, INT_MAX in *; lia). split; [reflexivity|]. unfold INT_MAX in *. lia.
Qed.

Lemma clip_eq : forall v lo hi, iclip v lo hi = Spec.Clip3 lo hi v. Proof. reflexivity. Qed.
Lemma iclip_wmp_ok : forall v, iclip_wmp v = Spec.reduce (Spec.Clip3 (-32768) 32767 v) /\ -32768 <= iclip_wmp v <= 32768.
Proof.
  intros v. unfold iclip_wmp. rewrite clip_eq. set (c := Spec.Clip3 _ _ v).
  assert (C : -32768 <= c <= 32767) by (subst c; unfold Spec.Clip3; destruct (Z.ltb_spec v (-32768)); [lia|]; destruct (Z.ltb_spec 32767 v); lia). clearbody c. clear v.
  unfold Spec.reduce, Spec.Round2Signed, Spec.WARP_PARAM_REDUCE_BITS, apply_sign. rewrite !round2_nn by lia. change (Z.shiftr (Z.shiftl 1 6) 1) with 32. change (2 ^ 6) with 64.
  rewrite !Z.shiftr_div_pow2 by lia. change (2 ^ 6) with 64. destruct (Z.leb_spec 0 c); [replace (c <? 0) with false by lia|replace (c <? 0) with true by lia].
  - rewrite Z.abs_eq by lia. split; [reflexivity|]. pose proof (Z.div_le_mono (c + 32) 32799 64 ltac:(lia) ltac:(lia)). pose proof (Z.div_pos (c + 32) 64 ltac:(lia) ltac:(lia)). change (32799 / 64) with 512 in *. lia.
  - rewrite Z.abs_neq by lia. split; [reflexivity|]. pose proof (Z.div_le_mono (- c + 32) 32800 64 ltac:(lia) ltac:(lia)). pose proof (Z.div_pos (- c + 32) 64 ltac:(lia) ltac:(lia)). change (32800 / 64) with 512 in *. lia.
Qed.
(** storing 32768 in an int16_t gives -32768 *)
Lemma s16_abs : forall v, -32768 <= v <= 32768 -> Z.abs (s16 v) = Z.abs v /\ (Z.abs v < 32768 -> s16 v = v).
Proof.
  intros v H. unfold s16, sN. change (2 ^ (16 - 1)) with 32768. change (2 ^ 16) with 65536.
  destruct (Z.eq_dec v 32768) as [->|N]; [split; [reflexivity|lia]|]. rewrite Z.mod_small by lia. split; lia.
Qed.

(** The range of the matrices: read_global_param and dav1d_find_affine_int *)
Definition mat_range (m : matrix) : Prop :=
  65536 - 8192 <= m2 m <= 65536 + 8192 /\ -8192 <= m3 m <= 8192 /\ -8192 <= m4 m <= 8192 /\ 65536 - 8192 <= m5 m <= 65536 + 8192.
Definition to_spec (m : matrix) : Spec.params :=
  {| Spec.P0 := m0 m; Spec.P1 := m1 m; Spec.P2 := m2 m; Spec.P3 := m3 m; Spec.P4 := m4 m; Spec.P5 := m5 m |}.
Lemma shear_ok : forall m, mat_range m -> exists sh,
  get_shear_params m = Ok (negb (Spec.warpValid (Spec.setup_shear (to_spec m))), Some sh) /\
  (Spec.warpValid (Spec.setup_shear (to_spec m)) = true ->
   sh_alpha sh = Spec.alpha (Spec.setup_shear (to_spec m)) /\ sh_beta sh = Spec.beta (Spec.setup_shear (to_spec m)) /\
   sh_gamma sh = Spec.gamma (Spec.setup_shear (to_spec m)) /\ sh_delta sh = Spec.delta (Spec.setup_shear (to_spec m))).
Proof.
  intros m (R2 & R3 & R4 & R5). unfold get_shear_params, Spec.setup_shear, to_spec, Spec.WARPEDMODEL_PREC_BITS. cbn [Spec.P2 Spec.P3 Spec.P4 Spec.P5].
  replace (m2 m <=? 0) with false by lia. rewrite ck_ok by (unfold INT_MIN, INT_MAX; lia). cbn [obind].
  destruct (resolve_ok (m2 m) ltac:(lia)) as (y & E & Ey & Y & S). rewrite E. cbn [obind].
  destruct (Spec.resolve_divisor (m2 m)) as (sft, fac). cbn [fst snd] in Ey, S. subst fac.
  assert (L : 15 <= Z.log2 (Z.abs (m2 m)) <= 16).
  { rewrite Z.abs_eq by lia. pose proof (Z.log2_le_mono 57344 (m2 m) ltac:(lia)). pose proof (Z.log2_le_mono (m2 m) 73728 ltac:(lia)). change (Z.log2 57344) with 15 in *. change (Z.log2 73728) with 16 in *. lia. }
  assert (E2 : apply_sign y (m2 m) = y) by (unfold apply_sign; replace (m2 m <? 0) with false by lia; reflexivity). rewrite E2. clear E E2.
  cbn [fst snd]. cbv zeta. replace (sft <? 31) with true by lia. change (2 ^ 16) with 65536. cbn [fst snd].
  assert (PS : 536870912 <= 2 ^ sft) by (change 536870912 with (2 ^ 29); apply Z.pow_le_mono_r; lia).
  destruct (div_round_ok (m4 m * 65536 * y) sft ltac:(lia) ltac:(clear - R4 Y; nia) ltac:(clear - R4 Y PS; nia)) as (-> & Q1). cbn [obind].
  destruct (div_round_ok (m3 m * m4 m * y) sft ltac:(lia)) as (-> & Q2).
  { clear - R3 R4 Y. assert (-67108864 <= m3 m * m4 m <= 67108864) by nia. generalize dependent (m3 m * m4 m). intros. nia. }
  { clear - R3 R4 Y PS. assert (-67108864 <= m3 m * m4 m <= 67108864) by nia. generalize dependent (m3 m * m4 m). intros. nia. }
  cbn [obind]. assert (Q2' : -67108864 <= Spec.Round2Signed (m3 m * m4 m * y) sft <= 67108864).
  { assert (P : -1099511627776 <= m3 m * m4 m * y <= 1099511627776). { clear - R3 R4 Y. assert (-67108864 <= m3 m * m4 m <= 67108864) by nia. generalize dependent (m3 m * m4 m). intros. nia. }
    clear - P PS S L. generalize dependent (m3 m * m4 m * y). intros v P. unfold Spec.Round2Signed. rewrite !round2_nn by lia.
    assert (RR : 0 <= Z.shiftr (Z.shiftl 1 sft) 1 < 2 ^ sft) by (rewrite Z.shiftl_1_l, Z.shiftr_div_pow2 by lia; change (2 ^ 1) with 2; lia).
    rewrite !(Z.shiftr_div_pow2 _ sft) by lia. destruct (Z.leb_spec 0 v).
    - split; [apply Z.le_trans with 0; [lia|apply Z.div_pos; lia]|]. apply Z.lt_succ_r. apply Z.div_lt_upper_bound; lia.
    - assert (0 <= (- v + Z.shiftr (Z.shiftl 1 sft) 1) / 2 ^ sft <= 67108864); [|lia]. split; [apply Z.div_pos; lia|]. apply Z.lt_succ_r. apply Z.div_lt_upper_bound; lia. }
  rewrite ck_ok by (unfold INT_MIN, INT_MAX; lia). cbn [obind]. rewrite ck_ok by (unfold INT_MIN, INT_MAX; lia). cbn [obind].
  destruct (iclip_wmp_ok (m2 m - 65536)) as (<- & A). destruct (iclip_wmp_ok (m3 m)) as (<- & B).
  destruct (iclip_wmp_ok (Spec.Round2Signed (m4 m * 65536 * y) sft)) as (<- & C).
  destruct (iclip_wmp_ok (m5 m - Spec.Round2Signed (m3 m * m4 m * y) sft - 65536)) as (<- & D).
  generalize dependent (iclip_wmp (m2 m - 65536)). generalize dependent (iclip_wmp (m3 m)).
  generalize dependent (iclip_wmp (Spec.Round2Signed (m4 m * 65536 * y) sft)).
  generalize dependent (iclip_wmp (m5 m - Spec.Round2Signed (m3 m * m4 m * y) sft - 65536)). clear. intros d D c C b B a A.
  destruct (s16_abs a A) as (Ea & Fa). destruct (s16_abs b B) as (Eb & Fb). destruct (s16_abs c C) as (Ec & Fc). destruct (s16_abs d D) as (Ed & Fd).
  eexists. cbn [Spec.warpValid Spec.alpha Spec.beta Spec.gamma Spec.delta]. rewrite Ea, Eb, Ec, Ed, negb_involutive. split; [reflexivity|].
  cbn [sh_alpha sh_beta sh_gamma sh_delta]. intros V. apply negb_true_iff, orb_false_iff in V. destruct V as (V1 & V2). apply Z.leb_gt in V1, V2.
  rewrite Fa by (clear - V1; lia). rewrite Fb by (clear - V1; lia). rewrite Fc by (clear - V2; lia). rewrite Fd by (clear - V2; lia). repeat split.
Qed.

(** General lemmas on [Z], bit operations and lists. *)
From Coq Require Import ZArith List Bool Lia.
From Coq Require Export ZifyBool ZifyNat.
From Verif Require Import Base.CInt.
Import ListNotations.
Open Scope Z_scope.

Global Arguments Z.mul : simpl never.
Global Arguments Z.add : simpl never.
Global Arguments Z.sub : simpl never.
Global Arguments Z.pow : simpl never.
Global Arguments Z.div : simpl never.
Global Arguments Z.modulo : simpl never.
Global Arguments Z.shiftl : simpl never.
Global Arguments Z.shiftr : simpl never.
Global Arguments Z.land : simpl never.
Global Arguments Z.lor : simpl never.
Global Arguments Z.of_nat : simpl never.
Global Arguments Z.to_nat : simpl never.

Ltac Zify.zify_post_hook ::= Z.div_mod_to_equations.

Lemma shiftl_mul : forall a n, 0 <= n -> Z.shiftl a n = a * 2 ^ n.
Proof. intros. apply Z.shiftl_mul_pow2; auto. Qed.
Lemma shiftr_div : forall a n, 0 <= n -> Z.shiftr a n = a / 2 ^ n.
Proof. intros. apply Z.shiftr_div_pow2; auto. Qed.

Lemma pow2_pos : forall n, 0 <= n -> 0 < 2 ^ n.
Proof. intros. apply Z.pow_pos_nonneg; lia. Qed.

Lemma pow2_split : forall a b, 0 <= b <= a -> 2 ^ a = 2 ^ (a - b) * 2 ^ b.
Proof. intros. rewrite <- Z.pow_add_r by lia. f_equal; lia. Qed.

Lemma testbit_small : forall b n i, 0 <= b < 2 ^ n -> 0 <= n <= i -> Z.testbit b i = false.
Proof.
  intros. rewrite <- (Z.mod_small b (2 ^ n)) by lia. apply Z.mod_pow2_bits_high. lia.
Qed.

(** Or of disjoint bit ranges is addition. *)
Lemma land_shift_0 : forall a b n, 0 <= n -> 0 <= b < 2 ^ n -> Z.land (a * 2 ^ n) b = 0.
Proof.
  intros a b n Hn Hb. rewrite <- shiftl_mul by lia.
  apply Z.bits_inj'. intros i Hi. rewrite Z.land_spec, Z.bits_0, Z.shiftl_spec by lia.
  destruct (Z.ltb_spec i n).
  - rewrite Z.testbit_neg_r by lia. auto.
  - rewrite (testbit_small b n) by lia. apply andb_false_r.
Qed.
Lemma lor_shift_add : forall a b n, 0 <= n -> 0 <= b < 2 ^ n ->
  Z.lor (a * 2 ^ n) b = a * 2 ^ n + b.
Proof.
  intros a b n Hn Hb. pose proof (land_shift_0 a b n Hn Hb).
  rewrite Z.add_nocarry_lxor by auto. rewrite Z.lxor_lor; auto.
Qed.

Lemma land_ones_mod : forall a n, 0 <= n -> Z.land a (2 ^ n - 1) = a mod 2 ^ n.
Proof. intros. rewrite <- Z.land_ones by lia. rewrite Z.ones_equiv. f_equal. Qed.

Lemma rd_at_nth : forall A (l : list A) i d, 0 <= i < zlen l ->
  rd_at l i = Ok (nth (Z.to_nat i) l d).
Proof.
  intros. unfold rd_at, zlen in *.
  destruct (Z.ltb_spec i 0); try lia.
  rewrite (nth_error_nth' l d) by lia. auto.
Qed.

Lemma rd_at_inv : forall A (l : list A) i v, rd_at l i = Ok v ->
  0 <= i < zlen l /\ In v l.
Proof.
  unfold rd_at, zlen. intros A l i v H. destruct (Z.ltb_spec i 0); try discriminate.
  destruct (nth_error l (Z.to_nat i)) eqn:E; inversion H; subst.
  split. 2: eapply nth_error_In; eauto.
  assert (nth_error l (Z.to_nat i) <> None) by congruence.
  apply nth_error_Some in H1. lia.
Qed.

Lemma Forall_nth_Z : forall A (P : A -> Prop) l i d, Forall P l -> 0 <= i < zlen l ->
  P (nth (Z.to_nat i) l d).
Proof.
  intros. rewrite Forall_forall in H. apply H. apply nth_In. unfold zlen in *. lia.
Qed.

Lemma upd_nat_length : forall A (l : list A) i v, length (upd_nat l i v) = length l.
Proof. induction l; destruct i; simpl; intros; auto. Qed.
Lemma upd_nat_nth : forall A (l : list A) i j v d, (i < length l)%nat ->
  nth j (upd_nat l i v) d = if Nat.eqb j i then v else nth j l d.
Proof.
  induction l; simpl; intros; try lia.
  destruct i, j; simpl; auto. apply IHl. lia.
Qed.

Lemma u8_id : forall x, 0 <= x < 2 ^ 8 -> u8 x = x.
Proof. intros. apply Z.mod_small; auto. Qed.
Lemma u16_id : forall x, 0 <= x < 2 ^ 16 -> u16 x = x.
Proof. intros. apply Z.mod_small; auto. Qed.
Lemma u32_id : forall x, 0 <= x < 2 ^ 32 -> u32 x = x.
Proof. intros. apply Z.mod_small; auto. Qed.
Lemma u64_id : forall x, 0 <= x < 2 ^ 64 -> u64 x = x.
Proof. intros. apply Z.mod_small; auto. Qed.
Lemma u8_range : forall x, 0 <= u8 x < 2 ^ 8.
Proof. intros. apply Z.mod_pos_bound; lia. Qed.
Lemma u16_range : forall x, 0 <= u16 x < 2 ^ 16.
Proof. intros. apply Z.mod_pos_bound; lia. Qed.
Lemma u32_range : forall x, 0 <= u32 x < 2 ^ 32.
Proof. intros. apply Z.mod_pos_bound; lia. Qed.
Lemma u64_range : forall x, 0 <= u64 x < 2 ^ 64.
Proof. intros. apply Z.mod_pos_bound; lia. Qed.
Lemma sN_id : forall n x, 0 < n -> - 2 ^ (n - 1) <= x < 2 ^ (n - 1) -> sN n x = x.
Proof.
  intros n x Hn H. unfold sN.
  assert (2 ^ n = 2 * 2 ^ (n - 1)).
  { rewrite <- Z.pow_succ_r by lia. f_equal. lia. }
  rewrite Z.mod_small by lia. lia.
Qed.
Lemma s32_id : forall x, -2147483648 <= x <= 2147483647 -> s32 x = x.
Proof. intros. apply sN_id; lia. Qed.
Lemma s32_range : forall x, -2147483648 <= s32 x <= 2147483647.
Proof.
  intros. unfold s32, sN. change (2 ^ (32 - 1)) with 2147483648.
  pose proof (Z.mod_pos_bound (x + 2147483648) (2 ^ 32)). lia.
Qed.

Lemma z2b_b2z : forall b, z2b (b2z b) = b.
Proof. destruct b; auto. Qed.

(** The unrolled rounds of md5.c are the 64 operations of RFC 1321. *)
From Coq Require Import ZArith List Bool Lia Ascii String.
From Verif Require Import Base.CInt Base.Lemmas Tools.Md5.
From Verif Require Tools.Md5Spec.
Module S := Verif.Tools.Md5Spec.
Import ListNotations.
Open Scope Z_scope.
Open Scope outcome_scope.

(** ** one block *)
Lemma k_table : forallb (fun t => kk t =? S.T (t + 1)) (map Z.of_nat (seq 0 64)) = true.
Proof. vm_compute. reflexivity. Qed.

Lemma kk_T : forall t, 0 <= t < 64 -> kk t = S.T (t + 1).
Proof.
  intros t Ht. pose proof k_table as K. rewrite forallb_forall in K.
  apply Z.eqb_eq, K. apply in_map_iff. exists (Z.to_nat t). split; [lia|].
  apply in_seq. lia.
Qed.

Lemma rot_eq : forall x s, 0 <= x < 2 ^ 32 -> 0 <= s <= 32 -> leftrotate x s = S.rotl x s.
Proof.
  intros x s Hx Hs. unfold leftrotate, S.rotl, S.W, u32.
  rewrite shiftl_mul, shiftr_div by lia.
  assert (E : 2 ^ 32 = 2 ^ (32 - s) * 2 ^ s) by (apply pow2_split; lia).
  pose proof (pow2_pos s ltac:(lia)). pose proof (pow2_pos (32 - s) ltac:(lia)).
  assert (M : (x * 2 ^ s) mod 2 ^ 32 = (x mod 2 ^ (32 - s)) * 2 ^ s).
  { rewrite E. rewrite Z.mul_mod_distr_r by lia. reflexivity. }
  rewrite M. apply lor_shift_add; [lia|]. split; [apply Z.div_pos; lia|].
  apply Z.div_lt_upper_bound; [lia|]. rewrite <- E. lia.
Qed.

Lemma bnot_eq : forall x, bnot x = S.not x.
Proof.
  intros x. unfold bnot, S.not, S.W, u32, Z.lnot.
  replace (2 ^ 32 - 1 - x) with (Z.pred (- x) + 1 * 2 ^ 32) by lia.
  rewrite Z_mod_plus_full. reflexivity.
Qed.

Lemma add3 : forall a f x t, u32 (a + f + t + x) = S.add (S.add (S.add a f) x) t.
Proof.
  intros. unfold u32, S.add, S.W.
  rewrite (Zplus_mod_idemp_l (a + f) x), Zplus_mod_idemp_l. f_equal. lia.
Qed.

Lemma rot_add : forall a f x t s, 0 <= s <= 32 ->
  leftrotate (u32 (a + f + t + x)) s = S.rotl (S.add (S.add (S.add a f) x) t) s.
Proof. intros. rewrite rot_eq; [now rewrite add3|apply u32_range|assumption]. Qed.

Lemma f_eq : forall x y z, Z.lor (Z.land x y) (Z.land (bnot x) z) = S.fF x y z.
Proof. intros. now rewrite bnot_eq. Qed.
Lemma g_eq : forall x y z, Z.lor (Z.land z x) (Z.land (bnot z) y) = S.fG x y z.
Proof. intros. rewrite bnot_eq. unfold S.fG. now rewrite (Z.land_comm z x), (Z.land_comm y). Qed.
Lemma h_eq : forall x y z, Z.lxor (Z.lxor x y) z = S.fH x y z.
Proof. intros. unfold S.fH. apply Z.lxor_assoc. Qed.
Lemma i_eq : forall x y z, Z.lxor y (Z.lor x (bnot z)) = S.fI x y z.
Proof. intros. now rewrite bnot_eq. Qed.

Lemma op_eq : forall X t a b c d,
  S.op X t (a, b, c, d) =
  (d, S.add b (S.rotl (S.add (S.add (S.add a (S.func t b c d)) (X (S.word t))) (S.T (t + 1))) (S.shifts t)), b, c).
Proof. reflexivity. Qed.

Ltac four fe :=
  intros X [[[a b] c] d]; unfold mF, mG, mH, mI; cbn [S.ops]; rewrite !op_eq;
  rewrite !fe; rewrite !rot_add by lia; rewrite !kk_T by lia; reflexivity.

Opaque S.T S.add S.rotl S.fF S.fG S.fH S.fI.
Arguments u32 : simpl never.

Lemma F0 : forall X s, mF X 0 s = S.ops X 4 0 s. Proof. four f_eq. Qed.
Lemma F4 : forall X s, mF X 4 s = S.ops X 4 4 s. Proof. four f_eq. Qed.
Lemma F8 : forall X s, mF X 8 s = S.ops X 4 8 s. Proof. four f_eq. Qed.
Lemma F12 : forall X s, mF X 12 s = S.ops X 4 12 s. Proof. four f_eq. Qed.
Lemma G16 : forall X s, mG X 16 s = S.ops X 4 16 s. Proof. four g_eq. Qed.
Lemma G20 : forall X s, mG X 20 s = S.ops X 4 20 s. Proof. four g_eq. Qed.
Lemma G24 : forall X s, mG X 24 s = S.ops X 4 24 s. Proof. four g_eq. Qed.
Lemma G28 : forall X s, mG X 28 s = S.ops X 4 28 s. Proof. four g_eq. Qed.
Lemma H32 : forall X s, mH X 32 s = S.ops X 4 32 s. Proof. four h_eq. Qed.
Lemma H36 : forall X s, mH X 36 s = S.ops X 4 36 s. Proof. four h_eq. Qed.
Lemma H40 : forall X s, mH X 40 s = S.ops X 4 40 s. Proof. four h_eq. Qed.
Lemma H44 : forall X s, mH X 44 s = S.ops X 4 44 s. Proof. four h_eq. Qed.
Lemma I48 : forall X s, mI X 48 s = S.ops X 4 48 s. Proof. four i_eq. Qed.
Lemma I52 : forall X s, mI X 52 s = S.ops X 4 52 s. Proof. four i_eq. Qed.
Lemma I56 : forall X s, mI X 56 s = S.ops X 4 56 s. Proof. four i_eq. Qed.
Lemma I60 : forall X s, mI X 60 s = S.ops X 4 60 s. Proof. four i_eq. Qed.

Lemma ops_app : forall X n m t s, S.ops X (n + m) t s = S.ops X m (t + Z.of_nat n) (S.ops X n t s).
Proof.
  induction n; intros m t s; cbn [S.ops Nat.add].
  - now replace (t + Z.of_nat 0) with t by lia.
  - rewrite IHn. f_equal. lia.
Qed.

Lemma rounds_eq : forall X s, rounds X s = S.ops X 64 0 s.
Proof.
  intros X s. unfold rounds.
  rewrite F0, F4, F8, F12, G16, G20, G24, G28, H32, H36, H40, H44, I48, I52, I56, I60.
  change 64%nat with (4 + (4 + (4 + (4 + (4 + (4 + (4 + (4 + (4 + (4 + (4 + (4 + (4 + (4 + (4 + 4)))))))))))))))%nat.
  rewrite !ops_app. reflexivity.
Qed.

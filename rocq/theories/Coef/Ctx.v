(** The contexts that the code derives from the blocks above and to the left are those
    of the specification. *)
From Coq Require Import ZArith List Bool Lia.
From Verif Require Import Base.CInt Base.Lemmas Itx.ScanTables Itx.Txfm2d Itx.Spec2d Itx.Proofs2d Coef.Prog Coef.Model.
From Verif Require Coef.Spec.
From Coq Require Import Btauto.
Import ListNotations.
Open Scope Z_scope.

(** How a level context and a DC context are stored in one byte. *)
Definition cat_code (cat : Z) : Z := if cat =? 1 then 0 else if cat =? 2 then 0x80 else 0x40.
Definition ctx_byte (c : option (Z * Z)) : Z :=
  match c with Some (lev, cat) => lev + cat_code cat | None => 0x40 end.
Definition ctx_ok (c : option (Z * Z)) : Prop :=
  match c with Some (lev, cat) => 0 <= lev <= 63 /\ 0 <= cat <= 2 | None => True end.

Lemma cat_codes : forall cat, 0 <= cat <= 2 -> cat_code cat = 0x40 \/ cat_code cat = 0 \/ cat_code cat = 0x80.
Proof. intros cat H. assert (E : cat = 0 \/ cat = 1 \/ cat = 2) by lia. destruct E as [ -> |[ -> | -> ]]; cbn; auto. Qed.
Lemma byte_range : forall c, ctx_ok c -> 0 <= ctx_byte c < 256.
Proof. intros [[l k]|]; cbn; [|lia]. intros [H1 H2]. pose proof (cat_codes k H2). lia. Qed.

(** *** Several bytes at once *)
Fixpoint val (l : list Z) : Z := match l with [] => 0 | b :: l => b + 256 * val l end.
Lemma le_val : forall l1 l0 rest, le (length l1) (l0 ++ l1 ++ rest) (Z.of_nat (length l0)) = Ok (val l1).
Proof.
  induction l1 as [|b l1 IH]; intros l0 rest; cbn [le length val]; auto.
  rewrite rd_at_nat with (d := 0) by (rewrite !app_length; cbn [length]; lia).
  rewrite app_nth2 by lia. rewrite Nat.sub_diag. cbn [app nth obind].
  specialize (IH (l0 ++ [b]) rest). rewrite <- app_assoc in IH. cbn [app] in IH.
  rewrite app_length in IH. cbn [length] in IH. rewrite Nat2Z.inj_add in IH. change (Z.of_nat 1) with 1 in IH.
  rewrite IH. reflexivity.
Qed.
Lemma le_at : forall n k l rest, (k + n <= length l)%nat ->
  le n (l ++ rest) (Z.of_nat k) = Ok (val (firstn n (skipn k l))).
Proof.
  intros n k l rest H.
  assert (L0 : length (firstn k l) = k) by (apply firstn_length_le; lia).
  assert (L1 : length (firstn n (skipn k l)) = n) by (apply firstn_length_le; rewrite skipn_length; lia).
  pose proof (le_val (firstn n (skipn k l)) (firstn k l) (skipn n (skipn k l) ++ rest)) as E.
  rewrite L0, L1 in E. rewrite <- E. f_equal.
  rewrite app_assoc, app_assoc, <- (app_assoc (firstn k l)), firstn_skipn, firstn_skipn. reflexivity.
Qed.

Definition bytes (l : list Z) : Prop := Forall (fun b => 0 <= b < 256) l.
Lemma val_range : forall l, bytes l -> 0 <= val l < 256 ^ Z.of_nat (length l).
Proof.
  induction 1 as [|b l B H IH]; cbn [val length]; [lia|].
  rewrite Nat2Z.inj_succ, Z.pow_succ_r by lia. lia.
Qed.
Lemma val_cons_lor : forall b l, 0 <= b < 256 -> val (b :: l) = Z.lor (Z.shiftl (val l) 8) b.
Proof. intros b l B. rewrite shiftl_mul by lia. rewrite lor_shift_add by lia. cbn [val]. lia. Qed.
Lemma val_shift1 : forall b l, 0 <= b < 256 -> Z.shiftr (val (b :: l)) 8 = val l.
Proof. intros b l B. rewrite shiftr_div by lia. cbn [val]. change (2 ^ 8) with 256. lia. Qed.
Lemma val_shift : forall k l, bytes l -> Z.shiftr (val l) (8 * Z.of_nat k) = val (skipn k l).
Proof.
  induction k as [|k IH]; intros l H; [reflexivity|].
  replace (8 * Z.of_nat (S k)) with (8 + 8 * Z.of_nat k) by lia. rewrite <- Z.shiftr_shiftr by lia.
  destruct H as [|b l B H]; cbn [skipn].
  - cbn [val]. rewrite !Z.shiftr_0_l. reflexivity.
  - rewrite val_shift1 by auto. apply IH; auto.
Qed.
Definition low (v : Z) : Z := Z.land v 0x3f.
Lemma low_val : forall b l, low (val (b :: l)) = low b.
Proof.
  intros b l. unfold low. change 0x3f with (2 ^ 6 - 1). rewrite !land_ones_mod by lia. cbn [val]. change (2 ^ 6) with 64.
  replace (b + 256 * val l) with (b + 4 * val l * 64) by lia. apply Z.mod_add. lia.
Qed.
Lemma low_lor : forall a b, low (Z.lor a b) = Z.lor (low a) (low b).
Proof. intros. unfold low. apply Z.land_lor_distr_l. Qed.
Lemma low_u32 : forall a, low (u32 a) = low a.
Proof.
  intros. unfold low, u32. change 0x3f with (2 ^ 6 - 1). rewrite !land_ones_mod by lia.
  change (2 ^ 32) with (2 ^ 6 * 2 ^ 26). rewrite Z.rem_mul_r by lia.
  rewrite (Z.mul_comm (2 ^ 6) ((a / 2 ^ 6) mod 2 ^ 26)), Z.mod_add by lia. apply Z.mod_mod. lia.
Qed.

(** *** get_skip_ctx *)
Definition orl (l : list Z) : Z := fold_right (fun b m => Z.lor (low b) m) 0 l.
Lemma list_of_length : forall A n (l : list A), length l = S n -> exists x l', l = x :: l' /\ length l' = n.
Proof. intros A n [|x l] H; [discriminate|]. exists x, l. cbn in H. auto. Qed.
Ltac explode_list :=
  repeat match goal with
  | H : length ?l = S ?n |- _ => let x := fresh "x" in let l' := fresh "l" in
      destruct (list_of_length _ _ _ H) as (x & l' & -> & ?); clear H
  | H : length ?l = 0%nat |- _ => apply length_zero_iff_nil in H; subst l
  end.
Ltac explode_bytes :=
  repeat match goal with
  | H : bytes (_ :: _) |- _ => let B := fresh "B" in inversion H as [|? ? B ?]; subst; clear H
  | H : Forall _ (_ :: _) |- _ => let B := fresh "B" in inversion H as [|? ? B ?]; subst; clear H
  end.
Lemma low_0 : low 0 = 0. Proof. reflexivity. Qed.

Lemma sh8 : forall l, bytes l -> Z.shiftr (val l) 8 = val (skipn 1 l). Proof. intros l. exact (val_shift 1 l). Qed.
Lemma sh16 : forall l, bytes l -> Z.shiftr (val l) 16 = val (skipn 2 l). Proof. intros l. exact (val_shift 2 l). Qed.
Lemma sh32 : forall l, bytes l -> Z.shiftr (val l) 32 = val (skipn 4 l). Proof. intros l. exact (val_shift 4 l). Qed.
Lemma low_u32_sh : forall a k, 0 <= k <= 24 -> low (Z.shiftr (u32 a) k) = low (Z.shiftr a k).
Proof.
  intros a k K. apply Z.bits_inj'. intros n N. unfold low. rewrite !Z.land_spec, !Z.shiftr_spec by lia.
  destruct (Z.lt_ge_cases n 6) as [L|L].
  - unfold u32. rewrite Z.mod_pow2_bits_low by lia. reflexivity.
  - rewrite (testbit_small 63 6) by lia. rewrite !andb_false_r. reflexivity.
Qed.
Lemma bytes_list : forall l, Forall (fun b => 0 <= b < 256) l -> bytes l. Proof. auto. Qed.
Ltac bys := unfold bytes; repeat (apply Forall_cons || apply Forall_nil); assumption.
Lemma low_u32_s0 : forall a, low (u32 a) = low (Z.shiftr a 0). Proof. intros. rewrite Z.shiftr_0_r. apply low_u32. Qed.
Lemma low_u32_s24 : forall a, low (Z.shiftr (Z.shiftr (u32 a) 16) 8) = low (Z.shiftr (Z.shiftr a 16) 8).
Proof. intros. rewrite !Z.shiftr_shiftr by lia. apply low_u32_sh. lia. Qed.

Lemma merge_luma_low : forall lw l rest, (lw <= 4)%nat -> length l = (2 ^ lw)%nat -> bytes l ->
  exists v, merge_luma (Z.of_nat lw) (l ++ rest) = Ok v /\ low v = orl l.
Proof.
  intros lw l rest H L B.
  assert (E0 : forall n, (n <= length l)%nat -> le n (l ++ rest) 0 = Ok (val (firstn n l))).
  { intros n N. apply (le_at n 0). lia. }
  assert (E4 : (8 <= length l)%nat -> le 4 (l ++ rest) 4 = Ok (val (firstn 4 (skipn 4 l)))).
  { intros N. apply (le_at 4 4). lia. }
  assert (E8 : (16 <= length l)%nat -> le 8 (l ++ rest) 8 = Ok (val (firstn 8 (skipn 8 l)))).
  { intros N. apply (le_at 8 8). lia. }
  destruct lw as [|[|[|[|[|lw]]]]]; [..|lia]; cbn in L; unfold merge_luma;
    match goal with |- context [Z.of_nat ?n] => let k := eval cbv in (Z.of_nat n) in change (Z.of_nat n) with k end;
    cbv beta iota; rewrite ?E0, ?E4, ?E8 by lia; clear E0 E4 E8; cbn [obind];
    repeat match goal with |- context [(?a <=? ?b)] => let k := eval cbv in (a <=? b) in change (a <=? b) with k end;
    cbv beta iota zeta; (eexists; split; [reflexivity|]); explode_list; explode_bytes; cbn [firstn skipn];
    rewrite ?Z.shiftr_lor, ?low_lor, ?low_u32_s24, ?low_u32_sh, ?low_u32 by lia;
    rewrite ?Z.shiftr_lor, ?low_lor;
    rewrite ?sh32 by bys; cbn [firstn skipn]; rewrite ?sh16 by bys; cbn [firstn skipn]; rewrite ?sh8 by bys; cbn [firstn skipn];
    rewrite ?low_val; cbn [orl fold_right];
    apply Z.bits_inj'; intros n N; rewrite ?Z.lor_spec, ?Z.bits_0; btauto.
Qed.

(** Only whether a level is 0, at most 3 or more matters, so that the largest of some
    levels may be replaced by the union of their bits. *)
Lemma lor_le3 : forall a b, 0 <= a -> 0 <= b -> (Z.lor a b <= 3 <-> a <= 3 /\ b <= 3).
Proof.
  assert (E : forall x, 0 <= x -> (x <= 3 <-> Z.shiftr x 2 = 0)).
  { intros x X. rewrite shiftr_div by lia. change (2 ^ 2) with 4. lia. }
  intros a b A B. rewrite !E by (auto; apply Z.lor_nonneg; auto). rewrite Z.shiftr_lor, Z.lor_eq_0_iff. reflexivity.
Qed.
Definition levels_of (l : list (option (Z * Z))) : list Z := map ctx_byte l.
Lemma low_byte : forall c, ctx_ok c -> low (ctx_byte c) = fst (Spec.here c).
Proof.
  intros [[lev k]|]; cbn; [|reflexivity]. intros [H1 H2]. unfold low.
  change 63 with (2 ^ 6 - 1). rewrite land_ones_mod by lia. change (2 ^ 6) with 64.
  destruct (cat_codes k H2) as [ -> |[ -> | -> ]]; lia.
Qed.
Lemma here_range : forall c, ctx_ok c -> 0 <= fst (Spec.here c) <= 63 /\ 0 <= snd (Spec.here c) <= 2.
Proof. intros [[lev k]|]; cbn; lia. Qed.
Lemma orl_class : forall l, Forall ctx_ok l -> 0 <= orl (levels_of l) /\ 0 <= Spec.maxlevel l /\
  (orl (levels_of l) = 0 <-> Spec.maxlevel l = 0) /\ (orl (levels_of l) <= 3 <-> Spec.maxlevel l <= 3).
Proof.
  unfold orl, levels_of, Spec.maxlevel.
  induction 1 as [|c l C H IH]; cbn [map fold_right]; [lia|].
  rewrite low_byte by auto. pose proof (here_range c C) as R.
  destruct IH as (I0 & I1 & I2 & I3).
  repeat split; try (apply Z.lor_nonneg; lia); try lia.
  - intros E. apply Z.lor_eq_0_iff in E. lia.
  - intros E. apply Z.lor_eq_0_iff. lia.
  - intros E. apply lor_le3 in E; lia.
  - intros E. apply lor_le3; lia.
Qed.

Lemma val_inj : forall l1 l2, bytes l1 -> bytes l2 -> length l1 = length l2 -> val l1 = val l2 -> l1 = l2.
Proof.
  induction l1 as [|a l1 IH]; intros [|b l2] B1 B2 L E; try discriminate; auto.
  inversion B1 as [|? ? A1 A2]; inversion B2 as [|? ? A3 A4]; subst. cbn [val] in E. cbn in L.
  assert (a = b) by lia. subst. f_equal. apply IH; auto; lia.
Qed.
Lemma merge_chroma_spec : forall lw l rest, (lw <= 3)%nat -> length l = (2 ^ lw)%nat -> bytes l ->
  merge_chroma (Z.of_nat lw) (l ++ rest) = Ok (b2z (negb (forallb (Z.eqb 0x40) l))).
Proof.
  intros lw l rest H L B.
  assert (E0 : forall n, (n = length l)%nat -> le n (l ++ rest) 0 = Ok (val l)).
  { intros n N. rewrite (le_at n 0) by lia. cbn [skipn]. subst n. rewrite firstn_all. reflexivity. }
  assert (G : forall c, c = val (repeat 0x40 (length l)) -> (val l =? c) = forallb (Z.eqb 0x40) l).
  { intros c ->. destruct (forallb (Z.eqb 64) l) eqn:F.
    - apply Z.eqb_eq. f_equal. rewrite forallb_forall in F. clear - F.
      induction l as [|a l IH]; cbn; auto. f_equal.
      + specialize (F a (or_introl eq_refl)). lia.
      + apply IH. intros x X. apply F. right. auto.
    - apply Z.eqb_neq. intros E. apply val_inj in E; auto; [|unfold bytes; apply Forall_forall; intros x X; apply repeat_spec in X; lia|rewrite repeat_length; auto].
      rewrite E in F. clear - F. assert (forallb (Z.eqb 64) (repeat 64 (length l)) = true); [|congruence].
      apply forallb_forall. intros x X. apply repeat_spec in X. subst. reflexivity. }
  destruct lw as [|[|[|[|lw]]]]; [..|lia]; cbn in L; unfold merge_chroma;
    match goal with |- context [Z.of_nat ?n] => let k := eval cbv in (Z.of_nat n) in change (Z.of_nat n) with k end;
    cbv beta iota; rewrite E0 by lia; cbn [obind]; rewrite G by (rewrite L; reflexivity); reflexivity.
Qed.
Lemma byte_none : forall c, ctx_ok c -> (0x40 =? ctx_byte c) = (Z.lor (fst (Spec.here c)) (snd (Spec.here c)) =? 0).
Proof.
  intros [[lev k]|]; cbn [ctx_ok ctx_byte Spec.here fst snd]; [|reflexivity]. intros [H1 H2].
  assert (E : k = 0 \/ k = 1 \/ k = 2) by lia.
  destruct (Z.lor lev k =? 0) eqn:O.
  - apply Z.eqb_eq, Z.lor_eq_0_iff in O. destruct O; subst. reflexivity.
  - apply Z.eqb_neq in O. apply Z.eqb_neq. intros X. apply O. apply Z.lor_eq_0_iff.
    destruct E as [ -> |[ -> | -> ]]; cbn in X; lia.
Qed.
Lemma anyset_spec : forall l, Forall ctx_ok l -> forallb (Z.eqb 0x40) (levels_of l) = (Spec.anyset l =? 0).
Proof.
  unfold levels_of, Spec.anyset.
  induction 1 as [|c l C H IH]; cbn [map forallb fold_right]; [reflexivity|].
  rewrite byte_none, IH by auto.
  set (u := Z.lor _ _). set (w := fold_right _ _ _).
  destruct (Z.lor u w =? 0) eqn:E.
  - apply Z.eqb_eq, Z.lor_eq_0_iff in E. destruct E as [ -> -> ]. reflexivity.
  - destruct (u =? 0) eqn:U; [|reflexivity]. destruct (w =? 0) eqn:W; [|reflexivity].
    apply Z.eqb_eq in U, W. rewrite U, W in E. discriminate.
Qed.
Lemma bytes_of : forall l, Forall ctx_ok l -> bytes (levels_of l).
Proof. induction 1; cbn; constructor; auto. apply byte_range; auto. Qed.

(** *** get_dc_sign_ctx *)
Lemma land_split : forall b r c m, 0 <= b < 256 -> 0 <= c < 256 ->
  Z.land (b + 256 * r) (c + 256 * m) = Z.land b c + 256 * Z.land r m.
Proof.
  intros b r c m B C.
  assert (E : forall x y, 0 <= x < 256 -> x + 256 * y = Z.lor (Z.shiftl y 8) x).
  { intros x y X. rewrite shiftl_mul by lia. rewrite lor_shift_add by lia. change (2 ^ 8) with 256. lia. }
  assert (L : 0 <= Z.land b c < 256).
  { replace (Z.land b c) with (Z.land b c mod 2 ^ 8); [apply Z.mod_pos_bound; lia|].
    rewrite <- Z.land_ones, <- Z.land_assoc, Z.land_ones, (Z.mod_small c) by lia. reflexivity. }
  rewrite !E by auto. apply Z.bits_inj'. intros n N. rewrite !Z.land_spec, !Z.lor_spec, !Z.land_spec.
  destruct (Z.lt_ge_cases n 8).
  - rewrite !Z.shiftl_spec_low by auto. reflexivity.
  - rewrite (testbit_small b 8), (testbit_small c 8) by lia. rewrite !Z.shiftl_spec by auto.
    rewrite Z.land_spec, !orb_false_r. reflexivity.
Qed.
Lemma land_c0 : forall b, 0 <= b < 256 -> Z.land b 0xC0 = 64 * (b / 64).
Proof.
  assert (F : forallb (fun n => Z.land (Z.of_nat n) 0xC0 =? 64 * (Z.of_nat n / 64)) (seq 0 256) = true) by (vm_compute; reflexivity).
  intros b B. rewrite forallb_forall in F. specialize (F (Z.to_nat b) ltac:(apply in_seq; lia)). cbv beta in F.
  rewrite Z2Nat.id in F by lia. apply Z.eqb_eq. exact F.
Qed.
Definition tops (l : list Z) : list Z := map (fun b => b / 64) l.
Lemma mask_val : forall l m, bytes l -> m = val (repeat 0xC0 (length l)) -> Z.land (val l) m = 64 * val (tops l).
Proof.
  intros l m B ->. induction B as [|b l B0 B IH]; [reflexivity|].
  cbn [length repeat val tops map]. rewrite land_split by lia. rewrite land_c0 by auto. fold (tops l). rewrite IH. lia.
Qed.
Lemma mask_ext : forall l n m, bytes l -> (length l <= n)%nat -> m = val (repeat 0xC0 n) -> Z.land (val l) m = 64 * val (tops l).
Proof.
  intros l n m B L ->. rewrite <- (mask_val l (val (repeat 0xC0 (length l)))) by auto.
  revert n L. induction B as [|b l B0 B IH]; intros n L; [reflexivity|].
  destruct n as [|n]; [cbn in L; lia|]. cbn [length repeat val]. rewrite !land_split by lia. rewrite (IH n) by (cbn in L; lia). reflexivity.
Qed.
Lemma fin32_sum : forall d0 d1 d2 d3, 0 <= d0 -> 0 <= d1 -> 0 <= d2 -> 0 <= d3 -> d0 + d1 + d2 + d3 < 256 ->
  fin32 (val [d0; d1; d2; d3]) = d0 + d1 + d2 + d3.
Proof.
  intros d0 d1 d2 d3 H0 H1 H2 H3 L. unfold fin32, u32. cbn [val].
  set (S := d0 + d1 + d2 + d3) in *.
  replace (_ * mul32) with (S * 16777216 + ((d0) * 1 + (d0 + d1) * 256 + (d0 + d1 + d2) * 65536) + (d1 * 1 + d2 * 1 + d2 * 256 + d3 * 1 + d3 * 256 + d3 * 65536) * 4294967296) by (unfold S, mul32; ring).
  change (2 ^ 32) with 4294967296. rewrite Z.mod_add by lia.
  assert (B : 0 <= (d0) * 1 + (d0 + d1) * 256 + (d0 + d1 + d2) * 65536 < 16777216) by lia.
  rewrite Z.mod_small by lia. rewrite shiftr_div by lia. change (2 ^ 24) with 16777216.
  rewrite Z.div_add_l by lia. rewrite Z.div_small by lia. lia.
Qed.
Lemma fin64_sum : forall d0 d1 d2 d3 d4 d5 d6 d7, 0 <= d0 -> 0 <= d1 -> 0 <= d2 -> 0 <= d3 -> 0 <= d4 -> 0 <= d5 -> 0 <= d6 -> 0 <= d7 -> d0 + d1 + d2 + d3 + d4 + d5 + d6 + d7 < 256 ->
  fin64 (val [d0; d1; d2; d3; d4; d5; d6; d7]) = d0 + d1 + d2 + d3 + d4 + d5 + d6 + d7.
Proof.
  intros d0 d1 d2 d3 d4 d5 d6 d7 H0 H1 H2 H3 H4 H5 H6 H7 L. unfold fin64, u64. cbn [val].
  set (S := d0 + d1 + d2 + d3 + d4 + d5 + d6 + d7) in *.
  replace (_ * mul64) with (S * 72057594037927936 + ((d0) * 1 + (d0 + d1) * 256 + (d0 + d1 + d2) * 65536 + (d0 + d1 + d2 + d3) * 16777216 + (d0 + d1 + d2 + d3 + d4) * 4294967296 + (d0 + d1 + d2 + d3 + d4 + d5) * 1099511627776 + (d0 + d1 + d2 + d3 + d4 + d5 + d6) * 281474976710656) + (d1 * 1 + d2 * 1 + d2 * 256 + d3 * 1 + d3 * 256 + d3 * 65536 + d4 * 1 + d4 * 256 + d4 * 65536 + d4 * 16777216 + d5 * 1 + d5 * 256 + d5 * 65536 + d5 * 16777216 + d5 * 4294967296 + d6 * 1 + d6 * 256 + d6 * 65536 + d6 * 16777216 + d6 * 4294967296 + d6 * 1099511627776 + d7 * 1 + d7 * 256 + d7 * 65536 + d7 * 16777216 + d7 * 4294967296 + d7 * 1099511627776 + d7 * 281474976710656) * 18446744073709551616) by (unfold S, mul64; ring).
  change (2 ^ 64) with 18446744073709551616. rewrite Z.mod_add by lia.
  assert (B : 0 <= (d0) * 1 + (d0 + d1) * 256 + (d0 + d1 + d2) * 65536 + (d0 + d1 + d2 + d3) * 16777216 + (d0 + d1 + d2 + d3 + d4) * 4294967296 + (d0 + d1 + d2 + d3 + d4 + d5) * 1099511627776 + (d0 + d1 + d2 + d3 + d4 + d5 + d6) * 281474976710656 < 72057594037927936) by lia.
  rewrite Z.mod_small by lia. rewrite shiftr_div by lia. change (2 ^ 56) with 72057594037927936.
  rewrite Z.div_add_l by lia. rewrite Z.div_small by lia. lia.
Qed.

Fixpoint vadd (l1 l2 : list Z) : list Z :=
  match l1, l2 with
  | [], l => l | l, [] => l
  | a :: l1, b :: l2 => (a + b) :: vadd l1 l2
  end.
Lemma val_add : forall l1 l2, val l1 + val l2 = val (vadd l1 l2).
Proof. induction l1 as [|a l1 IH]; intros [|b l2]; cbn [vadd val]; try specialize (IH l2); lia. Qed.
Lemma val_add64 : forall l1 l2, 64 * val l1 + 64 * val l2 = 64 * val (vadd l1 l2).
Proof. intros. rewrite <- val_add. lia. Qed.
Lemma sr6 : forall v, Z.shiftr (64 * v) 6 = v.
Proof. intros. rewrite shiftr_div by lia. change (2 ^ 6) with 64. rewrite Z.mul_comm. apply Z.div_mul. lia. Qed.
Lemma fin4_sum : forall d0 d1, 0 <= d0 <= 60 -> 0 <= d1 <= 60 -> fin4 (64 * val [d0; d1]) = d0 + d1.
Proof.
  intros d0 d1 H0 H1. unfold fin4, u32. cbn [val].
  replace (_ * 67372036) with ((d0 + d1) * 16777216 + (d0 * 256 + (d0 + d1) * 65536) + (d0 + d1 + d1 * 256) * 4294967296) by ring.
  change (2 ^ 32) with 4294967296. rewrite Z.mod_add by lia. rewrite Z.mod_small by lia.
  rewrite shiftr_div by lia. change (2 ^ 24) with 16777216. rewrite Z.div_add_l by lia. rewrite Z.div_small by lia. lia.
Qed.
Definition zsum (l : list Z) : Z := fold_right Z.add 0 l.
Definition top_ok (b : Z) : Prop := 0 <= b < 256 /\ b / 64 <= 2.

Section MASKED.
Variables l rest : list Z.
Hypothesis B : bytes l.
Lemma bytes_sub : forall n k, bytes (firstn n (skipn k l)).
Proof.
  intros n k. unfold bytes in *. rewrite Forall_forall in *. intros x X. apply B.
  assert (Y : In x (skipn k l)) by (rewrite <- (firstn_skipn n (skipn k l)); apply in_or_app; left; exact X).
  rewrite <- (firstn_skipn k l). apply in_or_app. right. exact Y.
Qed.
Lemma m8_at : forall k, (k + 1 <= length l)%nat -> m8 (l ++ rest) (Z.of_nat k) = Ok (64 * val (tops (firstn 1 (skipn k l)))).
Proof. intros. unfold m8. rewrite le_at by auto. cbn [obind]. rewrite (mask_ext _ 4) by (try apply bytes_sub; try reflexivity; rewrite firstn_length; lia). reflexivity. Qed.
Lemma m16_at : forall k, (k + 2 <= length l)%nat -> m16 (l ++ rest) (Z.of_nat k) = Ok (64 * val (tops (firstn 2 (skipn k l)))).
Proof. intros. unfold m16. rewrite le_at by auto. cbn [obind]. rewrite (mask_ext _ 4) by (try apply bytes_sub; try reflexivity; rewrite firstn_length; lia). reflexivity. Qed.
Lemma m32_at : forall k, (k + 4 <= length l)%nat -> m32 (l ++ rest) (Z.of_nat k) = Ok (64 * val (tops (firstn 4 (skipn k l)))).
Proof. intros. unfold m32. rewrite le_at by auto. cbn [obind]. rewrite (mask_ext _ 4) by (try apply bytes_sub; try reflexivity; rewrite firstn_length; lia). reflexivity. Qed.
Lemma m64_at : forall k, (k + 8 <= length l)%nat -> m64 (l ++ rest) (Z.of_nat k) = Ok (64 * val (tops (firstn 8 (skipn k l)))).
Proof. intros. unfold m64. rewrite le_at by auto. cbn [obind]. rewrite (mask_ext _ 8) by (try apply bytes_sub; try reflexivity; rewrite firstn_length; lia). reflexivity. Qed.
End MASKED.

Lemma dc_sum_spec : forall tx la ll ra rl, (tx < 19)%nat ->
  length la = (2 ^ (log2w tx - 2))%nat -> length ll = (2 ^ (log2h tx - 2))%nat -> Forall top_ok la -> Forall top_ok ll ->
  dc_sum (Z.of_nat tx) (la ++ ra) (ll ++ rl) =
  Ok (zsum (tops la) + zsum (tops ll) - Z.of_nat (length la) - Z.of_nat (length ll)).
Proof.
  intros tx la ll ra rl H LA LL FA FL.
  assert (BA : bytes la) by (unfold bytes; eapply Forall_impl; [|exact FA]; intros x X; apply X).
  assert (BL : bytes ll) by (unfold bytes; eapply Forall_impl; [|exact FL]; intros x X; apply X).
  pose proof (m8_at la ra BA 0) as A8. pose proof (m16_at la ra BA 0) as A16. pose proof (m32_at la ra BA 0) as A32.
  pose proof (m64_at la ra BA 0) as A64. pose proof (m64_at la ra BA 8) as A64'.
  pose proof (m8_at ll rl BL 0) as L8. pose proof (m16_at ll rl BL 0) as L16. pose proof (m32_at ll rl BL 0) as L32.
  pose proof (m64_at ll rl BL 0) as L64. pose proof (m64_at ll rl BL 8) as L64'.
  pose proof (le_at 1 0 la ra) as A1. pose proof (le_at 1 0 ll rl) as L1.
  change (Z.of_nat 0) with 0 in *. change (Z.of_nat 8) with 8 in *.
  assert (TF : forall l, Forall top_ok l -> Forall (fun t => 0 <= t <= 2) (tops l)).
  { intros l F. apply Forall_map. eapply Forall_impl; [|exact F]. intros x [X1 X2]. split; [apply Z.div_pos; lia|auto]. }
  apply TF in FA. apply TF in FL. clear TF.
  assert (TL : forall l, length (tops l) = length l) by (intros; apply map_length).
  assert (FS : forall n k l, tops (firstn n (skipn k l)) = firstn n (skipn k (tops l))).
  { intros. unfold tops. rewrite skipn_map, firstn_map. reflexivity. }
  rewrite FS in *. clear FS.
  rewrite <- (TL la), <- (TL ll) in *.
  destruct tx as [|tx].
  { cbn in LA, LL. unfold dc_sum. change (Z.of_nat 0) with 0. cbv iota. rewrite A1, L1 by (rewrite TL in *; lia). cbn [obind].
    rewrite LA, LL. rewrite TL in LA, LL. clear - LA LL. explode_list. cbn [skipn firstn val tops map zsum fold_right].
    rewrite !shiftr_div by lia. change (2 ^ 6) with 64. f_equal. rewrite !Z.mul_0_r, !Z.add_0_r. lia. }
  set (ta := tops la) in *. set (tl := tops ll) in *. clear A1 L1 TL BA BL.
  rewrite LA in A8, A16, A32, A64, A64' |- *. rewrite LL in L8, L16, L32, L64, L64' |- *. clearbody ta tl.
  do 18 (destruct tx as [|tx]; [
    (match type of LA with _ = ?r => let k := eval cbv in r in change r with k in LA end);
    (match type of LL with _ = ?r => let k := eval cbv in r in change r with k in LL end);
    unfold dc_sum; (match goal with |- context [match Z.of_nat ?n with _ => _ end] => let k := eval cbv in (Z.of_nat n) in change (Z.of_nat n) with k end); cbv iota;
    repeat first [rewrite A8 by (cbn; lia)|rewrite A16 by (cbn; lia)|rewrite A32 by (cbn; lia)|rewrite A64 by (cbn; lia)|rewrite A64' by (cbn; lia)
                 |rewrite L8 by (cbn; lia)|rewrite L16 by (cbn; lia)|rewrite L32 by (cbn; lia)|rewrite L64 by (cbn; lia)|rewrite L64' by (cbn; lia)];
    clear A8 A16 A32 A64 A64' L8 L16 L32 L64 L64' H;
    cbn [obind]; explode_list; explode_bytes; cbn [firstn skipn];
    rewrite ?val_add64, ?sr6, ?val_add; cbn [vadd];
    repeat (first [rewrite (u64_id (64 * _)) by (cbn [val]; lia)|rewrite u64_id by (cbn [val]; lia)|rewrite u32_id by (cbn [val]; lia)]; rewrite ?sr6, ?val_add; cbn [vadd]);
    rewrite ?fin4_sum, ?fin32_sum, ?fin64_sum by lia; cbn [zsum fold_right];
    f_equal; cbn; lia|]).
  lia.
Qed.

(** *** The situation of a block *)
Record matches (I : Spec.info) (e : env) (txtp : Z) : Prop := {
  m_tx : (Spec.i_tx I < 19)%nat; m_etx : e_tx e = Z.of_nat (Spec.i_tx I);
  m_lossless : e_lossless e = Spec.i_lossless I; m_lossless_tx : Spec.i_lossless I = true -> Spec.i_tx I = 0%nat;
  m_plane : e_plane e = Spec.i_plane I; m_plane_r : 0 <= Spec.i_plane I <= 2;
  m_intra : e_intra e = negb (Spec.i_is_inter I);
  m_reduced : e_reduced e = Spec.i_reduced I;
  m_qidx : e_qidx e = Spec.i_qidx I; m_qidx_r : 0 <= Spec.i_qidx I;
  m_ymode : match Spec.i_filter_intra I with
            | Some m => e_y_mode e = FILTER_PRED /\ e_y_angle e = m /\ 0 <= m <= 4
            | None => e_y_mode e = Spec.i_YMode I /\ Spec.i_YMode I <> FILTER_PRED
            end;
  m_uvmode : e_uv_mode e = Spec.i_uvMode I; m_uvmode_r : 0 <= Spec.i_uvMode I <= 13;
  m_luma : Spec.i_is_inter I = true -> 0 < Spec.i_plane I ->
           txtp = Z.of_nat (Spec.i_lumaType I) /\ (Spec.i_lumaType I < 16)%nat /\
           (Spec.i_reduced I = true -> Spec.i_lumaType I = 0%nat \/ Spec.i_lumaType I = 9%nat);
  m_bs : rd_at block_log (e_bs e) = Ok (Z.of_nat (Spec.i_bw4log2 I), Z.of_nat (Spec.i_bh4log2 I));
  m_subx : Spec.i_subX I = negb (e_layout e =? I444); m_suby : Spec.i_subY I = (e_layout e =? I420);
  m_w : Z.of_nat (width (Spec.i_tx I)) <= Spec.bw I; m_h : Z.of_nat (height (Spec.i_tx I)) <= Spec.bh I;
  (* get_tx_size_uv: chroma transforms are at most 32 wide and high *)
  m_uv32 : 0 < Spec.i_plane I -> (log2w (Spec.i_tx I) <= 5)%nat /\ (log2h (Spec.i_tx I) <= 5)%nat;
  m_above : Forall ctx_ok (Spec.i_above I); m_left : Forall ctx_ok (Spec.i_left I);
  m_above_n : length (Spec.i_above I) = (2 ^ (log2w (Spec.i_tx I) - 2))%nat;
  m_left_n : length (Spec.i_left I) = (2 ^ (log2h (Spec.i_tx I) - 2))%nat;
  m_a : exists rest, e_a e = levels_of (Spec.i_above I) ++ rest;
  m_l : exists rest, e_l e = levels_of (Spec.i_left I) ++ rest
}.

Section MATCH.
Variables (I : Spec.info) (e : env) (txtp : Z).
Hypothesis M : matches I e txtp.

Lemma m_chroma : chroma e = Spec.ptype I.
Proof.
  unfold chroma, Spec.ptype. rewrite (m_plane _ _ _ M). pose proof (m_plane_r _ _ _ M).
  destruct (Z.eqb_spec (Spec.i_plane I) 0), (Z.ltb_spec 0 (Spec.i_plane I)); try lia; reflexivity.
Qed.
Lemma tx_facts : forall tx, (tx < 19)%nat -> exists t_dim, rd_at txfm_dimensions (Z.of_nat tx) = Ok t_dim /\
  ti_lw t_dim = Z.of_nat (log2w tx - 2) /\ ti_lh t_dim = Z.of_nat (log2h tx - 2) /\
  rd_at tx_min (Z.of_nat tx) = Ok (Z.of_nat (Nat.min (log2w tx) (log2h tx)) - 2) /\
  rd_at tx_max (Z.of_nat tx) = Ok (Z.of_nat (Nat.max (log2w tx) (log2h tx)) - 2) /\
  rd_at tx_ctx (Z.of_nat tx) = Ok ((Z.of_nat (Nat.min (log2w tx) (log2h tx)) - 2 + (Z.of_nat (Nat.max (log2w tx) (log2h tx)) - 2) + 1) / 2) /\
  (2 <= log2w tx <= 6)%nat /\ (2 <= log2h tx <= 6)%nat.
Proof.
  intros tx H. do 19 (destruct tx as [|tx]; [eexists; split; [reflexivity|]; repeat split; (reflexivity || (cbn; lia))|]). lia.
Qed.

Theorem skip_ctx_spec : forall t_dim, rd_at txfm_dimensions (e_tx e) = Ok t_dim ->
  get_skip_ctx t_dim (e_bs e) (e_a e) (e_l e) (chroma e =? 1) (e_layout e) = Ok (Spec.all_zero_ctx I).
Proof.
  intros t_dim T. destruct (tx_facts _ (m_tx _ _ _ M)) as (t' & T' & LW & LH & _ & _ & _ & RW & RH).
  rewrite (m_etx _ _ _ M), T' in T. injection T as ->.
  unfold get_skip_ctx. rewrite (m_bs _ _ _ M). cbn [obind]. rewrite LW, LH.
  destruct (m_a _ _ _ M) as (ra & ->). destruct (m_l _ _ _ M) as (rl & ->).
  pose proof (m_above _ _ _ M) as FA. pose proof (m_left _ _ _ M) as FL.
  pose proof (m_above_n _ _ _ M) as NA. pose proof (m_left_n _ _ _ M) as NL.
  pose proof (m_w _ _ _ M) as WW. pose proof (m_h _ _ _ M) as HH.
  rewrite m_chroma. unfold Spec.all_zero_ctx, Spec.ptype.
  assert (EW : Z.of_nat (width (Spec.i_tx I)) = 4 * 2 ^ Z.of_nat (log2w (Spec.i_tx I) - 2)).
  { unfold width. rewrite Nat2Z.inj_pow. change (Z.of_nat 2) with 2. change 4 with (2 ^ 2).
    rewrite <- Z.pow_add_r by lia. f_equal. lia. }
  assert (EH : Z.of_nat (height (Spec.i_tx I)) = 4 * 2 ^ Z.of_nat (log2h (Spec.i_tx I) - 2)).
  { unfold height. rewrite Nat2Z.inj_pow. change (Z.of_nat 2) with 2. change 4 with (2 ^ 2).
    rewrite <- Z.pow_add_r by lia. f_equal. lia. }
  rewrite EW, EH in *. unfold Spec.bw, Spec.bh in *. pose proof (m_plane_r _ _ _ M) as PR.
  set (lw := (log2w (Spec.i_tx I) - 2)%nat) in *. set (lh := (log2h (Spec.i_tx I) - 2)%nat) in *.
  set (bw := Spec.i_bw4log2 I) in *. set (bh := Spec.i_bh4log2 I) in *.
  assert (MONO : forall a b : nat, 2 ^ Z.of_nat a <= 2 ^ Z.of_nat b <-> (a <= b)%nat).
  { intros a b. rewrite <- Z.pow_le_mono_r_iff by lia. lia. }
  assert (MONE : forall a b : nat, 2 ^ Z.of_nat a = 2 ^ Z.of_nat b <-> a = b).
  { intros a b. split; [|congruence]. intros E. apply Z.pow_inj_r in E; lia. }
  destruct (Z.ltb_spec 0 (Spec.i_plane I)) as [P|P]; cbn [andb] in *.
  - (* chroma *)
    destruct (m_uv32 _ _ _ M P) as [U1 U2]. change (1 =? 1) with true. cbv iota.
    rewrite (proj2 (Z.eqb_neq (Spec.i_plane I) 0)) by lia.
    rewrite (merge_chroma_spec lw), (merge_chroma_spec lh) by (unfold levels_of; rewrite ?map_length; try apply bytes_of; auto; lia).
    cbn [obind]. rewrite !anyset_spec by auto. f_equal.
    rewrite <- (m_subx _ _ _ M), <- (m_suby _ _ _ M) in *.
    assert (SZ : forall b l s, (if (s : bool) then Z.max 4 (4 * 2 ^ Z.of_nat b / 2) else 4 * 2 ^ Z.of_nat b) =
                 4 * 2 ^ (Z.of_nat b - b2z (negb (Z.of_nat b =? 0) && s)) /\
                 (4 * 2 ^ Z.of_nat l <= 4 * 2 ^ (Z.of_nat b - b2z (negb (Z.of_nat b =? 0) && s)) ->
                  Z.of_nat l <= Z.of_nat b - b2z (negb (Z.of_nat b =? 0) && s)) /\
                 (Z.of_nat l <? Z.of_nat b - b2z (negb (Z.of_nat b =? 0) && s)) =
                 (2 ^ Z.of_nat l <? 2 ^ (Z.of_nat b - b2z (negb (Z.of_nat b =? 0) && s)))).
    { intros b l s. set (r := Z.of_nat b - _).
      assert (R : 0 <= r) by (unfold r; destruct (Z.eqb_spec (Z.of_nat b) 0), s; cbn; lia).
      split; [|split].
      - unfold r. destruct s; [|rewrite andb_false_r; cbn; f_equal; f_equal; lia].
        destruct (Z.eqb_spec (Z.of_nat b) 0) as [E|E]; cbn [negb andb b2z].
        + rewrite E. reflexivity.
        + replace (4 * 2 ^ Z.of_nat b) with (4 * 2 ^ (Z.of_nat b - 1) * 2)
            by (replace (Z.of_nat b) with (Z.succ (Z.of_nat b - 1)) at 2 by lia; rewrite Z.pow_succ_r by lia; lia).
          rewrite Z.div_mul by lia. pose proof (pow2_pos (Z.of_nat b - 1) ltac:(lia)). lia.
      - intros L. apply (Z.pow_le_mono_r_iff 2); lia.
      - destruct (Z.ltb_spec (Z.of_nat l) r) as [L|L]; symmetry.
        + apply Z.ltb_lt. apply Z.pow_lt_mono_r; lia.
        + apply Z.ltb_ge. apply Z.pow_le_mono_r; lia. }
    destruct (SZ bw lw (Spec.i_subX I)) as (S1 & S2 & S3). destruct (SZ bh lh (Spec.i_subY I)) as (S4 & S5 & S6).
    rewrite S1, S4 in *. specialize (S2 WW). specialize (S5 HH). rewrite S3, S6. clear S1 S4 SZ.
    set (p := 2 ^ (Z.of_nat bw - _)) in *. set (q := 2 ^ (Z.of_nat bh - _)) in *.
    pose proof (pow2_pos (Z.of_nat lw) ltac:(lia)). pose proof (pow2_pos (Z.of_nat lh) ltac:(lia)).
    set (u := 2 ^ Z.of_nat lw) in *. set (v := 2 ^ Z.of_nat lh) in *.
    assert (N : b2z ((u <? p) || (v <? q)) * 3 = if 4 * u * (4 * v) <? 4 * p * (4 * q) then 3 else 0).
    { destruct (Z.ltb_spec u p), (Z.ltb_spec v q); cbn [orb b2z]; destruct (Z.ltb_spec (4 * u * (4 * v)) (4 * p * (4 * q))); try nia.
      all: exfalso; assert (u = p) by lia; assert (v = q) by lia; subst; lia. }
    rewrite N. destruct (Spec.anyset _ =? 0), (Spec.anyset _ =? 0); cbn; lia.
  - (* luma *)
    assert (P0 : Spec.i_plane I = 0) by lia. rewrite P0. change (0 =? 1) with false. change (0 =? 0) with true. cbv iota.
    assert (B1 : (Z.of_nat bw =? Z.of_nat lw) = (4 * 2 ^ Z.of_nat bw =? 4 * 2 ^ Z.of_nat lw)).
    { destruct (Z.eqb_spec (Z.of_nat bw) (Z.of_nat lw)) as [E|E]; symmetry; [rewrite E; apply Z.eqb_refl|].
      apply Z.eqb_neq. intros X. apply E. f_equal. apply MONE. lia. }
    assert (B2 : (Z.of_nat bh =? Z.of_nat lh) = (4 * 2 ^ Z.of_nat bh =? 4 * 2 ^ Z.of_nat lh)).
    { destruct (Z.eqb_spec (Z.of_nat bh) (Z.of_nat lh)) as [E|E]; symmetry; [rewrite E; apply Z.eqb_refl|].
      apply Z.eqb_neq. intros X. apply E. f_equal. apply MONE. lia. }
    rewrite B1, B2. destruct (_ && _); [reflexivity|].
    destruct (merge_luma_low lw (levels_of (Spec.i_above I)) ra ltac:(lia) ltac:(unfold levels_of; rewrite map_length; auto) ltac:(apply bytes_of; auto)) as (la & -> & La).
    destruct (merge_luma_low lh (levels_of (Spec.i_left I)) rl ltac:(lia) ltac:(unfold levels_of; rewrite map_length; auto) ltac:(apply bytes_of; auto)) as (ll & -> & Ll).
    cbn [obind]. change (Z.land la 63) with (low la). change (Z.land ll 63) with (low ll). rewrite La, Ll.
    destruct (orl_class _ FA) as (A0 & A1 & A2 & A3). destruct (orl_class _ FL) as (C0 & C1 & C2 & C3).
    set (oa := orl (levels_of (Spec.i_above I))) in *. set (ol := orl (levels_of (Spec.i_left I))) in *.
    set (ma := Spec.maxlevel (Spec.i_above I)) in *. set (ml := Spec.maxlevel (Spec.i_left I)) in *.
    clear - A0 A1 A2 A3 C0 C1 C2 C3. clearbody oa ol ma ml.
    assert (XA : (oa = 0 /\ ma = 0) \/ (1 <= oa <= 3 /\ 1 <= ma <= 3) \/ (4 <= oa /\ 4 <= ma)) by lia.
    assert (XL : (ol = 0 /\ ml = 0) \/ (1 <= ol <= 3 /\ 1 <= ml <= 3) \/ (4 <= ol /\ 4 <= ml)) by lia.
    destruct XA as [[ -> -> ]|[[X1 X2]|[X1 X2]]], XL as [[ -> -> ]|[[Y1 Y2]|[Y1 Y2]]];
      repeat (match goal with |- context [Z.min oa 4] =>
        first [ replace (Z.min oa 4) with 4 by lia
              | let D := fresh in assert (D : oa = 1 \/ oa = 2 \/ oa = 3) by lia; destruct D as [ -> |[ -> | -> ]] ] end);
      repeat (match goal with |- context [Z.min ol 4] =>
        first [ replace (Z.min ol 4) with 4 by lia
              | let D := fresh in assert (D : ol = 1 \/ ol = 2 \/ ol = 3) by lia; destruct D as [ -> |[ -> | -> ]] ] end);
      cbn [Z.min Z.compare Pos.compare Pos.compare_cont obind rd_at skip_ctx_tbl nth_error];
      repeat (match goal with |- context [?x =? 0] => destruct (Z.eqb_spec x 0); try lia end);
      cbn [andb orb];
      repeat (match goal with |- context [?x <=? 3] => destruct (Z.leb_spec x 3); try lia end);
      repeat (match goal with |- context [3 <? ?x] => destruct (Z.ltb_spec 3 x); try lia end);
      try reflexivity.
Qed.

Lemma top_of_byte : forall c, ctx_ok c -> top_ok (ctx_byte c) /\
  ctx_byte c / 64 = 1 + (if snd (Spec.here c) =? 1 then -1 else if snd (Spec.here c) =? 2 then 1 else 0).
Proof.
  intros c C. unfold top_ok. pose proof (byte_range c C) as R. split; [split; [auto|]|]; revert C; clear R.
  - destruct c as [[l k]|]; cbn [ctx_ok ctx_byte]; [|cbn; lia]. intros [H1 H2].
    destruct (cat_codes k H2) as [ -> |[ -> | -> ]]; lia.
  - destruct c as [[l k]|]; cbn [ctx_ok ctx_byte Spec.here snd]; [|reflexivity]. intros [H1 H2].
    assert (E : k = 0 \/ k = 1 \/ k = 2) by lia. destruct E as [ -> |[ -> | -> ]]; cbn [cat_code Z.eqb Pos.eqb]; lia.
Qed.
Lemma zsum_tops : forall l, Forall ctx_ok l -> zsum (tops (levels_of l)) = Spec.dcSign l + Z.of_nat (length l) /\ Forall top_ok (levels_of l).
Proof.
  unfold zsum, tops, levels_of, Spec.dcSign. induction 1 as [|c l C H IH]; cbn [map fold_right length]; [split; [reflexivity|constructor]|].
  destruct (top_of_byte c C) as [T1 T2]. rewrite T2. split; [|constructor; tauto]. destruct IH as [IH _]. lia.
Qed.
Theorem dc_sign_ctx_spec : get_dc_sign_ctx (e_tx e) (e_a e) (e_l e) = Ok (Spec.dc_sign_ctx I).
Proof.
  unfold get_dc_sign_ctx. rewrite (m_etx _ _ _ M). destruct (m_a _ _ _ M) as (ra & ->). destruct (m_l _ _ _ M) as (rl & ->).
  destruct (zsum_tops _ (m_above _ _ _ M)) as [A1 A2]. destruct (zsum_tops _ (m_left _ _ _ M)) as [L1 L2].
  rewrite dc_sum_spec; auto; try apply (m_tx _ _ _ M);
    try (unfold levels_of; rewrite map_length; first [apply (m_above_n _ _ _ M)|apply (m_left_n _ _ _ M)]).
  cbn [obind]. f_equal. rewrite A1, L1. unfold Spec.dc_sign_ctx.
  replace (length (levels_of (Spec.i_above I))) with (length (Spec.i_above I)) by (symmetry; apply map_length).
  replace (length (levels_of (Spec.i_left I))) with (length (Spec.i_left I)) by (symmetry; apply map_length).
  set (s := Spec.dcSign _ + Spec.dcSign _).
  match goal with |- context [?x =? 0] => replace x with s by (unfold s; lia) end.
  match goal with |- context [0 <? ?x] => replace x with s by (unfold s; lia) end.
  destruct (Z.eqb_spec s 0), (Z.ltb_spec 0 s), (Z.ltb_spec s 0); cbn; lia.
Qed.
End MATCH.

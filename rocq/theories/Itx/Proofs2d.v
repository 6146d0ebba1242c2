(** inv_txfm_add_c against the two-dimensional transform of the specification. *)
From Coq Require Import ZArith List Bool Lia.
From Verif.Base Require Import CInt Lemmas.
From Verif.Itx Require Import Lang Txfm1d Interval ScanTables Txfm2d Spec1d Spec2d Proofs1d.
Import ListNotations.
Open Scope Z_scope.
Open Scope outcome_scope.

(** *** Lists *)
Lemma omap_ok : forall A B (f : A -> outcome B) g l, (forall a, In a l -> f a = Ok (g a)) -> omap f l = Ok (map g l).
Proof. induction l; intros H; cbn; auto. rewrite H by (left; auto). cbn. rewrite IHl; cbn; auto. intros; apply H; right; auto. Qed.
Lemma omap_ext : forall A B (f g : A -> outcome B) l, (forall a, In a l -> f a = g a) -> omap f l = omap g l.
Proof. induction l; intros H; cbn; auto. rewrite H by (left; auto). rewrite IHl; auto. intros; apply H; right; auto. Qed.
Lemma omap_map : forall A B C (f : B -> outcome C) (g : A -> B) l, omap f (map g l) = omap (fun a => f (g a)) l.
Proof. induction l; cbn; auto. rewrite IHl. auto. Qed.
Lemma zseq_in : forall n i, In i (zseq n) -> 0 <= i < n.
Proof. intros n i H. unfold zseq in H. apply in_map_iff in H as (k & <- & H). apply in_seq in H. lia. Qed.
Lemma zseq_nat : forall n, zseq (Z.of_nat n) = map Z.of_nat (seq 0 n).
Proof. intros. unfold zseq. rewrite Nat2Z.id. reflexivity. Qed.
Lemma rd_at_nat : forall A (l : list A) k d, (k < length l)%nat -> rd_at l (Z.of_nat k) = Ok (nth k l d).
Proof. intros. rewrite rd_at_nth with (d := d) by (unfold zlen; lia). rewrite Nat2Z.id. reflexivity. Qed.
Lemma rd_init_nat : forall (l : list Z) k, (k < length l)%nat -> rd_init (map Some l) (Z.of_nat k) = Ok (nth k l 0).
Proof.
  intros. unfold rd_init. rewrite rd_at_nat with (d := Some 0) by (rewrite map_length; auto). cbn.
  rewrite map_nth. reflexivity.
Qed.
Lemma map_nth_seq : forall A (l : list A) d, map (fun k => nth k l d) (seq 0 (length l)) = l.
Proof.
  intros A l d. induction l; cbn; auto. f_equal. rewrite <- seq_shift, map_map. cbn. exact IHl.
Qed.
Lemma nth_rev' : forall A (l : list A) d k, (k < length l)%nat -> nth k (rev l) d = nth (length l - 1 - k) l d.
Proof. intros. rewrite rev_nth by auto. f_equal. lia. Qed.
Lemma rev_repeat : forall A (x : A) n, rev (repeat x n) = repeat x n.
Proof.
  intros A x n. induction n; cbn; auto. rewrite IHn. clear. induction n; cbn; f_equal; auto.
Qed.
Lemma nth_repeat0 : forall n k, nth k (repeat 0 n) 0 = 0.
Proof. induction n; intros [|k]; cbn; auto. Qed.
Lemma map_seq_const : forall (f : nat -> Z) n k, (forall i, (k <= i < k + n)%nat -> f i = 0) -> map f (seq k n) = repeat 0 n.
Proof. induction n; intros k H; cbn; auto. rewrite H by lia. f_equal. apply IHn. intros; apply H; lia. Qed.
Lemma seq_split : forall n m, (m <= n)%nat -> seq 0 n = seq 0 m ++ seq m (n - m).
Proof. intros. rewrite <- seq_app. f_equal. lia. Qed.

(** *** Arithmetic *)
Lemma ck_ok : forall v, INT_MIN <= v <= INT_MAX -> ck v = Ok v.
Proof. intros v H. unfold ck. rewrite (proj2 (fits_int_iff v)) by auto. reflexivity. Qed.
Lemma mul181_ok : forall v, - 4194304 <= v <= 4194304 -> mul181 v = Ok (round2 (v * 2896) 12).
Proof.
  intros v H. unfold mul181. rewrite ck_ok by (unfold INT_MIN, INT_MAX; lia). cbn [obind].
  rewrite ck_ok by (unfold INT_MIN, INT_MAX; lia). cbn [obind]. f_equal. unfold round2. cbn [Z.eqb].
  rewrite !shiftr_div by lia. change (2 ^ (12 - 1)) with (128 * 16). change (2 ^ 12) with (2 ^ 8 * 16).
  replace (v * 2896 + 128 * 16) with ((v * 181 + 128) * 16) by lia.
  rewrite Z.div_mul_cancel_r; lia.
Qed.
Lemma round2_ok : forall v s, 0 <= s -> Z.shiftr (v + Z.shiftr (Z.shiftl 1 s) 1) s = round2 v s.
Proof.
  intros v s H. unfold round2. destruct (s =? 0) eqn:E.
  - apply Z.eqb_eq in E. subst. change (Z.shiftr (Z.shiftl 1 0) 1) with 0. rewrite Z.shiftr_0_r. lia.
  - apply Z.eqb_neq in E. f_equal. f_equal. rewrite Z.shiftl_1_l, shiftr_div by lia.
    replace s with (s - 1 + 1) at 1 by lia. rewrite Z.pow_add_r by lia. rewrite Z.div_mul by lia. reflexivity.
Qed.
Lemma clamp_id : forall r v, range (r - 1) v -> clamp r v = v.
Proof.
  intros r v [H1 H2]. unfold clamp. rewrite (proj2 (Z.ltb_ge _ _)) by lia. rewrite (proj2 (Z.ltb_ge _ _)) by lia. reflexivity.
Qed.
Lemma clamp_range : forall r v, 1 <= r -> range (r - 1) (clamp r v).
Proof.
  intros r v H. unfold clamp, range. pose proof (pow2_pos (r - 1) ltac:(lia)).
  destruct (v <? _) eqn:E1; [lia|]. destruct (_ <? v) eqn:E2; [lia|]. apply Z.ltb_ge in E1, E2. lia.
Qed.
Lemma satR_clamp : forall r v, satR (r - 1) v = clamp r v.
Proof. reflexivity. Qed.
Lemma iclip_clamp : forall r v, iclip v (- 2 ^ (r - 1)) (2 ^ (r - 1) - 1) = clamp r v.
Proof. reflexivity. Qed.

Lemma do_steps_ext : forall s1 s2 l T, (forall v, s1 v = s2 v) -> do_steps s1 l T = do_steps s2 l T.
Proof.
  intros s1 s2 l T H. revert T. unfold do_steps. induction l; cbn; auto. intros T. rewrite IHl. f_equal.
  destruct a; cbn; auto. unfold do_H. rewrite !H. reflexivity.
Qed.

(** round2 (v * 2896) 12 shrinks *)
Lemma scale_range : forall R v, 0 <= R <= 20 -> range R v -> range R (round2 (v * 2896) 12).
Proof.
  intros R v HR [H1 H2]. unfold round2, range. cbn [Z.eqb]. rewrite shiftr_div by lia.
  change (2 ^ (12 - 1)) with 2048. change (2 ^ 12) with 4096.
  pose proof (pow2_pos R ltac:(lia)).
  split; [apply Z.div_le_lower_bound|apply Z.lt_succ_r; apply Z.div_lt_upper_bound]; try lia; nia.
Qed.

(** *** Sizes and types *)
Definition bd_ok (bd : Z) : Prop := bd = 8 \/ bd = 10 \/ bd = 12.
Definition bdmax (bd : Z) : Z := 2 ^ bd - 1.
Definition is8 (bd : Z) : bool := bd =? 8.

Lemma clip_bounds : forall bd, bd_ok bd ->
  R_ok (row_bits bd - 1) /\ R_ok (col_bits bd - 1) /\
  row_clip_min (is8 bd) (bdmax bd) = - 2 ^ (row_bits bd - 1) /\
  Z.lnot (row_clip_min (is8 bd) (bdmax bd)) = 2 ^ (row_bits bd - 1) - 1 /\
  col_clip_min (is8 bd) (bdmax bd) = - 2 ^ (col_bits bd - 1) /\
  Z.lnot (col_clip_min (is8 bd) (bdmax bd)) = 2 ^ (col_bits bd - 1) - 1.
Proof.
  intros bd [ -> |[ -> | -> ]]; unfold R_ok; cbn; repeat split; auto.
Qed.
Lemma iclip_pixel_ok : forall bd v, bd_ok bd -> iclip_pixel (is8 bd) (bdmax bd) v = Clip1 bd v.
Proof. intros bd v [ -> |[ -> | -> ]]; reflexivity. Qed.

Definition is_rect (tx : nat) : bool := Nat.eqb (log2w tx) (S (log2h tx)) || Nat.eqb (log2h tx) (S (log2w tx)).

Record setup (tx ty : nat) (t_dim : txinfo) (first second : tx1d) (fn1 fn2 : list block) (st : txset) : Prop := {
  su_dim : rd_at txfm_dimensions (Z.of_nat tx) = Ok t_dim;
  su_fns : rd_at tx_fns (Z.of_nat tx) = Ok (st, row_shift tx);
  su_set : in_set st (Z.of_nat ty) = true;
  su_wht : (Z.of_nat ty =? WHT_WHT) = false;
  su_types : rd_at tx1d_types (swapped_type (Z.of_nat ty)) = Ok (first, second);
  su_first : kind_of first = row_kind ty;
  su_second : kind_of second = col_kind ty;
  su_lw : (Z.to_nat (ti_lw t_dim) + 2)%nat = log2w tx;
  su_lh : (Z.to_nat (ti_lh t_dim) + 2)%nat = log2h tx;
  su_w : 4 * ti_w t_dim = Z.of_nat (width tx);
  su_h : 4 * ti_h t_dim = Z.of_nat (height tx);
  su_wr : (4 <= width tx <= 64)%nat;
  su_hr : (4 <= height tx <= 64)%nat;
  su_rect : ((4 * ti_w t_dim * 2 =? 4 * ti_h t_dim) || (4 * ti_h t_dim * 2 =? 4 * ti_w t_dim)) = is_rect tx;
  su_fn1 : tx1d_fns (ti_lw t_dim) first = Some fn1;
  su_fn2 : tx1d_fns (ti_lh t_dim) second = Some fn2;
  su_shift : 0 <= row_shift tx <= 2;
  su_dct : (swapped_type (Z.of_nat ty) =? DCT_DCT) = Nat.eqb ty 0;
  su_llw : 0 <= ti_lw t_dim <= 4; su_llh : 0 <= ti_lh t_dim <= 4 }.

Lemma setup_ex : forall tx ty, (tx < 19)%nat -> (ty < 16)%nat -> allowed tx ty = true ->
  exists t_dim first second fn1 fn2 st, setup tx ty t_dim first second fn1 fn2 st.
Proof.
  intros tx ty H1 H2 A.
  do 19 (destruct tx as [|tx]; [clear H1; do 16 (destruct ty as [|ty]; [try discriminate A; do 6 eexists;
    constructor; try reflexivity; cbn; lia|]); lia|]). lia.
Qed.

(** The two-dimensional transform of the code is the one of the specification. *)
From Coq Require Import ZArith List Bool Lia.
From Verif.Base Require Import CInt Lemmas.
From Verif.Itx Require Import Lang Txfm1d Interval ScanTables Txfm2d Spec1d Spec2d Proofs1d Proofs2d ScanProofs.
Import ListNotations.
Open Scope Z_scope.
Open Scope outcome_scope.

(** The coefficients in memory: column by column. *)
Definition layout (tx : nat) (coef : nat -> nat -> Z) : list Z :=
  flat_map (fun j => map (fun i => coef i j) (seq 0 (scan_h tx))) (seq 0 (scan_w tx)).

(** A block of [tx] size and [ty] type that the decoder can meet: the
    coefficients are in range, and zero beyond the last scan index [eob]. *)
Record block_ok (bd : Z) (tx ty eob : nat) (coef : nat -> nat -> Z) (dst : list (list Z)) : Prop := {
  bo_bd : bd_ok bd;
  bo_tx : (tx < 19)%nat;
  bo_ty : (ty < 16)%nat;
  bo_allowed : allowed tx ty = true;
  bo_eob : (eob < scan_w tx * scan_h tx)%nat;
  bo_coef : forall i j, (i < scan_h tx)%nat -> (j < scan_w tx)%nat -> - 2 ^ (bd + 7) <= coef i j <= 2 ^ (bd + 7) - 1;
  bo_zero : forall i j, (i < scan_h tx)%nat -> (j < scan_w tx)%nat -> coef i j <> 0 ->
              exists c, (c <= eob)%nat /\ nth c (get_scan tx ty) 0%nat = (i * scan_w tx + j)%nat;
  bo_h : length dst = height tx;
  bo_w : Forall (fun r => length r = width tx) dst;
  bo_px : Forall (Forall (fun v => 0 <= v <= 2 ^ bd - 1)) dst }.

Lemma layout_length : forall tx coef, length (layout tx coef) = (scan_w tx * scan_h tx)%nat.
Proof.
  intros tx coef. unfold layout.
  assert (G : forall l : list nat, length (flat_map (fun j => map (fun i => coef i j) (seq 0 (scan_h tx))) l) = (length l * scan_h tx)%nat).
  { induction l; cbn [flat_map length]; auto. rewrite app_length, IHl, map_length, seq_length. lia. }
  rewrite G, seq_length. reflexivity.
Qed.
Lemma layout_nth : forall tx coef i j, (i < scan_h tx)%nat -> (j < scan_w tx)%nat ->
  nth (i + j * scan_h tx) (layout tx coef) 0 = coef i j.
Proof.
  intros tx coef i j I J. unfold layout.
  assert (G : forall n s j, (j < n)%nat ->
     nth (i + j * scan_h tx) (flat_map (fun j => map (fun i => coef i j) (seq 0 (scan_h tx))) (seq s n)) 0 = coef i (s + j)%nat).
  { clear j J. induction n; intros s j J; [lia|]. cbn [seq flat_map]. destruct j as [|j].
    - rewrite app_nth1 by (rewrite map_length, seq_length; lia). cbn [Nat.mul]. rewrite !Nat.add_0_r.
      rewrite (nth_indep _ 0 ((fun i => coef i s) 0%nat)) by (rewrite map_length, seq_length; auto).
      rewrite (map_nth (fun i => coef i s)). rewrite seq_nth by auto. reflexivity.
    - rewrite app_nth2 by (rewrite map_length, seq_length; cbn; lia). rewrite map_length, seq_length.
      replace (i + S j * scan_h tx - scan_h tx)%nat with (i + j * scan_h tx)%nat by (cbn; lia).
      rewrite IHn by lia. f_equal. lia. }
  rewrite G by auto. reflexivity.
Qed.
Lemma rd_layout : forall tx coef rest i j, (i < scan_h tx)%nat -> (j < scan_w tx)%nat ->
  rd_at (layout tx coef ++ rest) (Z.of_nat i + Z.of_nat j * Z.of_nat (scan_h tx)) = Ok (coef i j).
Proof.
  intros tx coef rest i j I J.
  assert (B : (i + j * scan_h tx < scan_w tx * scan_h tx)%nat) by nia.
  replace (Z.of_nat i + Z.of_nat j * Z.of_nat (scan_h tx)) with (Z.of_nat (i + j * scan_h tx)) by lia.
  rewrite rd_at_nat with (d := 0) by (rewrite app_length, layout_length; lia).
  rewrite app_nth1 by (rewrite layout_length; auto). rewrite layout_nth by auto. reflexivity.
Qed.

Lemma R_bound : forall R, R_ok R -> 0 <= R <= 20. Proof. intros R [ -> |[ -> | -> ]]; lia. Qed.
Lemma R_small : forall R v, R_ok R -> range R v -> - 524288 <= v <= 524287.
Proof. intros R v [ -> |[ -> | -> ]] [H1 H2]; lia. Qed.
Lemma sat0 : forall r, 1 <= r -> clamp r 0 = 0.
Proof. intros r R. apply clamp_id. unfold range. pose proof (pow2_pos (r - 1) ltac:(lia)). lia. Qed.
(** flipping *)
Definition fl (b : bool) (n k : nat) : nat := if b then (n - 1 - k)%nat else k.
Lemma fl_lt : forall b n k, (k < n)%nat -> (fl b n k < n)%nat.
Proof. intros [] n k; cbn; lia. Qed.
Lemma flipped_nth : forall t (T : list Z) k, (k < length T)%nat ->
  nth k (flipped t T) 0 = nth (fl (is_flip (kind_of t)) (length T) k) T 0.
Proof. intros t T k K. unfold flipped, fl. destruct (is_flip (kind_of t)); auto. apply nth_rev'; auto. Qed.
Lemma flipped_length : forall t (T : list Z), length (flipped t T) = length T.
Proof. intros t T. unfold flipped. destruct (is_flip _); auto. apply rev_length. Qed.
Lemma flipped_map : forall t (f : Z -> Z) T, map f (flipped t T) = flipped t (map f T).
Proof. intros t f T. unfold flipped. destruct (is_flip _); auto. apply map_rev. Qed.

Lemma Forall_small_nth : forall T k, Forall small T -> small (nth k T 0).
Proof.
  intros T k F. destruct (Nat.lt_ge_cases k (length T)).
  - rewrite Forall_forall in F. apply F, nth_In; auto.
  - rewrite nth_overflow by auto. unfold small, MAXV. lia.
Qed.


Section Block.
Variables (bd : Z) (tx ty eob : nat) (coef : nat -> nat -> Z) (dst : list (list Z)).
Hypothesis BO : block_ok bd tx ty eob coef dst.
Variables (t_dim : txinfo) (first second : tx1d) (fn1 fn2 : list block) (st : txset).
Hypothesis SU : setup tx ty t_dim first second fn1 fn2 st.

Let w := width tx.
Let h := height tx.
Let sw := scan_w tx.
Let sh := scan_h tx.
Let satr := clamp (row_bits bd).
Let satc := clamp (col_bits bd).

Definition scaled (v : Z) : Z := if is_rect tx then round2 (v * 2896) 12 else v.
Definition Trow (i : nat) : list Z := do_steps satr (kind_steps (row_kind ty) (log2w tx)) (row_input bd tx coef i).
Definition Tcol (j : nat) : list Z :=
  do_steps satc (kind_steps (col_kind ty) (log2h tx)) (col_input satr bd tx ty coef j).

Lemma bdr : bd = 8 \/ bd = 10 \/ bd = 12. Proof. exact (bo_bd _ _ _ _ _ _ BO). Qed.
Lemma rb_ok : R_ok (row_bits bd - 1) /\ R_ok (col_bits bd - 1).
Proof. destruct (clip_bounds bd bdr) as (A & B & _). auto. Qed.

Lemma pts_w : points (ti_lw t_dim) = w.
Proof. unfold points. rewrite (su_lw _ _ _ _ _ _ _ _ SU). reflexivity. Qed.
Lemma pts_h : points (ti_lh t_dim) = h.
Proof. unfold points. rewrite (su_lh _ _ _ _ _ _ _ _ SU). reflexivity. Qed.
Lemma sw_min : sw = Nat.min 32 w. Proof. reflexivity. Qed.
Lemma sh_min : sh = Nat.min 32 h. Proof. reflexivity. Qed.
Lemma w_r : (4 <= w <= 64)%nat. Proof. exact (su_wr _ _ _ _ _ _ _ _ SU). Qed.
Lemma h_r : (4 <= h <= 64)%nat. Proof. exact (su_hr _ _ _ _ _ _ _ _ SU). Qed.

Lemma coef_range : forall i j, (i < sh)%nat -> (j < sw)%nat -> range (row_bits bd - 1) (coef i j).
Proof.
  intros i j I J. pose proof (bo_coef _ _ _ _ _ _ BO i j I J) as Q. unfold range, row_bits.
  replace (bd + 8 - 1) with (bd + 7) by lia. exact Q.
Qed.
Lemma scaled_range : forall i j, (i < sh)%nat -> (j < sw)%nat -> range (row_bits bd - 1) (scaled (coef i j)).
Proof.
  intros i j I J. pose proof (coef_range i j I J) as Q. unfold scaled. destruct (is_rect tx); auto.
  apply scale_range; auto. apply R_bound. apply rb_ok.
Qed.

Lemma row_input_low : forall i, (i < sh)%nat ->
  row_input bd tx coef i = map (fun j => scaled (coef i j)) (seq 0 sw) ++ repeat 0 (w - sw).
Proof.
  intros i I. pose proof sw_min. pose proof sh_min.
  unfold row_input. cbv zeta. fold (is_rect tx).
  assert (E : map (clamp (row_bits bd))
     (if is_rect tx then map (fun v => round2 (v * 2896) 12)
        (map (fun j => if (i <? 32)%nat && (j <? 32)%nat then coef i j else 0) (seq 0 (width tx)))
      else map (fun j => if (i <? 32)%nat && (j <? 32)%nat then coef i j else 0) (seq 0 (width tx))) =
     map (fun j => clamp (row_bits bd) (scaled (if (i <? 32)%nat && (j <? 32)%nat then coef i j else 0))) (seq 0 w)).
  { unfold scaled. destruct (is_rect tx); rewrite ?map_map; reflexivity. }
  rewrite E. clear E. rewrite (seq_split w sw) by lia. rewrite map_app. f_equal.
  - apply map_ext_in. intros j J. apply in_seq in J.
    rewrite (proj2 (Nat.ltb_lt i 32)), (proj2 (Nat.ltb_lt j 32)) by lia. cbn [andb].
    apply clamp_id. apply scaled_range; lia.
  - apply map_seq_const. intros j J. rewrite (proj2 (Nat.ltb_ge j 32)) by lia. rewrite andb_false_r.
    assert (S0 : scaled 0 = 0) by (unfold scaled; destruct (is_rect tx); reflexivity).
    rewrite S0. apply clamp_id. unfold range. pose proof (R_bound _ (proj1 rb_ok)).
    pose proof (pow2_pos (row_bits bd - 1) ltac:(lia)). lia.
Qed.

Lemma rb1 : 1 <= row_bits bd. Proof. pose proof (R_bound _ (proj1 rb_ok)). lia. Qed.
Lemma cb1 : 1 <= col_bits bd. Proof. pose proof (R_bound _ (proj2 rb_ok)). lia. Qed.

(** a row of zeros *)
Lemma row_input_zero : forall i, (32 <= i)%nat \/ (forall j, (j < sw)%nat -> coef i j = 0) -> row_input bd tx coef i = repeat 0 w.
Proof.
  intros i ZZ. unfold row_input. cbv zeta. fold (is_rect tx).
  assert (E : map (fun j => if (i <? 32)%nat && (j <? 32)%nat then coef i j else 0) (seq 0 (width tx)) = repeat 0 w).
  { apply map_seq_const. intros j J. destruct (i <? 32)%nat eqn:I; auto. apply Nat.ltb_lt in I.
    destruct (j <? 32)%nat eqn:K; auto. apply Nat.ltb_lt in K. destruct ZZ as [ZZ|ZZ]; [lia|]. apply ZZ. pose proof sw_min. fold w in J. lia. }
  rewrite E.
  assert (M : forall f : Z -> Z, f 0 = 0 -> map f (repeat 0 w) = repeat 0 w).
  { intros f F. generalize w. intros n. induction n; cbn; f_equal; auto. }
  destruct (is_rect tx); rewrite ?M; auto using sat0, rb1.
Qed.
Lemma do_len : forall i, (i < sh)%nat ->
  run_c (- 2 ^ (row_bits bd - 1)) (2 ^ (row_bits bd - 1) - 1) fn1
    (map Some (map (fun j => scaled (coef i j)) (seq 0 sw)) ++ repeat None (w - sw)) =
    Ok (map Some (flipped first (Trow i))) /\ length (Trow i) = w /\ Forall small (Trow i).
Proof.
  intros i I.
  pose proof (tx1d_run (row_bits bd - 1) (ti_lw t_dim) first fn1 (map (fun j => scaled (coef i j)) (seq 0 sw))
    (proj1 rb_ok) (su_fn1 _ _ _ _ _ _ _ _ SU)) as Q. cbv zeta in Q.
  rewrite pts_w in Q. fold sw in Q. rewrite <- sw_min in Q. rewrite (su_lw _ _ _ _ _ _ _ _ SU) in Q.
  rewrite (su_first _ _ _ _ _ _ _ _ SU) in Q. rewrite <- row_input_low in Q by auto.
  rewrite map_length, seq_length in Q. specialize (Q eq_refl).
  assert (E : do_steps (satR (row_bits bd - 1)) (kind_steps (row_kind ty) (log2w tx)) (row_input bd tx coef i) = Trow i)
    by (apply do_steps_ext; intros; apply satR_clamp).
  rewrite E in Q. apply Q. apply Forall_map, Forall_forall. intros j J. apply in_seq in J. apply scaled_range; lia.
Qed.
Lemma repeat_app_z : forall a b, repeat 0 a ++ repeat 0 b = repeat 0 (a + b).
Proof. intros. rewrite repeat_app. reflexivity. Qed.
Lemma Trow_len0 : length (do_steps satr (kind_steps (row_kind ty) (log2w tx)) (repeat 0 w)) = w.
Proof.
  pose proof (tx1d_run (row_bits bd - 1) (ti_lw t_dim) first fn1 (repeat 0 sw)
    (proj1 rb_ok) (su_fn1 _ _ _ _ _ _ _ _ SU)) as Q. cbv zeta in Q.
  rewrite pts_w in Q. fold sw in Q. rewrite <- sw_min in Q. rewrite (su_lw _ _ _ _ _ _ _ _ SU) in Q.
  rewrite (su_first _ _ _ _ _ _ _ _ SU) in Q. rewrite repeat_length in Q. specialize (Q eq_refl).
  rewrite repeat_app_z in Q. replace (sw + (w - sw))%nat with w in Q by (pose proof sw_min; lia).
  assert (F : Forall (range (row_bits bd - 1)) (repeat 0 sw)).
  { apply Forall_forall. intros v V. apply repeat_spec in V. subst v. unfold range.
    pose proof (R_bound _ (proj1 rb_ok)). pose proof (pow2_pos (row_bits bd - 1) ltac:(lia)). lia. }
  destruct (Q F) as (_ & L & _).
  exact L.
Qed.
Lemma Trow_zero : forall i, (32 <= i)%nat \/ (forall j, (j < sw)%nat -> coef i j = 0) -> Trow i = repeat 0 w.
Proof.
  intros i Z. unfold Trow. rewrite row_input_zero by auto.
  rewrite (zeros_repeat (do_steps satr _ (repeat 0 w))).
  - rewrite Trow_len0. reflexivity.
  - apply do_steps_zeros; [apply sat0, rb1|apply kind_steps_ok|].
    apply Forall_forall. intros v V. apply repeat_spec in V. auto.
Qed.
Lemma Trow_length : forall i, (i < h)%nat -> length (Trow i) = w.
Proof.
  intros i H. destruct (Nat.lt_ge_cases i sh) as [I|I].
  - apply do_len; auto.
  - rewrite Trow_zero by (left; pose proof sh_min; lia). apply repeat_length.
Qed.
Lemma Trow_small : forall i, (i < h)%nat -> Forall small (Trow i).
Proof.
  intros i H. destruct (Nat.lt_ge_cases i sh) as [I|I].
  - apply do_len; auto.
  - rewrite Trow_zero by (left; pose proof sh_min; lia). apply Forall_forall. intros v V. apply repeat_spec in V.
    subst v. unfold small, MAXV. lia.
Qed.

(** the rounded rows *)
Let rowo (i : nat) : list Z := row_output satr bd tx ty coef i.
Lemma rowo_eq : forall i, rowo i = map (fun v => satc (round2 v (row_shift tx))) (Trow i).
Proof. reflexivity. Qed.
Lemma rowo_length : forall i, (i < h)%nat -> length (rowo i) = w.
Proof. intros i I. rewrite rowo_eq, map_length. apply Trow_length; auto. Qed.
Lemma rowo_range : forall i, Forall (range (col_bits bd - 1)) (rowo i).
Proof. intros i. rewrite rowo_eq. apply Forall_map, Forall_forall. intros v _. apply clamp_range, cb1. Qed.
Lemma rowo_zero : forall i, (32 <= i)%nat -> rowo i = repeat 0 w.
Proof.
  intros i I. rewrite rowo_eq, Trow_zero by auto.
  assert (F : satc (round2 0 (row_shift tx)) = 0).
  { rewrite round2_0 by (pose proof (su_shift _ _ _ _ _ _ _ _ SU); lia). apply sat0, cb1. }
  revert F. generalize w. intros n F. induction n; cbn [repeat map]; f_equal; auto.
Qed.

(** columns *)
Lemma col_input_low : forall j, (j < w)%nat ->
  col_input satr bd tx ty coef j = map (fun i => nth j (rowo i) 0) (seq 0 sh) ++ repeat 0 (h - sh).
Proof.
  intros j J. unfold col_input. fold h. pose proof sh_min. rewrite (seq_split h sh) by lia. rewrite map_app. f_equal.
  apply map_seq_const. intros i I. fold (rowo i). rewrite rowo_zero by lia. apply nth_repeat0.
Qed.
Lemma col_run : forall j, (j < w)%nat ->
  run_c (- 2 ^ (col_bits bd - 1)) (2 ^ (col_bits bd - 1) - 1) fn2
    (map Some (map (fun i => nth j (rowo i) 0) (seq 0 sh)) ++ repeat None (h - sh)) =
    Ok (map Some (flipped second (Tcol j))) /\ length (Tcol j) = h /\ Forall small (Tcol j).
Proof.
  intros j J.
  pose proof (tx1d_run (col_bits bd - 1) (ti_lh t_dim) second fn2 (map (fun i => nth j (rowo i) 0) (seq 0 sh))
    (proj2 rb_ok) (su_fn2 _ _ _ _ _ _ _ _ SU)) as Q. cbv zeta in Q.
  rewrite pts_h in Q. fold sh in Q. rewrite <- sh_min in Q. rewrite (su_lh _ _ _ _ _ _ _ _ SU) in Q.
  rewrite (su_second _ _ _ _ _ _ _ _ SU) in Q. rewrite <- col_input_low in Q by auto.
  rewrite map_length, seq_length in Q. specialize (Q eq_refl).
  assert (E : do_steps (satR (col_bits bd - 1)) (kind_steps (col_kind ty) (log2h tx)) (col_input satr bd tx ty coef j) = Tcol j)
    by (apply do_steps_ext; intros; apply satR_clamp).
  rewrite E in Q. apply Q. apply Forall_map, Forall_forall. intros i I. apply in_seq in I.
  pose proof (rowo_range i) as F. rewrite Forall_forall in F. apply F, nth_In.
  rewrite rowo_length; auto. pose proof sh_min. lia.
Qed.

Theorem general_spec : forall rest,
  general (is8 bd) (bdmax bd) dst (layout tx coef ++ rest) (Z.of_nat eob) (Z.of_nat tx) (row_shift tx) (swapped_type (Z.of_nat ty)) =
  Ok (reconstruct satr satc bd tx ty coef dst, repeat 0 (sw * sh) ++ rest).
Proof.
  intros rest.
  destruct (clip_bounds bd bdr) as (_ & _ & C1 & C2 & C3 & C4).
  unfold general. rewrite (su_dim _ _ _ _ _ _ _ _ SU). cbn [obind]. cbv zeta.
  rewrite (su_rect _ _ _ _ _ _ _ _ SU). rewrite (su_types _ _ _ _ _ _ _ _ SU). cbn [obind fst snd].
  rewrite (su_fn1 _ _ _ _ _ _ _ _ SU), (su_fn2 _ _ _ _ _ _ _ _ SU).
  rewrite (su_w _ _ _ _ _ _ _ _ SU), (su_h _ _ _ _ _ _ _ _ SU). fold w h.
  rewrite C2, C4, C1, C3.
  replace (Z.min (Z.of_nat h) 32) with (Z.of_nat sh) by (rewrite sh_min; lia).
  replace (Z.min (Z.of_nat w) 32) with (Z.of_nat sw) by (rewrite sw_min; lia).
  destruct (skipped_rows tx ty t_dim first second eob (bo_tx _ _ _ _ _ _ BO) (bo_ty _ _ _ _ _ _ BO) (bo_allowed _ _ _ _ _ _ BO)
     (su_dim _ _ _ _ _ _ _ _ SU) (su_types _ _ _ _ _ _ _ _ SU) (bo_eob _ _ _ _ _ _ BO)) as (lnc & L1 & L2 & L3).
  fold sh in L1, L2. rewrite L1. cbn [obind]. rewrite (proj2 (Z.ltb_lt _ _)) by lia.
  (* rows *)
  replace (Z.of_nat lnc + 1) with (Z.of_nat (S lnc)) by lia. rewrite !zseq_nat. rewrite omap_map.
  rewrite (omap_ok _ _ _ (fun y => map Some (flipped first (Trow y)))).
  2:{ intros y Y. apply in_seq in Y. rewrite omap_map.
      rewrite (omap_ok _ _ _ (fun x => scaled (coef y x))).
      - cbn [obind]. replace (Z.to_nat (Z.of_nat w - Z.of_nat sw)) with (w - sw)%nat by lia.
        apply do_len. lia.
      - intros x X. apply in_seq in X. unfold sh. rewrite rd_layout by (fold sh; fold sw; lia). cbn [obind].
        unfold scaled. destruct (is_rect tx); auto. apply mul181_ok.
        pose proof (R_small _ _ (proj1 rb_ok) (coef_range y x ltac:(lia) ltac:(lia))). lia. }
  cbn [obind].
  assert (RS : map (fun y => map Some (flipped first (Trow y))) (seq 0 (S lnc)) ++
     repeat (repeat (Some 0) (Z.to_nat (Z.of_nat w))) (Z.to_nat (Z.of_nat sh - Z.of_nat lnc - 1)) =
     map (fun y => map Some (flipped first (Trow y))) (seq 0 sh)).
  { rewrite (seq_split sh (S lnc)) by lia. rewrite map_app. f_equal.
    replace (Z.to_nat (Z.of_nat sh - Z.of_nat lnc - 1)) with (sh - S lnc)%nat by lia. rewrite Nat2Z.id.
    assert (G : forall n s, (S lnc <= s)%nat -> (s + n <= sh)%nat ->
       repeat (repeat (Some 0) w) n = map (fun y => map Some (flipped first (Trow y))) (seq s n)).
    { induction n; intros s S1 S2; cbn [repeat seq map]; auto. f_equal; [|apply IHn; lia].
      rewrite Trow_zero.
      - unfold flipped. rewrite rev_repeat. destruct (is_flip _); clear; generalize w; intros n; induction n; cbn; f_equal; auto.
      - right. intros j J. destruct (Z.eq_dec (coef s j) 0) as [|NZ]; auto. exfalso.
        destruct (bo_zero _ _ _ _ _ _ BO s j ltac:(fold sh; lia) J NZ) as (c & Q1 & Q2).
        specialize (L3 c Q1). rewrite Q2 in L3. unfold scan_row in L3. fold sw in L3, J.
        rewrite Nat.add_comm, Nat.div_add, Nat.div_small in L3 by (auto; pose proof w_r; pose proof sw_min; lia).
        lia. }
    apply G; lia. }
  rewrite RS. clear RS.
  assert (LL : zlen (layout tx coef ++ rest) = Z.of_nat (sw * sh) + zlen rest).
  { unfold zlen. rewrite app_length, layout_length. fold sw sh. lia. }
  rewrite (proj2 (Z.leb_le _ _)) by (rewrite LL; unfold zlen; lia).
  replace (Z.to_nat (Z.of_nat sw * Z.of_nat sh)) with (length (layout tx coef)) by (rewrite layout_length; fold sw sh; lia).
  rewrite skipn_app, skipn_all, Nat.sub_diag. cbn [skipn app]. rewrite layout_length. fold sw sh.
  (* rounding *)
  rewrite omap_map.
  rewrite (omap_ok _ _ _ (fun y => flipped first (rowo y))).
  2:{ intros y Y. apply in_seq in Y. assert (YH : (y < h)%nat) by (pose proof sh_min; lia).
      rewrite omap_map.
      rewrite (omap_ok _ _ _ (fun x => nth x (flipped first (rowo y)) 0)).
      - f_equal. pose proof (map_nth_seq _ (flipped first (rowo y)) 0) as MS.
        rewrite flipped_length, rowo_length in MS by auto. exact MS.
      - intros x X. apply in_seq in X. unfold elt. rewrite rd_init_nat by (rewrite flipped_length, Trow_length; auto; lia).
        cbn [obind].
        pose proof (Trow_small y YH) as SM.
        assert (SM' : Forall small (flipped first (Trow y))).
        { unfold flipped. destruct (is_flip _); auto. apply Forall_rev; auto. }
        pose proof (Forall_small_nth _ x SM') as B. unfold small, MAXV in B.
        pose proof (su_shift _ _ _ _ _ _ _ _ SU) as SHF.
        assert (RB : 0 <= Z.shiftr (Z.shiftl 1 (row_shift tx)) 1 <= 2).
        { assert (SC : row_shift tx = 0 \/ row_shift tx = 1 \/ row_shift tx = 2) by lia.
          destruct SC as [ -> |[ -> | -> ]]; vm_compute; split; intros Q; discriminate Q. }
        rewrite ck_ok by (unfold INT_MIN, INT_MAX; lia). cbn [obind]. f_equal.
        rewrite round2_ok by lia. rewrite iclip_clamp.
        rewrite rowo_eq. rewrite <- flipped_map.
        rewrite (nth_indep (map (fun v => satc (round2 v (row_shift tx))) (flipped first (Trow y))) 0 ((fun v => satc (round2 v (row_shift tx))) 0)) by (rewrite map_length, flipped_length, Trow_length; auto; lia).
        rewrite (map_nth (fun v => satc (round2 v (row_shift tx)))). reflexivity. }
  cbn [obind].
  (* columns *)
  set (flr := is_flip (row_kind ty)). set (flc := is_flip (col_kind ty)).
  assert (KF : is_flip (kind_of first) = flr) by (unfold flr; rewrite (su_first _ _ _ _ _ _ _ _ SU); auto).
  assert (KS : is_flip (kind_of second) = flc) by (unfold flc; rewrite (su_second _ _ _ _ _ _ _ _ SU); auto).
  rewrite omap_map.
  rewrite (omap_ok _ _ _ (fun x => map Some (flipped second (Tcol (fl flr w x))))).
  2:{ intros x X. apply in_seq in X. rewrite omap_map.
      rewrite (omap_ok _ _ _ (fun y => nth (fl flr w x) (rowo y) 0)).
      - cbn [obind]. replace (Z.to_nat (Z.of_nat h - Z.of_nat sh)) with (h - sh)%nat by lia.
        apply col_run. apply fl_lt. lia.
      - intros y Y. apply in_seq in Y. assert (YH : (y < h)%nat) by (pose proof sh_min; lia).
        rewrite rd_at_nat with (d := 0) by (rewrite flipped_length, rowo_length; auto; lia). f_equal.
        rewrite flipped_nth by (rewrite rowo_length; auto; lia). rewrite rowo_length, KF by auto. reflexivity. }
  cbn [obind].
  (* output *)
  rewrite omap_map.
  rewrite (omap_ok _ _ _ (fun y => map (fun x =>
         Clip1 bd (nth x (nth y dst []) 0 + residual satr satc bd tx ty coef (fl flc h y) (fl flr w x))) (seq 0 w))).
  2:{ intros y Y. apply in_seq in Y.
      rewrite rd_at_nat with (d := []) by (rewrite (bo_h _ _ _ _ _ _ BO); fold h; lia). cbn [obind]. rewrite omap_map.
      assert (DW : length (nth y dst []) = w).
      { pose proof (bo_w _ _ _ _ _ _ BO) as F. rewrite Forall_forall in F. apply F, nth_In.
        rewrite (bo_h _ _ _ _ _ _ BO). fold h. lia. }
      apply omap_ok. intros x X. apply in_seq in X.
      rewrite rd_at_nat with (d := 0) by lia. cbn [obind].
      rewrite rd_at_nat with (d := map Some (flipped second (Tcol (fl flr w 0)))) by (rewrite map_length, seq_length; lia).
      rewrite (map_nth (fun x => map Some (flipped second (Tcol (fl flr w x))))). rewrite seq_nth by lia. cbn [obind Nat.add].
      destruct (col_run (fl flr w x) ltac:(apply fl_lt; lia)) as (_ & CL & CS).
      unfold elt. rewrite rd_init_nat by (rewrite flipped_length, CL; lia). cbn [obind].
      rewrite flipped_nth by (rewrite CL; lia). rewrite CL, KS.
      pose proof (Forall_small_nth _ (fl flc h y) CS) as B. unfold small, MAXV in B.
      set (c := nth (fl flc h y) (Tcol (fl flr w x)) 0) in *.
      rewrite ck_ok by (unfold INT_MIN, INT_MAX; lia). cbn [obind].
      assert (RES : residual satr satc bd tx ty coef (fl flc h y) (fl flr w x) = Z.shiftr (c + 8) 4).
      { unfold residual, col_output. fold (Tcol (fl flr w x)).
        rewrite (nth_indep _ 0 ((fun v => round2 v 4) 0)).
        - rewrite (map_nth (fun v => round2 v 4)). reflexivity.
        - rewrite map_length. rewrite CL. apply fl_lt. lia. }
      rewrite RES.
      assert (PX : 0 <= nth x (nth y dst []) 0 <= 4095).
      { pose proof (bo_px _ _ _ _ _ _ BO) as F. rewrite Forall_forall in F.
        assert (I1 : In (nth y dst []) dst) by (apply nth_In; rewrite (bo_h _ _ _ _ _ _ BO); fold h; lia).
        pose proof (F _ I1) as F1. rewrite Forall_forall in F1.
        pose proof (F1 (nth x (nth y dst []) 0) ltac:(apply nth_In; lia)) as F2. cbv beta in F2.
        destruct bdr as [EB|[EB|EB]]; rewrite EB in F2; cbn in F2; lia. }
      assert (SH : - 4194304 <= Z.shiftr (c + 8) 4 <= 4194305).
      { rewrite shiftr_div by lia. change (2 ^ 4) with 16. pose proof (Z.div_le_mono (c + 8) (4194305 * 16) 16 ltac:(lia) ltac:(lia)) as U.
        pose proof (Z.div_le_mono (- 4194304 * 16) (c + 8) 16 ltac:(lia) ltac:(lia)) as V. rewrite Z.div_mul in U, V by lia. lia. }
      rewrite ck_ok by (unfold INT_MIN, INT_MAX; lia). cbn [obind]. rewrite iclip_pixel_ok by exact bdr. reflexivity. }
  cbn [obind]. f_equal.
Qed.
End Block.

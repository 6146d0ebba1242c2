(** The scan tables, the positions of the coefficients and the rows that can be
    skipped. *)
From Coq Require Import ZArith List Bool Lia Permutation.
From Verif.Base Require Import CInt Lemmas.
From Verif.Itx Require Import Lang ScanTables Txfm2d Spec1d Spec2d Proofs1d Proofs2d.
Import ListNotations.
Open Scope Z_scope.
Open Scope outcome_scope.

Definition scan_row (tx : nat) (pos : nat) : nat := pos / scan_w tx.
Definition scan_col (tx : nat) (pos : nat) : nat := pos mod scan_w tx.

(** The coefficient array is stored column by column. *)
Definition stored (tw th pos : nat) : Z := Z.of_nat (pos mod tw) * Z.of_nat th + Z.of_nat (pos / tw).
Definition stored_at (tx : nat) (pos : nat) : Z := stored (scan_w tx) (scan_h tx) pos.

(** *** Every position exactly once *)
Lemma split_pos : forall tw th p, (p < tw * th)%nat -> exists i j, (i < th)%nat /\ (j < tw)%nat /\ p = (i * tw + j)%nat.
Proof.
  intros tw th p H. assert (W : (tw <> 0)%nat) by (destruct tw; lia).
  pose proof (Nat.div_mod p tw W) as E. pose proof (Nat.mod_upper_bound p tw W) as M.
  assert (I : (p / tw < th)%nat) by (apply Nat.div_lt_upper_bound; auto).
  exists (p / tw)%nat, (p mod tw)%nat. repeat split; auto. rewrite Nat.mul_comm. exact E.
Qed.
Lemma in_default_scan : forall tw th p, (p < tw * th)%nat -> In p (default_scan tw th).
Proof.
  intros tw th p H. destruct (split_pos tw th p H) as (i & j & I & J & ->). clear H.
  unfold default_scan. apply in_flat_map. exists (i + j)%nat. split; [apply in_seq; lia|].
  unfold diagonal.
  assert (Q : In (i * tw + j)%nat (flat_map (fun k => if (k <=? i + j)%nat && (i + j - k <? tw)%nat
                     then [(k * tw + (i + j - k))%nat] else []) (seq 0 th))).
  { apply in_flat_map. exists i. split; [apply in_seq; lia|].
    rewrite (proj2 (Nat.leb_le _ _)) by lia.
    replace (i + j - i)%nat with j by lia.
    rewrite (proj2 (Nat.ltb_lt _ _)) by lia. cbn [andb In]. left. lia. }
  destruct (if (tw =? th)%nat then _ else _); auto. apply -> in_rev. exact Q.
Qed.
Lemma in_mcol_scan : forall tw th p, (p < tw * th)%nat -> In p (mcol_scan tw th).
Proof.
  intros tw th p H. destruct (split_pos tw th p H) as (i & j & I & J & ->). clear H.
  unfold mcol_scan. apply in_flat_map. exists j. split; [apply in_seq; lia|].
  apply in_map_iff. exists i. split; [lia|apply in_seq; lia].
Qed.
Lemma mcol_nth : forall tw th c, (c < tw * th)%nat -> nth c (mcol_scan tw th) 0%nat = (c mod th * tw + c / th)%nat.
Proof.
  intros tw th c H. unfold mcol_scan.
  assert (T : (th <> 0)%nat) by (destruct th; lia).
  assert (G : forall n s c, (c < n * th)%nat ->
     nth c (flat_map (fun j => map (fun i => (i * tw + j)%nat) (seq 0 th)) (seq s n)) 0%nat = (c mod th * tw + (s + c / th))%nat).
  { clear c H. induction n; intros s c C; [lia|]. cbn [seq flat_map].
    destruct (Nat.lt_ge_cases c th) as [L|L].
    - rewrite app_nth1 by (rewrite map_length, seq_length; auto).
      rewrite Nat.mod_small, Nat.div_small by auto.
      rewrite (nth_indep _ 0%nat ((fun i => (i * tw + s)%nat) 0%nat)) by (rewrite map_length, seq_length; auto).
      rewrite (map_nth (fun i => (i * tw + s)%nat)). rewrite seq_nth by auto. cbn. lia.
    - rewrite app_nth2 by (rewrite map_length, seq_length; auto). rewrite map_length, seq_length.
      rewrite IHn by (cbn in C; lia). replace c with (c - th + 1 * th)%nat at 3 4 by lia.
      rewrite Nat.mod_add, Nat.div_add by auto. lia. }
  rewrite G by auto. reflexivity.
Qed.
Lemma len_default : forall tx, (tx < 19)%nat ->
  length (default_scan (scan_w tx) (scan_h tx)) = (scan_w tx * scan_h tx)%nat.
Proof. intros tx H. do 19 (destruct tx as [|tx]; [vm_compute; reflexivity|]). lia. Qed.
Lemma len_mcol : forall tw th, length (mcol_scan tw th) = (tw * th)%nat.
Proof.
  intros tw th. unfold mcol_scan.
  assert (G : forall l : list nat, length (flat_map (fun j => map (fun i => (i * tw + j)%nat) (seq 0 th)) l) = (length l * th)%nat).
  { induction l; cbn; auto. rewrite app_length, IHl, map_length, seq_length. lia. }
  rewrite G, seq_length. reflexivity.
Qed.

Theorem scan_permutation : forall tx ty, (tx < 19)%nat ->
  Permutation (get_scan tx ty) (seq 0 (scan_w tx * scan_h tx)).
Proof.
  intros tx ty H. symmetry.
  assert (G : forall l, length l = (scan_w tx * scan_h tx)%nat -> (forall p, (p < scan_w tx * scan_h tx)%nat -> In p l) ->
    Permutation (seq 0 (scan_w tx * scan_h tx)) l).
  { intros l L I. apply NoDup_Permutation_bis; [apply seq_NoDup|rewrite seq_length; lia|].
    intros p Q. apply in_seq in Q. apply I. lia. }
  assert (D : Permutation (seq 0 (scan_w tx * scan_h tx)) (default_scan (scan_w tx) (scan_h tx)))
    by (apply G; [apply len_default; auto|intros; apply in_default_scan; auto]).
  assert (C : Permutation (seq 0 (scan_w tx * scan_h tx)) (mcol_scan (scan_w tx) (scan_h tx)))
    by (apply G; [apply len_mcol|intros; apply in_mcol_scan; auto]).
  unfold get_scan. destruct (col_kind ty), (row_kind ty); auto; apply Permutation_refl.
Qed.
Lemma scan_length : forall tx ty, (tx < 19)%nat -> length (get_scan tx ty) = (scan_w tx * scan_h tx)%nat.
Proof. intros tx ty H. rewrite (Permutation_length (scan_permutation tx ty H)), seq_length. reflexivity. Qed.
Lemma scan_bound : forall tx ty c, (tx < 19)%nat -> (c < scan_w tx * scan_h tx)%nat ->
  (nth c (get_scan tx ty) 0 < scan_w tx * scan_h tx)%nat.
Proof.
  intros tx ty c H C. assert (I : In (nth c (get_scan tx ty) 0%nat) (seq 0 (scan_w tx * scan_h tx))).
  { apply (Permutation_in _ (scan_permutation tx ty H)), nth_In. rewrite scan_length; auto. }
  apply in_seq in I. lia.
Qed.

(** *** The tables are the default scans, stored column by column *)
Definition tbl_ok (tx : nat) : bool :=
  match rd_at scans (Z.of_nat tx) with
  | Ok s => if list_eq_dec Z.eq_dec (map (stored_at tx) (default_scan (scan_w tx) (scan_h tx))) s then true else false
  | Undef => false
  end.
Lemma tbl_ok_all : forallb tbl_ok (seq 0 19) = true.
Proof. vm_compute. reflexivity. Qed.
Lemma scan_table : forall tx, (tx < 19)%nat ->
  rd_at scans (Z.of_nat tx) = Ok (map (stored_at tx) (default_scan (scan_w tx) (scan_h tx))).
Proof.
  intros tx H. pose proof tbl_ok_all as T. rewrite forallb_forall in T. specialize (T tx ltac:(apply in_seq; lia)).
  unfold tbl_ok in T. destruct (rd_at _ _); [|discriminate]. destruct (list_eq_dec _ _ _) as [ -> |]; [reflexivity|discriminate].
Qed.

(** The two other scans: small sizes only. *)
Definition rc_all (tx ty : nat) : bool :=
  forallb (fun '(c, pos) => match coef_rc (Z.of_nat tx) (Z.of_nat ty) c with
                            | Ok rc => rc =? stored_at tx pos | Undef => false end)
          (combine (map Z.of_nat (seq 0 (scan_w tx * scan_h tx))) (get_scan tx ty)).
Definition is_1d (ty : nat) : bool :=
  match col_kind ty, row_kind ty with
  | Ident_, Ident_ => false | Ident_, _ => true | _, Ident_ => true | _, _ => false end.
Lemma rc_all_1d : forallb (fun tx => forallb (fun ty => if allowed tx ty && is_1d ty then rc_all tx ty else true) (seq 0 16)) (seq 0 19) = true.
Proof. vm_compute. reflexivity. Qed.

Lemma combine_nth_in : forall A B (l1 : list A) (l2 : list B) c d1 d2, (c < length l1)%nat -> length l1 = length l2 ->
  In (nth c l1 d1, nth c l2 d2) (combine l1 l2).
Proof.
  intros A B l1 l2 c d1 d2 H E. rewrite <- combine_nth by auto. apply nth_In. rewrite combine_length. lia.
Qed.

Theorem coef_position : forall tx ty c, (tx < 19)%nat -> (ty < 16)%nat -> allowed tx ty = true ->
  (c < scan_w tx * scan_h tx)%nat ->
  coef_rc (Z.of_nat tx) (Z.of_nat ty) (Z.of_nat c) = Ok (stored_at tx (nth c (get_scan tx ty) 0%nat)).
Proof.
  intros tx ty c H1 H2 A C. destruct (is_1d ty) eqn:D.
  - pose proof rc_all_1d as T. rewrite forallb_forall in T. specialize (T tx ltac:(apply in_seq; lia)).
    cbv beta in T. rewrite forallb_forall in T. specialize (T ty ltac:(apply in_seq; lia)).
    cbv beta in T. rewrite A, D in T. cbn [andb] in T. unfold rc_all in T. rewrite forallb_forall in T.
    specialize (T (nth c (map Z.of_nat (seq 0 (scan_w tx * scan_h tx))) (Z.of_nat 0), nth c (get_scan tx ty) 0%nat)).
    rewrite map_nth, seq_nth in T by auto. cbn [Nat.add] in T.
    assert (I : In (z c, nth c (get_scan tx ty) 0%nat)
      (combine (map z (seq 0 (scan_w tx * scan_h tx))) (get_scan tx ty))).
    { assert (Z1 : z c = nth c (map z (seq 0 (scan_w tx * scan_h tx))) (z 0)) by (rewrite map_nth, seq_nth; auto).
      rewrite Z1. apply combine_nth_in; rewrite map_length, seq_length; auto. rewrite scan_length; auto. }
    specialize (T I). destruct (coef_rc _ _ _) as [rc|]; [|discriminate].
    f_equal. apply Z.eqb_eq. exact T.
  - assert (E : exists t_dim, rd_at txfm_dimensions (Z.of_nat tx) = Ok t_dim).
    { eexists. apply rd_at_nat with (d := ti 0 0 0 0). cbn. lia. }
    destruct E as [t_dim E]. unfold coef_rc. rewrite E. cbn [obind].
    assert (K : rd_at tx_type_class (Z.of_nat ty) = Ok TX_CLASS_2D).
    { do 16 (destruct ty as [|ty]; [first [discriminate D|reflexivity]|]). lia. }
    rewrite K. cbn [obind]. rewrite scan_table by auto. cbn [obind].
    assert (G : get_scan tx ty = default_scan (scan_w tx) (scan_h tx)).
    { unfold is_1d in D. unfold get_scan. destruct (col_kind ty), (row_kind ty); auto; discriminate. }
    rewrite G. rewrite rd_at_nat with (d := stored_at tx 0).
    + rewrite map_nth. reflexivity.
    + rewrite map_length, len_default; auto.
Qed.

(** *** Rows that can hold a coefficient *)
Lemma init_tbl_from_spec : forall h l mx k d, (k < length l)%nat -> let v := nth k (init_tbl_from mx h l) d in
  mx <= v /\ (forall k', (k' <= k)%nat -> Z.land (nth k' l 0) (h - 1) <= v) /\
  (v = mx \/ exists k', (k' <= k)%nat /\ v = Z.land (nth k' l 0) (h - 1)).
Proof.
  intros h l. induction l as [|rc l IH]; intros mx k d K v; cbn [length] in K; [lia|].
  cbn [init_tbl_from] in v. cbv zeta in v. destruct k as [|k]; cbn [nth] in v; subst v.
  - repeat split; [lia| |].
    + intros k' Q. replace k' with 0%nat by lia. cbn [nth]. lia.
    + destruct (Z.le_ge_cases mx (Z.land rc (h - 1))); [right; exists 0%nat; cbn [nth]; split; [lia|lia]|left; lia].
  - destruct (IH (Z.max mx (Z.land rc (h - 1))) k d ltac:(lia)) as (V1 & V2 & V3).
    repeat split; [lia| |].
    + intros [|k'] Q; cbn [nth]; [lia|]. apply V2. lia.
    + destruct V3 as [V3|(k' & Q1 & Q2)].
      * destruct (Z.le_ge_cases mx (Z.land rc (h - 1))); [right; exists 0%nat; cbn [nth]; split; [lia|lia]|left; lia].
      * right. exists (S k'). cbn [nth]. split; [lia|auto].
Qed.
Lemma init_tbl_from_length : forall h l mx, length (init_tbl_from mx h l) = length l.
Proof. intros h l. induction l; cbn; intros; auto. Qed.

Lemma stored_row : forall tw th p, (0 < tw)%nat -> (exists k, 0 <= k /\ Z.of_nat th = 2 ^ k) -> (p < tw * th)%nat ->
  Z.land (stored tw th p) (Z.of_nat th - 1) = Z.of_nat (p / tw).
Proof.
  intros tw th p W (k & K1 & K2) P. rewrite K2, land_ones_mod by auto. unfold stored. rewrite K2.
  rewrite Z.add_comm, Z.mod_add by (pose proof (pow2_pos k K1); lia).
  apply Z.mod_small. rewrite <- K2. pose proof (Nat.div_lt_upper_bound p tw th ltac:(lia) P) as D. apply inj_lt in D.
  split; [apply Nat2Z.is_nonneg|exact D].
Qed.

Lemma lnc_table : forall tx, (tx < 19)%nat -> exists s,
  rd_at scans (Z.of_nat tx) = Ok s /\ rd_at last_nonzero_col_from_eob (Z.of_nat tx) = Ok (init_tbl_from 0 (Z.of_nat (scan_h tx)) s).
Proof.
  intros tx H. do 19 (destruct tx as [|tx]; [eexists; split; reflexivity|]). lia.
Qed.

Lemma scan_wh : forall tx, (tx < 19)%nat ->
  (4 <= scan_w tx <= 32)%nat /\ (4 <= scan_h tx <= 32)%nat /\
  exists k, 0 <= k /\ Z.of_nat (scan_h tx) = 2 ^ k.
Proof.
  intros tx H. do 19 (destruct tx as [|tx]; [split; [|split]; [vm_compute; lia|vm_compute; lia|]; cbn;
    solve [exists 2; lia|exists 3; lia|exists 4; lia|exists 5; lia]|]). lia.
Qed.

Theorem skipped_rows : forall tx ty t_dim first second eob, (tx < 19)%nat -> (ty < 16)%nat -> allowed tx ty = true ->
  rd_at txfm_dimensions (Z.of_nat tx) = Ok t_dim ->
  rd_at tx1d_types (swapped_type (Z.of_nat ty)) = Ok (first, second) ->
  (eob < scan_w tx * scan_h tx)%nat ->
  exists v, last_nonzero_col (Z.of_nat tx) t_dim first second (Z.of_nat eob) (Z.of_nat (scan_h tx)) = Ok (Z.of_nat v) /\
    (v < scan_h tx)%nat /\
    forall c, (c <= eob)%nat -> (scan_row tx (nth c (get_scan tx ty) 0%nat) <= v)%nat.
Proof.
  intros tx ty t_dim first second eob H1 H2 A E1 E2 EB.
  destruct (scan_wh tx H1) as (W & Hh & HK).
  destruct (setup_ex tx ty H1 H2 A) as (t' & f' & s' & fn1 & fn2 & st & SU).
  pose proof (su_dim _ _ _ _ _ _ _ _ SU) as Q1. rewrite Q1 in E1. injection E1 as <-.
  pose proof (su_types _ _ _ _ _ _ _ _ SU) as Q2. rewrite Q2 in E2. injection E2 as <- <-.
  pose proof (su_first _ _ _ _ _ _ _ _ SU) as K1. pose proof (su_second _ _ _ _ _ _ _ _ SU) as K2.
  assert (SW : is_1d ty = true -> 2 ^ (ti_lw t' + 2) = Z.of_nat (scan_w tx)).
  { intros D. pose proof (su_lw _ _ _ _ _ _ _ _ SU) as L1. pose proof (su_llw _ _ _ _ _ _ _ _ SU) as L2.
    assert (L3 : (log2w tx <= 4)%nat).
    { clear - H1 H2 A D. do 19 (destruct tx as [|tx]; [first [vm_compute; lia|
        do 16 (destruct ty as [|ty]; [first [discriminate A|discriminate D]|]); lia]|]). lia. }
    unfold scan_w, width. rewrite <- L1 in *. rewrite Nat.min_r.
    - rewrite Nat2Z.inj_pow. f_equal. lia.
    - assert (2 ^ (Z.to_nat (ti_lw t') + 2) <= 2 ^ 4)%nat by (apply Nat.pow_le_mono_r; lia). cbn in *. lia. }
  assert (LW0 : 0 <= ti_lw t') by (pose proof (su_llw _ _ _ _ _ _ _ _ SU); lia).
  assert (TBL : is_1d ty = false -> exists v,
     (let! tbl := rd_at last_nonzero_col_from_eob (Z.of_nat tx) in rd_at tbl (Z.of_nat eob)) = Ok (Z.of_nat v) /\
     (v < scan_h tx)%nat /\ forall c, (c <= eob)%nat -> (scan_row tx (nth c (get_scan tx ty) 0%nat) <= v)%nat).
  { intros D. assert (G : get_scan tx ty = default_scan (scan_w tx) (scan_h tx)).
    { unfold is_1d in D. unfold get_scan. destruct (col_kind ty), (row_kind ty); auto; discriminate. }
    destruct (lnc_table tx H1) as (s & S1 & S2). rewrite scan_table in S1 by auto. injection S1 as S1.
    rewrite S2. cbn [obind].
    assert (LS : length s = (scan_w tx * scan_h tx)%nat) by (subst s; rewrite map_length; apply len_default; auto).
    rewrite rd_at_nat with (d := 0) by (rewrite init_tbl_from_length; lia).
    destruct (init_tbl_from_spec (Z.of_nat (scan_h tx)) s 0 eob 0 ltac:(lia)) as (V1 & V2 & V3).
    set (v := nth eob _ 0) in *.
    assert (N : forall c, (c < scan_w tx * scan_h tx)%nat ->
       Z.land (nth c s 0) (Z.of_nat (scan_h tx) - 1) = Z.of_nat (scan_row tx (nth c (get_scan tx ty) 0%nat))).
    { intros c C. subst s. rewrite (nth_indep _ 0 (stored_at tx 0)) by (rewrite LS; auto).
      rewrite map_nth. rewrite <- G. unfold stored_at. rewrite stored_row; auto; [lia|]. apply scan_bound; auto. }
    assert (VB : v < Z.of_nat (scan_h tx)).
    { destruct V3 as [->|(k' & Q & ->)]; [lia|]. rewrite N by lia.
      assert (scan_row tx (nth k' (get_scan tx ty) 0) < scan_h tx)%nat; [|lia].
      unfold scan_row. apply Nat.div_lt_upper_bound; [lia|]. apply scan_bound; auto. lia. }
    exists (Z.to_nat v). rewrite Z2Nat.id by lia. repeat split; [lia|].
    intros c C. specialize (V2 c C). rewrite N in V2 by lia. lia. }
  unfold last_nonzero_col, is_1d in *. unfold get_scan in *. rewrite <- K1, <- K2 in *.
  destruct f', s'; cbn [kind_of tx1d_eqb negb andb] in *; try (apply TBL; reflexivity);
    specialize (SW eq_refl); clear TBL; unfold mrow_scan.
  (* rows transformed, columns identity; columns transformed, rows identity *)
  all: first
    [ exists (Nat.min (scan_h tx - 1) eob); split; [f_equal; lia|]; split; [lia|];
      intros c C; rewrite mcol_nth by lia; unfold scan_row;
      assert (Q : (c / scan_h tx < scan_w tx)%nat) by (apply Nat.div_lt_upper_bound; [lia|rewrite Nat.mul_comm; lia]);
      rewrite Nat.add_comm, Nat.div_add by lia; rewrite (Nat.div_small (c / scan_h tx)) by exact Q; cbn [Nat.add];
      pose proof (Nat.mod_upper_bound c (scan_h tx) ltac:(lia)) as M1;
      pose proof (Nat.mod_le c (scan_h tx) ltac:(lia)) as M2;
      revert M1 M2 C; generalize (c mod scan_h tx)%nat; intros; lia
    | exists (eob / scan_w tx)%nat; split;
      [ f_equal; rewrite shiftr_div by lia; rewrite Nat2Z.inj_div; f_equal; exact SW
      | split; [apply Nat.div_lt_upper_bound; lia|];
        intros c C; unfold scan_row; rewrite seq_nth by lia; cbn [Nat.add]; apply Nat.div_le_mono; lia ] ].
Qed.

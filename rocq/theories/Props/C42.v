(** C42: coefficient positions: scans are the ones of the specification, visit every
    coefficient once, and the rows that the inverse transform skips hold none. *)
From Coq Require Import ZArith List Bool Lia Permutation.
From Verif Require Import Base.CInt Itx.Lang Itx.Txfm2d Itx.Spec1d Itx.Spec2d Itx.Proofs2d Itx.ScanProofs.
Import ListNotations.
Open Scope Z_scope.
Open Scope outcome_scope.

(** The coefficient of scan index [c] is stored where the specification puts it:
    the buffer of the code is the transpose of the array of the specification. *)
Theorem C42_position : forall tx ty c, (tx < 19)%nat -> (ty < 16)%nat -> allowed tx ty = true ->
  (c < scan_w tx * scan_h tx)%nat ->
  let pos := nth c (get_scan tx ty) 0%nat in
  coef_rc (Z.of_nat tx) (Z.of_nat ty) (Z.of_nat c) =
  Ok (Z.of_nat (pos mod scan_w tx) * Z.of_nat (scan_h tx) + Z.of_nat (pos / scan_w tx)).
Proof. intros tx ty c T Y A C pos. exact (coef_position tx ty c T Y A C). Qed.

(** Each position occurs exactly once in a scan. *)
Theorem C42_permutation : forall tx ty, (tx < 19)%nat ->
  Permutation (get_scan tx ty) (seq 0 (scan_w tx * scan_h tx)).
Proof. exact scan_permutation. Qed.

(** Distinct scan indices have distinct places in the buffer, all inside it. *)
Theorem C42_injective : forall tx ty c1 c2 r, (tx < 19)%nat -> (ty < 16)%nat -> allowed tx ty = true ->
  (c1 < scan_w tx * scan_h tx)%nat -> (c2 < scan_w tx * scan_h tx)%nat ->
  coef_rc (Z.of_nat tx) (Z.of_nat ty) (Z.of_nat c1) = Ok r -> coef_rc (Z.of_nat tx) (Z.of_nat ty) (Z.of_nat c2) = Ok r ->
  c1 = c2 /\ 0 <= r < Z.of_nat (scan_w tx * scan_h tx).
Proof.
  intros tx ty c1 c2 r T Y A C1 C2 E1 E2. rewrite coef_position in E1, E2 by auto.
  injection E1 as E1. injection E2 as E2. destruct (scan_wh tx T) as (W & Hh & _).
  pose proof (scan_bound tx ty c1 T C1) as B1. pose proof (scan_bound tx ty c2 T C2) as B2.
  destruct (split_pos (scan_w tx) (scan_h tx) _ B1) as (i1 & j1 & I1 & J1 & P1).
  destruct (split_pos (scan_w tx) (scan_h tx) _ B2) as (i2 & j2 & I2 & J2 & P2).
  assert (ST : forall i j, (j < scan_w tx)%nat -> stored_at tx (i * scan_w tx + j) = Z.of_nat (j * scan_h tx + i)).
  { intros i j J. unfold stored_at, stored. rewrite Nat.add_comm, Nat.mod_add, Nat.div_add by lia.
    rewrite Nat.mod_small, Nat.div_small by auto. lia. }
  rewrite P1, ST in E1 by auto. rewrite P2, ST in E2 by auto.
  assert (EQ : (j1 * scan_h tx + i1 = j2 * scan_h tx + i2)%nat) by lia.
  assert (j1 = j2) by nia. subst j2. assert (i1 = i2) by lia. subst i2.
  split; [|nia].
  assert (ND : NoDup (get_scan tx ty)) by (apply (Permutation_NoDup (Permutation_sym (scan_permutation tx ty T))), seq_NoDup).
  apply (proj1 (NoDup_nth (get_scan tx ty) 0%nat) ND); rewrite ?scan_length by auto; auto. congruence.
Qed.

(** The rows above [last_nonzero_col] hold no coefficient up to the end of block,
    and the bound is inside the block. *)
Theorem C42_skipped_rows : forall tx ty t_dim first second eob, (tx < 19)%nat -> (ty < 16)%nat -> allowed tx ty = true ->
  rd_at txfm_dimensions (Z.of_nat tx) = Ok t_dim ->
  rd_at tx1d_types (swapped_type (Z.of_nat ty)) = Ok (first, second) ->
  (eob < scan_w tx * scan_h tx)%nat ->
  exists v, last_nonzero_col (Z.of_nat tx) t_dim first second (Z.of_nat eob) (Z.of_nat (scan_h tx)) = Ok (Z.of_nat v) /\
    (v < scan_h tx)%nat /\
    forall c, (c <= eob)%nat -> (nth c (get_scan tx ty) 0%nat / scan_w tx <= v)%nat.
Proof. exact skipped_rows. Qed.

(** ** Satisfiable *)
Example C42_ex : map (fun c => coef_rc RTX_4X8 DCT_DCT c) [0; 1; 2; 3; 31] = [Ok 0; Ok 8; Ok 1; Ok 16; Ok 31].
Proof. reflexivity. Qed.
Example C42_ex_v : map (fun c => coef_rc RTX_4X8 V_DCT c) [0; 1; 4; 5] = [Ok 0; Ok 8; Ok 1; Ok 9].
Proof. reflexivity. Qed.

Print Assumptions C42_position.
Print Assumptions C42_permutation.
Print Assumptions C42_injective.
Print Assumptions C42_skipped_rows.

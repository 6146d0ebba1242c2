(** C41: the inverse transforms reconstruct the pixels of the specification. *)
From Coq Require Import ZArith List Bool Lia.
From Verif Require Import Base.CInt Itx.Lang Itx.Txfm1d Itx.Txfm2d Itx.Spec1d Itx.Spec2d Itx.Proofs1d Itx.Proofs2d Itx.ScanProofs Itx.Main2d Itx.Dc2d.
Import ListNotations.
Open Scope Z_scope.
Open Scope outcome_scope.

(** Every block, whatever its coefficients: the result is the two-dimensional
    transform of the specification (section 7.13.3), with the Hadamard rotations
    saturating to the widths that the specification requires of them. *)
Theorem C41_reconstruction : forall bd tx ty eob coef dst rest, block_ok bd tx ty eob coef dst ->
  itxfm_add (bd =? 8) (2 ^ bd - 1) (Z.of_nat tx) (Z.of_nat ty) dst (layout tx coef ++ rest) (Z.of_nat eob) =
  Ok (reconstruct (clamp (bd + 8)) (clamp (Z.max (bd + 6) 16)) bd tx ty coef dst,
      repeat 0 (scan_w tx * scan_h tx) ++ rest).
Proof. intros. apply itxfm_add_spec; assumption. Qed.

(** When the block conforms, that is when the rotations of the specification stay
    within those widths, it is exactly the transform of the specification. *)
Theorem C41_conforming : forall bd tx ty eob coef dst rest, block_ok bd tx ty eob coef dst ->
  conforming bd tx ty coef ->
  itxfm_add (bd =? 8) (2 ^ bd - 1) (Z.of_nat tx) (Z.of_nat ty) dst (layout tx coef ++ rest) (Z.of_nat eob) =
  Ok (reconstruct (fun v => v) (fun v => v) bd tx ty coef dst, repeat 0 (scan_w tx * scan_h tx) ++ rest).
Proof. intros. rewrite <- conforming_reconstruct by assumption. apply itxfm_add_spec; assumption. Qed.

(** Lossless blocks: the Walsh-Hadamard transform. *)
Theorem C41_lossless : forall bd coef dst rest eob, (bd = 8 \/ bd = 10 \/ bd = 12) ->
  (forall i j, (i < 4)%nat -> (j < 4)%nat -> - 2 ^ (bd + 7) <= coef i j <= 2 ^ (bd + 7) - 1) ->
  length dst = 4%nat -> Forall (fun r => length r = 4%nat) dst ->
  Forall (Forall (fun v => 0 <= v <= 2 ^ bd - 1)) dst ->
  itxfm_add (bd =? 8) (2 ^ bd - 1) TX_4X4 WHT_WHT dst (layout 0 coef ++ rest) eob =
  Ok (reconstruct_wht bd coef dst, repeat 0 16 ++ rest).
Proof. intros bd coef dst rest eob B C D1 D2 D3. exact (wht_spec bd coef dst rest B C D1 D2 D3 eob). Qed.

(** The one-dimensional functions by themselves: in each of the three widths used
    (16, 18 and 20 bits) they compute the steps of section 7.13.2; the 64 point
    one reads only its first 32 elements. *)
Theorem C41_one_dimension : forall bits l t fn ins, bits = 16 \/ bits = 18 \/ bits = 20 ->
  tx1d_fns l t = Some fn ->
  let n := (2 ^ (Z.to_nat l + 2))%nat in let m := Nat.min 32 n in
  length ins = m -> Forall (fun v => - 2 ^ (bits - 1) <= v <= 2 ^ (bits - 1) - 1) ins ->
  let T := do_steps (clamp bits) (kind_steps (kind_of t) (Z.to_nat l + 2)) (ins ++ repeat 0 (n - m)) in
  run_c (- 2 ^ (bits - 1)) (2 ^ (bits - 1) - 1) fn (map Some ins ++ repeat None (n - m)) =
  Ok (map Some (if is_flip (kind_of t) then rev T else T)).
Proof.
  intros bits l t fn ins B E n m L F T.
  assert (R : R_ok (bits - 1)) by (destruct B as [ -> |[ -> | -> ]]; unfold R_ok; lia).
  exact (proj1 (tx1d_run (bits - 1) l t fn ins R E L F)).
Qed.

(** ** Satisfiable: a conforming block *)
Definition ex_coef (i j : nat) : Z := match i, j with 0%nat, 0%nat => 100 | 1%nat, 0%nat => -60 | 0%nat, 1%nat => 35 | _, _ => 0 end.
Definition fitsb (r v : Z) : bool := (- 2 ^ (r - 1) <=? v) && (v <=? 2 ^ (r - 1) - 1).
Fixpoint conformsb (r : Z) (l : list step) (T : list Z) : bool :=
  match l with
  | [] => true
  | st :: l =>
      match st with
      | H a b _ => fitsb r (get T a + get T b) && fitsb r (get T a - get T b) && fitsb r (get T b - get T a)
      | _ => true
      end && conformsb r l (do_step (fun v => v) st T)
  end.
Lemma conformsb_ok : forall r l T, conformsb r l T = true -> conforms r l T.
Proof.
  intros r l. induction l as [|st l IH]; intros T E; cbn; auto. cbn in E. apply andb_true_iff in E as [E1 E2].
  split; [|apply IH; exact E2]. destruct st; auto. unfold fitsb in E1. rewrite !andb_true_iff, !Z.leb_le in E1.
  unfold fits. intuition.
Qed.
Example C41_ex : conforming 8 1 1 ex_coef.
Proof.
  split.
  - intros i I. apply conformsb_ok. change (height 1) with 8%nat in I.
    do 8 (destruct i as [|i]; [vm_compute; reflexivity|]). lia.
  - intros j J. apply conformsb_ok. change (width 1) with 8%nat in J.
    do 8 (destruct j as [|j]; [vm_compute; reflexivity|]). lia.
Qed.
Example C41_ex_out : itxfm_add true 255 TX_8X8 ADST_DCT (repeat (repeat 128 8) 8) (layout 1 ex_coef) 2 =
  Ok (reconstruct (fun v => v) (fun v => v) 8 1 1 ex_coef (repeat (repeat 128 8) 8), repeat 0 64).
Proof. vm_compute. reflexivity. Qed.

Print Assumptions C41_reconstruction.
Print Assumptions C41_conforming.
Print Assumptions C41_lossless.
Print Assumptions C41_one_dimension.

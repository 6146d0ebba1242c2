(** C29: the shortcut for blocks with only a DC coefficient gives the pixels of
    the full transform. *)
From Coq Require Import ZArith List Bool Lia.
From Verif Require Import Base.CInt Itx.Lang Itx.Txfm2d Itx.Spec1d Itx.Spec2d Itx.Proofs2d Itx.ScanProofs Itx.Main2d Itx.Dc2d.
Import ListNotations.
Open Scope Z_scope.
Open Scope outcome_scope.

(** A DCT_DCT block of size [tx] with DC coefficient [dc] and nothing else, in a
    coefficient buffer that may be followed by anything. *)
Definition dc_coef (dc : Z) (i j : nat) : Z := match i, j with 0%nat, 0%nat => dc | _, _ => 0 end.
Definition dc_buffer (tx : nat) (dc : Z) (rest : list Z) : list Z :=
  dc :: repeat 0 (scan_w tx * scan_h tx - 1) ++ rest.
Definition picture (bd : Z) (tx : nat) (dst : list (list Z)) : Prop :=
  length dst = height tx /\ Forall (fun r => length r = width tx) dst /\
  Forall (Forall (fun v => 0 <= v <= 2 ^ bd - 1)) dst.
Definition dc_range (bd dc : Z) : Prop := - 2 ^ (bd + 7) <= dc <= 2 ^ (bd + 7) - 1.
Definition two_to_one (tx : nat) : bool :=
  Nat.eqb (width tx) (2 * height tx) || Nat.eqb (height tx) (2 * width tx).

Lemma dc_block : forall bd tx dc dst, (bd = 8 \/ bd = 10 \/ bd = 12) -> (tx < 19)%nat -> dc_range bd dc -> picture bd tx dst ->
  block_ok bd tx 0 0 (dc_coef dc) dst.
Proof.
  intros bd tx dc dst B T D (P1 & P2 & P3). destruct (scan_wh tx T) as (W & Hh & _).
  constructor; auto; try lia.
  - do 19 (destruct tx as [|tx]; [reflexivity|]). lia.
  - intros i j _ _. unfold dc_coef. assert (0 < 2 ^ (bd + 7)) by (apply Z.pow_pos_nonneg; lia).
    destruct i, j; auto; lia.
  - intros i j _ _ N. exists 0%nat. rewrite dc_first by auto. destruct i, j; cbn in N; try lia.
Qed.
Lemma dc_buffer_eq : forall tx dc rest, (tx < 19)%nat -> dc_buffer tx dc rest = layout tx (dc_coef dc) ++ rest.
Proof.
  intros tx dc rest T. unfold dc_buffer. rewrite app_comm_cons. f_equal.
  symmetry. destruct (scan_wh tx T) as (W & Hh & _).
  apply nth_ext with (d := 0) (d' := 0).
  - rewrite layout_length. cbn [length]. rewrite repeat_length. nia.
  - intros n N. rewrite layout_length in N. destruct (split_pos (scan_h tx) (scan_w tx) n ltac:(lia)) as (j & i & J & I & ->).
    rewrite (Nat.add_comm (j * scan_h tx) i), layout_nth by auto.
    destruct (i + j * scan_h tx)%nat as [|m] eqn:M.
    + assert (i = 0 /\ j = 0)%nat as [-> ->] by nia. reflexivity.
    + cbn [nth]. rewrite nth_repeat0. unfold dc_coef. destruct i, j; auto. cbn in M. lia.
Qed.
Lemma two_to_one_rect : forall tx, (tx < 19)%nat -> two_to_one tx = is_rect tx.
Proof. intros tx T. do 19 (destruct tx as [|tx]; [reflexivity|]). lia. Qed.

(** For every size, bit depth, DC value and picture the two ways of computing the
    block give the same pixels and leave the same buffer, and neither overflows. *)
Theorem C29_shortcut : forall bd tx dc dst rest, (bd = 8 \/ bd = 10 \/ bd = 12) -> (tx < 19)%nat ->
  dc_range bd dc -> picture bd tx dst ->
  exists out,
    dc_only (bd =? 8) (2 ^ bd - 1) dst (dc_buffer tx dc rest) (two_to_one tx) (row_shift tx) = Ok out /\
    general (bd =? 8) (2 ^ bd - 1) dst (dc_buffer tx dc rest) 0 (Z.of_nat tx) (row_shift tx) DCT_DCT = Ok out.
Proof.
  intros bd tx dc dst rest B T D P. rewrite dc_buffer_eq, two_to_one_rect by auto.
  pose proof (dc_block bd tx dc dst B T D P) as BO.
  pose proof (dc_only_general bd tx _ dst rest BO) as E. unfold is8, bdmax in E. rewrite <- E.
  destruct (setup_ex tx 0 T ltac:(lia) (bo_allowed _ _ _ _ _ _ BO)) as (t & f & s & f1 & f2 & st & SU).
  pose proof (dc_only_spec bd tx _ dst BO _ _ _ _ _ _ SU rest) as Q. unfold is8, bdmax in Q. rewrite Q. eauto.
Qed.

(** So does the dispatched function, which takes the shortcut exactly there. *)
Theorem C29_dispatched : forall bd tx dc dst rest, (bd = 8 \/ bd = 10 \/ bd = 12) -> (tx < 19)%nat ->
  dc_range bd dc -> picture bd tx dst ->
  itxfm_add (bd =? 8) (2 ^ bd - 1) (Z.of_nat tx) DCT_DCT dst (dc_buffer tx dc rest) 0 =
  general (bd =? 8) (2 ^ bd - 1) dst (dc_buffer tx dc rest) 0 (Z.of_nat tx) (row_shift tx) DCT_DCT.
Proof.
  intros bd tx dc dst rest B T D P. rewrite dc_buffer_eq by auto.
  pose proof (dc_block bd tx dc dst B T D P) as BO.
  pose proof (itxfm_add_spec bd tx 0 0 _ dst rest BO) as E. unfold is8, bdmax in E.
  etransitivity; [exact E|].
  pose proof (dc_only_general bd tx _ dst rest BO) as E2. unfold is8, bdmax in E2. rewrite <- E2.
  destruct (setup_ex tx 0 T ltac:(lia) (bo_allowed _ _ _ _ _ _ BO)) as (t & f & s & f1 & f2 & st & SU).
  pose proof (dc_only_spec bd tx _ dst BO _ _ _ _ _ _ SU rest) as Q. unfold is8, bdmax in Q. rewrite Q. reflexivity.
Qed.

(** Outside that range the shortcut overflows: the range is needed. *)
Theorem C29_range_needed : forall dst rest,
  dc_only false 4095 dst (12000000 :: rest) false 0 = Undef.
Proof. intros. reflexivity. Qed.

(** ** Satisfiable *)
Example C29_ex : dc_only false 1023 (repeat (repeat 512 4) 4) (dc_buffer 0 (-3000) []) false 0 =
  Ok (repeat (repeat 418 4) 4, repeat 0 16).
Proof. vm_compute. reflexivity. Qed.
Example C29_ex_saturated : dc_only false 1023 (repeat (repeat 512 4) 4) (dc_buffer 0 131071 []) false 0 =
  Ok (repeat (repeat 1023 4) 4, repeat 0 16).
Proof. vm_compute. reflexivity. Qed.

Print Assumptions C29_shortcut.
Print Assumptions C29_dispatched.
Print Assumptions C29_range_needed.

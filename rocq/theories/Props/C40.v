(** C40: the inverse transforms never overflow, read anything uninitialised or
    leave their arrays, and leave the coefficient buffer zero. *)
From Coq Require Import ZArith List Bool Lia.
From Verif Require Import Base.CInt Itx.Lang Itx.Txfm2d Itx.Spec1d Itx.Spec2d Itx.Proofs2d Itx.ScanProofs Itx.Main2d Itx.Dc2d.
Import ListNotations.
Open Scope Z_scope.
Open Scope outcome_scope.

(** [block_ok] (Main2d.v): coefficients of the range that the decoder clamps to,
    zero behind the last scan index, a size and a type that the bitstream can
    combine, and a block of pixels. *)
Theorem C40_defined : forall bd tx ty eob coef dst rest, block_ok bd tx ty eob coef dst ->
  exists out,
    itxfm_add (bd =? 8) (2 ^ bd - 1) (Z.of_nat tx) (Z.of_nat ty) dst (layout tx coef ++ rest) (Z.of_nat eob) =
      Ok (out, repeat 0 (scan_w tx * scan_h tx) ++ rest) /\
    length out = height tx /\
    Forall (fun r => length r = width tx /\ Forall (fun v => 0 <= v <= 2 ^ bd - 1) r) out.
Proof.
  intros bd tx ty eob coef dst rest BO. eexists. split; [exact (itxfm_add_spec bd tx ty eob coef dst rest BO)|].
  apply reconstruct_dims. destruct (bo_bd _ _ _ _ _ _ BO) as [ -> |[ -> | -> ]]; lia.
Qed.

(** The lossless transform likewise. *)
Theorem C40_lossless : forall bd coef dst rest eob, (bd = 8 \/ bd = 10 \/ bd = 12) ->
  (forall i j, (i < 4)%nat -> (j < 4)%nat -> - 2 ^ (bd + 7) <= coef i j <= 2 ^ (bd + 7) - 1) ->
  length dst = 4%nat -> Forall (fun r => length r = 4%nat) dst ->
  Forall (Forall (fun v => 0 <= v <= 2 ^ bd - 1)) dst ->
  exists out,
    itxfm_add (bd =? 8) (2 ^ bd - 1) TX_4X4 WHT_WHT dst (layout 0 coef ++ rest) eob =
      Ok (out, repeat 0 16 ++ rest).
Proof. intros bd coef dst rest eob B C D1 D2 D3. eexists. exact (wht_spec bd coef dst rest B C D1 D2 D3 eob). Qed.

(** Every combination of size and type that the bitstream allows has a function,
    and no other has. *)
Theorem C40_table : forall tx ty, (tx < 19)%nat -> (ty < 16)%nat ->
  (exists e, rd_at tx_fns (Z.of_nat tx) = Ok e /\ in_set (fst e) (Z.of_nat ty) = allowed tx ty).
Proof.
  intros tx ty T Y.
  do 19 (destruct tx as [|tx]; [eexists; split; [reflexivity|]; do 16 (destruct ty as [|ty]; [reflexivity|]); lia|]). lia.
Qed.

(** ** Satisfiable *)
Definition ex_coef (i j : nat) : Z := if Nat.ltb (i + j) 1 then -32768 else if Nat.eqb (i + j) 1 then 32767 else 0.
Example C40_ex : block_ok 8 2 0 4 ex_coef (repeat (repeat 200 16) 16).
Proof.
  constructor.
  - left. reflexivity.
  - lia.
  - lia.
  - reflexivity.
  - apply Nat.ltb_lt. vm_compute. reflexivity.
  - intros i j I J. unfold ex_coef. destruct (Nat.ltb (i + j) 1); [cbn; lia|]. destruct (Nat.eqb (i + j) 1); cbn; lia.
  - intros i j I J. unfold ex_coef. destruct (Nat.ltb (i + j) 1) eqn:E1.
    + apply Nat.ltb_lt in E1. intros _. exists 0%nat. assert (i = 0 /\ j = 0)%nat as [-> ->] by lia. split; [lia|reflexivity].
    + destruct (Nat.eqb (i + j) 1) eqn:E2; [|congruence]. intros _. apply Nat.eqb_eq in E2.
      destruct i as [|[|i]]; [assert (j = 1%nat) by lia; subst; exists 1%nat; split; [lia|reflexivity]
        |assert (j = 0%nat) by lia; subst; exists 2%nat; split; [lia|reflexivity]|lia].
  - apply repeat_length.
  - apply Forall_forall. intros r R. apply repeat_spec in R. subst. apply repeat_length.
  - apply Forall_forall. intros r R. apply repeat_spec in R. subst. apply Forall_forall. intros v V. apply repeat_spec in V. subst. lia.
Qed.

Print Assumptions C40_defined.
Print Assumptions C40_lossless.
Print Assumptions C40_table.

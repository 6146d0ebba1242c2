(** Exhaustive checks over small integer ranges. *)
From Coq Require Import ZArith List Bool Lia.
Import ListNotations.
Open Scope Z_scope.

Fixpoint all_from (fuel : nat) (x : Z) (p : Z -> bool) : bool :=
  match fuel with
  | O => true
  | S fuel => if p x then all_from fuel (x + 1) p else false
  end.
Definition all_in (lo hi : Z) (p : Z -> bool) : bool := all_from (Z.to_nat (hi - lo + 1)) lo p.

Lemma all_from_ok : forall fuel x p, all_from fuel x p = true ->
  forall y, x <= y < x + Z.of_nat fuel -> p y = true.
Proof.
  induction fuel; intros x p H y Hy; [lia|]. cbn [all_from] in H.
  destruct (p x) eqn:E; [|discriminate].
  destruct (Z.eq_dec y x); [subst; auto|]. apply (IHfuel (x + 1) p H). lia.
Qed.
Lemma all_in_ok : forall lo hi p, all_in lo hi p = true -> forall x, lo <= x <= hi -> p x = true.
Proof. intros lo hi p H x Hx. apply (all_from_ok _ _ _ H). lia. Qed.
Lemma all_in2_ok : forall lo hi lo2 hi2 p,
  all_in lo hi (fun x => all_in lo2 hi2 (fun y => p x y)) = true ->
  forall x y, lo <= x <= hi -> lo2 <= y <= hi2 -> p x y = true.
Proof.
  intros lo hi lo2 hi2 p H x y Hx Hy.
  apply (all_in_ok lo2 hi2 (p x)); auto.
  exact (all_in_ok lo hi (fun x => all_in lo2 hi2 (fun y => p x y)) H x Hx).
Qed.

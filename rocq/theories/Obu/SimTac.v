(** Tactics and extra rules for simulation proofs of header parsers. *)
From Coq Require Import ZArith List Bool Lia.
From Verif Require Import Base.CInt Base.Lemmas GetBits.Model GetBits.Spec GetBits.Abstract
  GetBits.Proofs GetBits.SpecProg GetBits.Sim GetBits.VarLen.
Import ListNotations.
Open Scope Z_scope.

(** Reading [n + m] bits in two steps. *)
Lemma sim_split : forall A B N n m (p : Z -> Z -> rd A) (q : Z -> sp B) (R : A -> B -> Prop),
  0 < n <= 32 -> 0 < m <= 32 -> n + m <= N ->
  (forall a b, 0 <= a < 2 ^ n -> 0 <= b < 2 ^ m -> sim (N - (n + m)) (p a b) (q (a * 2 ^ m + b)) R) ->
  sim N (rbind (bits n) (fun a => rbind (bits m) (fun b => p a b))) (sbind (f (n + m)) q) R.
Proof.
  intros A B N n m p q R Hn Hm HN H s a Hs Ha Hb.
  pose proof (sim_f n n Hn ltac:(lia)) as S1. specialize (S1 s a Hs Ha ltac:(lia)).
  cbn [f srun] in S1. destruct S1 as (_ & x & E1 & -> & X1).
  rewrite aexec_bind, E1. clear E1.
  set (a' := {| a_pos := a_pos a + n; a_err := a_err a || (st_len s <? a_pos a + n) |}).
  assert (Ha' : apos_ok s a') by (apply apos_ok_read; [lia|auto]).
  pose proof (sim_f m m Hm ltac:(lia)) as S2. specialize (S2 s a' Hs Ha' ltac:(unfold a'; cbn [a_pos]; lia)).
  cbn [f srun] in S2. destruct S2 as (_ & y & E2 & -> & X2).
  rewrite aexec_bind, E2. clear E2. unfold a' in *. cbn [a_pos a_err] in *.
  replace (a_pos a + n + m) with (a_pos a + (n + m)) in * by lia.
  assert (EE : (a_err a || (st_len s <? a_pos a + n)) || (st_len s <? a_pos a + (n + m))
               = a_err a || (st_len s <? a_pos a + (n + m))).
  { destruct (a_err a); auto. simpl. destruct (Z.ltb_spec (st_len s) (a_pos a + n)); auto.
    simpl. symmetry. apply Z.ltb_lt. lia. }
  rewrite EE.
  set (a2 := {| a_pos := a_pos a + (n + m); a_err := a_err a || (st_len s <? a_pos a + (n + m)) |}).
  assert (Ha2 : apos_ok s a2) by (apply apos_ok_read; [lia|auto]).
  specialize (H _ _ X1 X2 s a2 Hs Ha2 ltac:(unfold a2; cbn [a_pos]; lia)).
  rewrite srun_bind. cbn [f srun]. rewrite f_n_app by lia.
  subst a2. cbn [a_pos a_err] in H.
  assert (EQ : forall p'', a_pos a + (n + m) <= p'' ->
     (a_err a || (st_len s <? a_pos a + (n + m))) || (st_len s <? p'') = a_err a || (st_len s <? p'')).
  { intros. destruct (a_err a); simpl; auto.
    destruct (Z.ltb_spec (st_len s) (a_pos a + (n + m))); simpl; auto. symmetry. apply Z.ltb_lt. lia. }
  match type of H with match ?X with _ => _ end => destruct X as [[b|] pos'] end.
  - destruct H as (P & z & E & RR). split; [lia|]. exists z. rewrite E, EQ by lia. auto.
  - destruct H as (P & E). split; [lia|]. rewrite E, EQ by lia. auto.
Qed.

(** A pure computation on the model side. *)
Lemma sim_let : forall A B C N (x : A) (k : A -> rd B) (q : sp C) R,
  sim N (k x) q R -> sim N (rbind (Ret x) k) q R.
Proof. intros. exact H. Qed.

Lemma sim_assert : forall A B N b (p : rd A) (q : sp B) R,
  b = true -> sim N p q R -> sim N (rbind (assert b) (fun _ => p)) q R.
Proof. intros A B N b p q R -> H. exact H. Qed.

Ltac rd1 x := eapply sim_bind with (N1 := 1);
  [apply sim_f1; lia | let H := fresh "H" x in intros x ? [<- H]; cbv beta | lia].
Ltac rdn x n := eapply sim_bind with (N1 := n);
  [apply sim_f; lia | let H := fresh "H" x in intros x ? [<- H]; cbv beta | lia].
Ltac sret := apply sim_ret; [lia|].
(** Common relation: equal values in a range. *)
Definition eqr (lo hi : Z) (x y : Z) : Prop := x = y /\ lo <= x <= hi.
Lemma eqr_intro : forall lo hi x, lo <= x <= hi -> eqr lo hi x x.
Proof. split; auto. Qed.
Lemma sim_bit : forall N, 1 <= N -> sim N bit (f 1) (eqr 0 1).
Proof. intros. apply sim_f1. auto. Qed.
Lemma sim_bits : forall N n hi, 0 < n <= 32 -> n <= N -> hi = 2 ^ n - 1 -> sim N (bits n) (f n) (eqr 0 hi).
Proof.
  intros. eapply sim_weaken; [apply sim_f with (N := N); auto|lia|].
  intros x y (E & Hx). split; auto. lia.
Qed.
Lemma z2b_1 : forall x, 0 <= x <= 1 -> z2b x = (x =? 1).
Proof. intros. unfold z2b. assert (x = 0 \/ x = 1) as [->| ->] by lia; reflexivity. Qed.
Lemma z2b_pos : forall x, 0 <= x -> z2b x = (0 <? x).
Proof. intros. unfold z2b. destruct (Z.eqb_spec x 0), (Z.ltb_spec 0 x); auto; lia. Qed.
(** Optional element: [if c then m else 0]. *)
Ltac bnd n R := eapply sim_bind with (N1 := n) (S := R); [ | | lia].
Ltac tf := apply sim_if; [reflexivity| |].

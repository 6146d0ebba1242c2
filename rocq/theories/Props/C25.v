(** C25: the task queue never loses, duplicates or misorders tasks. *)
From Coq Require Import ZArith List Bool Lia Permutation.
From Verif Require Import Base.CInt Sched.Queue Sched.QueueProofs.
Import ListNotations.
Open Scope Z_scope.

(** Whatever the history of direct insertions, deferred insertions, merges, removals through
    any valid position hint, row replacements and task creations: every operation is defined
    (no assertion fails, no null pointer is followed), *)
Theorem C25_defined : forall ar s m o fuel, run ar s m -> allowed s m o -> enough m fuel ->
  exists s', exec fuel ar s o = Ok s'.
Proof. exact run_defined. Qed.

(** the two lists found by following the pointers hold exactly the tasks inserted and not yet
    removed, each once, with a correct tail pointer, and the queue is in priority order. *)
Theorem C25_exact : forall ar s m, run ar s m -> exists q p,
  seg (nxt s) (head s) q None /\ tail s = lasto q /\ seg (nxt s) (phead s) p None /\
  NoDup (q ++ p) /\ Permutation (q ++ p) m /\ sorted (info s) q.
Proof.
  intros ar s m R. destruct (run_inv _ _ _ R) as (q & p & HO & PM & _). exists q, p.
  destruct HO. repeat (apply conj); auto.
Qed.

(** One direct insertion puts the task at one place and leaves the rest in order. *)
Theorem C25_insert : forall ar s m t fuel s', run ar s m -> allowed s m (Ins t) -> enough m fuel ->
  insert_task fuel ar s t = Ok s' ->
  exists l r, seg (nxt s) (head s) (l ++ r) None /\ seg (nxt s') (head s') (l ++ t :: r) None.
Proof.
  intros ar s m t fuel s' R [NI AC] EN E. destruct (run_inv _ _ _ R) as (q & p & HO & PM & FL).
  destruct (insert_spec fuel ar s q p t) as (s1 & q1 & E1 & HO1 & _ & _ & _ & _ & l & r & EQ1 & EQ2); auto.
  - intros I; apply NI; eapply Permutation_in; eauto.
  - eapply all_compat_perm; [ constructor; apply Permutation_sym; exact PM | exact AC ].
  - unfold enough in EN. rewrite <- (Permutation_length PM), app_length in EN. lia.
  - rewrite E in E1. inversion E1; subst s1. exists l, r. rewrite <- EQ1, <- EQ2. split; [ apply HO | apply HO1 ].
Qed.

(** After a merge nothing is pending. *)
Theorem C25_merge : forall ar s m fuel s', run ar s m -> enough m fuel -> merge_pending fuel ar s = Ok s' ->
  phead s' = None /\ exists q, seg (nxt s') (head s') q None /\ Permutation q m.
Proof.
  intros ar s m fuel s' R EN E. destruct (run_inv _ _ _ R) as (q & p & HO & PM & FL).
  destruct (merge_spec fuel ar s q p HO FL) as (s1 & q1 & E1 & HO1 & P1 & _).
  - unfold enough in EN. rewrite <- (Permutation_length PM), app_length in EN. lia.
  - rewrite E in E1. inversion E1; subst s1. split; [ apply (h_p _ _ _ HO1) | ].
    exists q1. split; [ apply HO1 | etransitivity; eauto ].
Qed.

(** The priority is a strict total order on tasks that may be queued together. *)
Theorem C25_order_total : forall i x y, x <> y -> compat i x y -> (prec i x y /\ ~ prec i y x) \/ (prec i y x /\ ~ prec i x y).
Proof. intros i x y NE (A & B & C). unfold prec. cbv zeta. lia. Qed.
Theorem C25_order_trans : forall i x y z, prec i x y -> prec i y z -> prec i x z.
Proof. exact prec_trans. Qed.

(** Once a flush has been requested nothing is inserted. *)
Theorem C25_flush : forall fuel ar s t s', flush s = true -> insert_task fuel ar s t = Ok s' -> s' = s.
Proof.
  intros fuel ar s t s' FL. unfold insert_task.
  assert (B : forall a b, insert_between s t a b = Ok s' -> s' = s) by (intros a b; unfold insert_between; rewrite FL; congruence).
  assert (G : forall f prev cur, insert_loop f ar s t prev cur = Ok s' -> s' = s).
  { induction f; intros prev [c|]; cbn; eauto; [ discriminate | ]. destruct (compare ar s t c); eauto. discriminate. }
  apply G.
Qed.

(** Non-vacuity: four tiles in two tile rows and a filter task, created, merged, one tile
    taken and put back for the next row, and the filter row task replaced by the next one. *)
Definition ar0 : arrays := mkArr (fun e => if e then 200 else 100).
Definition start : st := mkSt (fun _ => mkTask 0 0) (fun _ => None) None None None None false false.
Fixpoint execs (ar : arrays) (s : st) (os : list op) : outcome st :=
  match os with nil => Ok s | o :: r => obind (exec 40 ar s o) (fun s => execs ar s r) end.
Fixpoint walk (n : nat) (s : st) (a : option Z) : list Z :=
  match n, a with S n, Some x => x :: walk n s (nxt s x) | _, _ => nil end.
Example C25_sat :
  match execs ar0 start [Sbrow 4 100 [0; 0; 2; 2] 500 5; Merge] with
  | Ok s => walk 9 s (head s) = [100; 101; 500; 102; 103] /\ phead s = None
  | Undef => False
  end /\
  match execs ar0 start [Sbrow 4 100 [0; 0; 2; 2] 500 5; Merge; Take None 101; Take None 100; Fields 100 (mkTask 4 1);
                         Pend 100; Fields 101 (mkTask 4 1); Ins 101; TakeRow None 500; Merge] with
  | Ok s => walk 9 s (head s) = [100; 101; 501; 102; 103] /\ tail s = Some 103
  | Undef => False
  end.
Proof. vm_compute. repeat split. Qed.
Example C25_run : exists s, run ar0 s [100; 101; 500].
Proof.
  eexists. change [100; 101; 500] with (effect (Sbrow 4 100 [0; 0] 500 5) []).
  eapply (run_step ar0 start [] _ 10); [ apply run_init | | unfold enough; cbn; lia | vm_compute; reflexivity ].
  split; [ eauto | ]. cbn. split; [ repeat constructor; cbn; lia | ].
  intros x y I J NE. cbn in I, J. unfold compat, sbrow_info, T_INIT_CDF, T_ENTROPY, T_RECON.
  destruct I as [<-|[<-|[<-|[]]]], J as [<-|[<-|[<-|[]]]]; cbn; lia.
Qed.
Print Assumptions C25_defined.
Print Assumptions C25_exact.
Print Assumptions C25_insert.
Print Assumptions C25_merge.

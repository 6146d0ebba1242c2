(** C16: pooled buffers are never shared and the pool is destroyed exactly once. *)
From Coq Require Import ZArith List Bool Lia.
From Verif Require Import Base.CInt Mem.Pool Mem.PoolProofs.
Import ListNotations.
Open Scope Z_scope.
Open Scope outcome_scope.

(** Any number of threads, any interleaving, allocation failures at any time: no
    use of freed memory, no double free, no failed assertion. *)
Theorem C16_safe : forall pool ls o, runs pool (init pool) ls o -> o <> Undef.
Proof.
  intros pool ls o R. destruct (runs_ok pool _ _ _ R (init_inv pool)) as (s & -> & _). discriminate.
Qed.

(** At any time the buffers in use are distinct live objects other than the pool. *)
Theorem C16_distinct : forall pool ls s, runs pool (init pool) ls (Ok s) ->
  NoDup (held s) /\ forall b, In b (held s) -> b <> pool /\ exists sz n, mem s b = Some (OBuf sz n).
Proof.
  intros pool ls s R. destruct (runs_ok pool _ _ _ R (init_inv pool)) as (s' & X & I). injection X as <-.
  exact (held_facts pool s I).
Qed.

(** A call gives out a buffer of the size asked for that nobody else has. *)
Theorem C16_pop : forall pool ls s i a s' p, runs pool (init pool) ls (Ok s) ->
  exec pool s (LRun i a) = Some (Ok s') -> nth_error (pcs s) i = Some p ->
  held s' = held s \/
  exists b z n, held s' = b :: held s /\ ~ In b (held s) /\ wants p = Some z /\ mem s' b = Some (OBuf z n)
    /\ pcs s' = drop_nth i (pcs s).
Proof.
  intros pool ls s i a s' p R. destruct (runs_ok pool _ _ _ R (init_inv pool)) as (s0 & X & I). injection X as <-.
  exact (pop_result pool s i a s' p I).
Qed.

(** Nothing that happens to the pool touches or takes away a buffer in use until
    its user gives it back. *)
Theorem C16_undisturbed : forall pool ls s l s' b, runs pool (init pool) ls (Ok s) ->
  exec pool s l = Some (Ok s') -> In b (held s) -> l <> LPush b -> In b (held s') /\ mem s' b = mem s b.
Proof.
  intros pool ls s l s' b R. destruct (runs_ok pool _ _ _ R (init_inv pool)) as (s0 & X & I). injection X as <-.
  exact (held_stable pool s l s' b I).
Qed.

(** The pool exists as long as dav1d_mem_pool_end was not called, a buffer is in
    use, or a call for one is in progress; once gone it stays gone. *)
Theorem C16_alive : forall pool ls s, runs pool (init pool) ls (Ok s) ->
  ended s = false \/ held s <> [] \/ existsb popping (pcs s) = true -> exists b r, mem s pool = Some (OPool b r (ended s)).
Proof.
  intros pool ls s R. destruct (runs_ok pool _ _ _ R (init_inv pool)) as (s0 & X & I). injection X as <-.
  exact (pool_alive pool s I).
Qed.
Theorem C16_destroyed_once : forall pool ls s l s', runs pool (init pool) ls (Ok s) ->
  exec pool s l = Some (Ok s') -> mem s pool = None -> mem s' pool = None.
Proof.
  intros pool ls s l s' R. destruct (runs_ok pool _ _ _ R (init_inv pool)) as (s0 & X & I). injection X as <-.
  exact (stays_dead pool s l s' I).
Qed.

(** After dav1d_mem_pool_end, when all buffers are back and all calls are over, all
    memory has been freed: the buffers and the pool. *)
Theorem C16_no_leak : forall pool ls s, runs pool (init pool) ls (Ok s) ->
  ended s = true -> held s = [] -> pcs s = [] -> forall x, mem s x = None.
Proof.
  intros pool ls s R. destruct (runs_ok pool _ _ _ R (init_inv pool)) as (s0 & X & I). injection X as <-.
  exact (no_leak pool s I).
Qed.

(** The calls in progress finish: there is a bound on their number of steps, and no
    call ever waits. *)
Theorem C16_finishes : forall pool ls s, runs pool (init pool) ls (Ok s) ->
  exists n, forall ls' s', runs pool s ls' (Ok s') -> Forall (fun l => exists i a, l = LRun i a) ls' -> zlen ls' <= n.
Proof.
  intros pool ls s R. destruct (runs_ok pool _ _ _ R (init_inv pool)) as (s0 & X & m & I). injection X as <-.
  exists m. intros ls' s' R' F. exact (bounded pool ls' s m s' I R' F).
Qed.
Theorem C16_no_wait : forall pool s i p, nth_error (pcs s) i = Some p -> exec pool s (LRun i None) <> None.
Proof.
  intros pool s i p E. cbn [exec]. rewrite E. destruct p as [| | | |[]|]; cbn [run]; discriminate.
Qed.

(** ** An execution *)
Fixpoint go (pool : nat) (s : st) (ls : list label) : option (outcome st) :=
  match ls with
  | [] => Some (Ok s)
  | l :: ls => match exec pool s l with
               | Some (Ok s) => go pool s ls
               | r => r
               end
  end.
Lemma go_runs : forall pool ls s o, go pool s ls = Some o -> runs pool s ls o.
Proof.
  intros pool. induction ls as [|l ls IH]; intros s o E; cbn [go] in E.
  - injection E as <-. constructor.
  - destruct (exec pool s l) as [[s1|]|] eqn:X; [|injection E as <-; now apply R_bad|discriminate E].
    eapply R_cons; eauto.
Qed.
(** two buffers, one given back and reused by a request of another size; the pool
    ends while one is in use and another request is in progress *)
Definition ex_run : list label :=
  [LPop 64; LPop 64; LRun 1 (Some 5%nat); LRun 0 (Some 6%nat); LPush 5; LPop 128; LPop 32; LEnd;
   LRun 2 None; LPush 6; LRun 0 None; LRun 3 (Some 9%nat); LRun 1 None; LRun 2 None; LRun 1 None; LPush 9; LRun 0 None; LRun 1 None;
   LRun 1 None; LRun 1 None; LRun 0 None].
Example C16_ex : exists s, runs 1 (init 1) ex_run (Ok s) /\ ended s = true /\ held s = [] /\ pcs s = [].
Proof.
  destruct (go 1 (init 1) ex_run) as [[s|]|] eqn:E.
  - exists s. split; [now apply go_runs|]. vm_compute in E. injection E as <-. repeat split.
  - exfalso. vm_compute in E. discriminate E.
  - exfalso. vm_compute in E. discriminate E.
Qed.
(** half way two requests are in progress, one buffer is in use and the pool has ended *)
Example C16_ex_mid : exists s, runs 1 (init 1) (firstn 9 ex_run) (Ok s)
  /\ ended s = true /\ held s = [6%nat] /\ pcs s = [EndFree None 3; PopAlloc 32; PopAlloc 128].
Proof.
  destruct (go 1 (init 1) (firstn 9 ex_run)) as [[s|]|] eqn:E.
  - exists s. split; [now apply go_runs|]. vm_compute in E. injection E as <-. repeat split.
  - exfalso. vm_compute in E. discriminate E.
  - exfalso. vm_compute in E. discriminate E.
Qed.

Print Assumptions C16_safe.
Print Assumptions C16_distinct.
Print Assumptions C16_pop.
Print Assumptions C16_undisturbed.
Print Assumptions C16_alive.
Print Assumptions C16_destroyed_once.
Print Assumptions C16_no_leak.
Print Assumptions C16_finishes.
Print Assumptions C16_no_wait.

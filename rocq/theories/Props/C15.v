(** C15: every buffer is freed exactly once, after its last reference is dropped. *)
From Coq Require Import ZArith List Bool Lia Permutation.
From Verif Require Import Base.CInt Mem.Ref Mem.RefProofs Mem.Users Mem.UsersProofs.
Import ListNotations.
Open Scope Z_scope.
Open Scope outcome_scope.

(** ** The protocol: any number of threads, any interleaving of their accesses, any
    allowed calls *)

(** No access to a freed object, no double free. *)
Theorem C15_safe : forall n ls o, runs (init n) ls o -> o <> Undef.
Proof. intros n ls o R. destruct (runs_ok _ _ _ R (init_inv n)) as (s & -> & _). discriminate. Qed.

(** While anybody has a reference the object is there, it counts the references,
    and its free callback did not run. *)
Theorem C15_not_early : forall n ls s i t r, runs (init n) ls (Ok s) -> nth_error (thrs s) i = Some t -> In r (own t) ->
  exists o, mem s r = Some o /\ r_cnt o = Z.of_nat (count_occ Nat.eq_dec (concat (map own (thrs s))) r) /\ ~ In (r_id o) (log s).
Proof.
  intros n ls s i t r R E H. destruct (runs_ok _ _ _ R (init_inv n)) as (s' & X & I). injection X as <-.
  assert (Q : refs s r = Z.of_nat (count_occ Nat.eq_dec (concat (map own (thrs s))) r)).
  { unfold refs. clear. induction (thrs s) as [|t l IH]; cbn [map concat PoolProofs.sumf]; [reflexivity|].
    rewrite count_occ_app, Nat2Z.inj_add, IH. reflexivity. }
  rewrite <- Q. apply referenced; [exact I|]. apply PoolProofs.occ_in in H.
  pose proof (PoolProofs.sumf_ge _ (refs_of r) _ i t (refs_nonneg r) E) as G. unfold refs_of at 1 in G. unfold refs. lia.
Qed.

(** No callback runs twice. *)
Theorem C15_once : forall n ls s, runs (init n) ls (Ok s) -> NoDup (log s).
Proof.
  intros n ls s R. destruct (runs_ok _ _ _ R (init_inv n)) as (s' & X & I). injection X as <-. exact (proj1 (i_log s I)).
Qed.

(** When all references are dropped and no thread is inside dav1d_ref_dec, the
    callback of every object ever created has run and all memory is freed. *)
Theorem C15_all_released : forall n ls s, runs (init n) ls (Ok s) ->
  Forall (fun t => own t = [] /\ at_ t = None) (thrs s) ->
  (forall x, mem s x = None) /\ forall i, In i (log s) <-> (i < nxt s)%nat.
Proof.
  intros n ls s R F. destruct (runs_ok _ _ _ R (init_inv n)) as (s' & X & I). injection X as <-.
  destruct (all_done s I F) as (A & _ & B). auto.
Qed.
(** An object nobody refers to is, until it is gone, in the hands of exactly one
    thread inside dav1d_ref_dec. *)
Theorem C15_releaser : forall n ls s r o, runs (init n) ls (Ok s) -> mem s r = Some o ->
  Forall (fun t => ~ In r (own t)) (thrs s) ->
  exists i t, nth_error (thrs s) i = Some t /\ pc_on r t = 1
    /\ forall j t', nth_error (thrs s) j = Some t' -> j <> i -> pc_on r t' = 0.
Proof.
  intros n ls s r o R M F. destruct (runs_ok _ _ _ R (init_inv n)) as (s' & X & I). injection X as <-.
  assert (Z0 : refs s r = 0).
  { unfold refs. apply sumf_zero. intros t J. rewrite Forall_forall in F. specialize (F t J). unfold refs_of.
    pose proof (PoolProofs.occ_nonneg r (own t)). pose proof (PoolProofs.occ_in r (own t)) as [_ G].
    destruct (Z.eq_dec (PoolProofs.occ r (own t)) 0); [assumption|]. exfalso. apply F, G. lia. }
  pose proof (unreferenced s r o I M Z0) as P.
  assert (E : exists i t, nth_error (thrs s) i = Some t /\ 0 < pc_on r t).
  { revert P. clear. induction (thrs s) as [|t l IH]; cbn [PoolProofs.sumf]; [discriminate|]. intros P.
    destruct (Z.eq_dec (pc_on r t) 0) as [Q|Q].
    - destruct IH as (i & t' & E & G); [lia|]. exists (S i), t'. auto.
    - exists O, t. split; [reflexivity|]. pose proof (pc_nonneg r t). lia. }
  destruct E as (i & t & E & G). exists i, t. split; [exact E|].
  pose proof (PoolProofs.sumf_ge _ (pc_on r) _ i t (pc_nonneg r) E). split; [lia|].
  intros j t' J N. pose proof (sum2_le _ (pc_on r) _ i j t t' (pc_nonneg r) E J ltac:(congruence)).
  pose proof (pc_nonneg r t'). lia.
Qed.
(** A thread inside dav1d_ref_dec never waits: it can always take its next step. *)
Theorem C15_no_wait : forall s i t, nth_error (thrs s) i = Some t -> at_ t <> None -> exec s (LStep i) <> None.
Proof.
  intros s i t E A. cbn [exec]. rewrite E. destruct (at_ t); [discriminate|congruence].
Qed.

(** If dav1d_ref_is_writable says yes, the caller's reference is the only one. *)
Theorem C15_writable : forall n ls s i t r, runs (init n) ls (Ok s) -> nth_error (thrs s) i = Some t -> In r (own t) ->
  exists b, is_writable (mem s) r = Ok b /\
  (b = true -> count_occ Nat.eq_dec (own t) r = 1%nat /\
               forall j t', nth_error (thrs s) j = Some t' -> j <> i -> ~ In r (own t')).
Proof.
  intros n ls s i t r R E H. destruct (runs_ok _ _ _ R (init_inv n)) as (s' & X & I). injection X as <-.
  destruct (writable_alone s i t r I E H) as (b & W & G). exists b. split; [exact W|]. intros B. destruct (G B) as [C N].
  split; [unfold PoolProofs.occ in C; lia|exact N].
Qed.

(** ** The functions of data.c and picture.c respect ownership: a call is allowed
    whenever the caller owns the references in the structs, and afterwards it owns
    exactly those in the structs as they are then (and its others, [rest]) *)
Definition transfers {A} (m : W A) (pre : list nat) (post : A -> list nat) : Prop :=
  forall rest, exists r l, m = Ok (r, l) /\ disc (pre ++ rest) l = true /\ Permutation (after (pre ++ rest) l) (post r ++ rest).

Lemma owns_transfers : forall A (m : W A) pre post, owns m pre post -> transfers m pre post.
Proof.
  intros A m pre post O rest. destruct (O rest) as (a & l & E & D & P). exists a, l. split; [exact E|]. split; [exact D|].
  apply (Permutation_count_occ Nat.eq_dec). intros x. specialize (P x). rewrite count_occ_app. unfold PoolProofs.occ in P. lia.
Qed.

Theorem C15_data : forall buf dst src sz p ud a,
  (data_refs buf = [] -> transfers (data_create buf sz a p) [] (fun r => data_refs (fst r))) /\
  (data_refs buf = [] -> transfers (data_wrap buf p sz a) [] (fun r => data_refs (fst r))) /\
  (ud_ref (d_m buf) = None -> transfers (data_wrap_user_data buf ud a) (data_refs buf) (fun r => data_refs (fst r))) /\
  (data_refs dst = [] -> d_data dst = None -> (d_ref src <> None -> d_data src <> None) ->
     transfers (data_ref dst src) (data_refs src) (fun d => data_refs d ++ data_refs src)) /\
  ((d_ref buf <> None -> d_data buf <> None) -> transfers (data_unref buf) (data_refs buf) (fun _ => [])).
Proof.
  intros. split; [|split; [|split; [|split]]]; intros; apply owns_transfers.
  - now apply data_create_owns.
  - now apply data_wrap_owns.
  - now apply data_wrap_user_data_owns.
  - now apply data_ref_owns.
  - now apply data_unref_owns.
Qed.
Theorem C15_props : forall m dst src,
  transfers (props_copy dst src) (props_refs dst ++ props_refs src) (fun d => props_refs d ++ props_refs src) /\
  transfers (props_unref m) (props_refs m) (fun _ => []).
Proof. intros m dst src. split; apply owns_transfers; [apply props_copy_owns|apply props_unref_owns]. Qed.

(** dav1d_picture_ref, _move_ref, _unref *)
Theorem C15_picture : forall dst src,
  (pic_refs dst = [] -> p_data dst = None -> (p_ref src <> None -> p_data src <> None) ->
     transfers (picture_ref dst src) (pic_refs src) (fun d => pic_refs d ++ pic_refs src) /\
     transfers (picture_move_ref dst src) (pic_refs src) (fun r => pic_refs (fst r) ++ pic_refs (snd r))) /\
  ((p_ref src <> None -> p_data src <> None) -> transfers (picture_unref src) (pic_refs src) (fun _ => [])).
Proof.
  intros dst src. split.
  - intros B N V. split; apply owns_transfers; [now apply picture_ref_owns|now apply picture_move_ref_owns].
  - intros V. apply owns_transfers. now apply picture_unref_owns.
Qed.
(** the allocation of a picture, also when it fails; the context gives its ITU-T T.35
    metadata to a picture that is shown *)
Theorem C15_picture_alloc : forall p src sh fh cl md it m vis a data res, pic_refs p = [] ->
  transfers (thread_picture_alloc p sh fh cl md it m vis a data res)
    (olist sh ++ olist fh ++ olist cl ++ olist md ++ olist it ++ props_refs m)
    (fun r => pic_refs (fst (fst r)) ++ olist (snd (fst r)) ++ olist sh ++ olist fh ++ olist cl ++ olist md ++ props_refs m) /\
  (p_ref src <> None -> transfers (picture_alloc_copy p src a data res) (pic_refs src) (fun r => pic_refs (fst r) ++ pic_refs src)) /\
  transfers (picture_copy_props src cl md it m) (pic_refs src ++ olist cl ++ olist md ++ olist it ++ props_refs m)
    (fun r => pic_refs r ++ olist cl ++ olist md ++ olist it ++ props_refs m).
Proof.
  intros p src sh fh cl md it m vis a data res B. split; [|split].
  - apply owns_transfers. now apply thread_picture_alloc_owns.
  - intros V. apply owns_transfers. now apply picture_alloc_copy_owns.
  - apply owns_transfers. apply picture_copy_props_owns.
Qed.

(** ** Not so: calling dav1d_data_wrap_user_data on data that has user data, or
    dav1d_data_wrap on data that has some, loses a reference; the first callback
    never runs *)
Definition used (r u : nat) : ddata :=
  {| d_data := Some 4096; d_sz := 10; d_ref := Some r;
     d_m := {| timestamp := 0; duration := 0; offset := -1; psize := 10; ud_data := Some 64; ud_ref := Some u |} |}.
Theorem C15_wrap_again_refuted :
  (exists d l, data_wrap_user_data (used 1 2) (Some 65) (Some 3%nat) = Ok ((d, 0), l)
     /\ In 2%nat (after (data_refs (used 1 2)) l) /\ ~ In 2%nat (data_refs d)) /\
  (exists d l, data_wrap (used 1 2) 8192 20 (Some 3%nat) = Ok ((d, 0), l)
     /\ In 1%nat (after (data_refs (used 1 2)) l) /\ ~ In 1%nat (data_refs d)
     /\ In 2%nat (after (data_refs (used 1 2)) l) /\ ~ In 2%nat (data_refs d)).
Proof.
  split.
  - eexists _, _. split; [reflexivity|]. split; [cbn; tauto|]. cbn. intros [H|[H|[]]]; discriminate H.
  - eexists _, _. split; [reflexivity|]. split; [cbn; tauto|]. split; [cbn; intros [H|[]]; discriminate H|].
    split; [cbn; tauto|]. cbn. intros [H|[]]; discriminate H.
Qed.

(** ** An execution: one thread wraps data, makes a second reference and gives it to
    another thread; both drop theirs at the same time *)
Fixpoint go (s : st) (ls : list label) : option (outcome st) :=
  match ls with
  | [] => Some (Ok s)
  | l :: ls => match exec s l with
               | Some (Ok s) => go s ls
               | r => r
               end
  end.
Lemma go_runs : forall ls s o, go s ls = Some o -> runs s ls o.
Proof.
  induction ls as [|l ls IH]; intros s o E; cbn [go] in E.
  - injection E as <-. constructor.
  - destruct (exec s l) as [[s1|]|] eqn:X; [|injection E as <-; now apply R_bad|discriminate E].
    eapply R_cons; eauto.
Qed.
Definition acts {A} (m : W A) : list act := match m with Ok (_, l) => l | Undef => [] end.
Definition wrapped : ddata :=
  {| d_data := Some 4096; d_sz := 10; d_ref := Some 1%nat; d_m := props_of_size 10 |}.
Definition ex_run : list label :=
  [LCall 0 (acts (data_wrap data_cleared 4096 10 (Some 1%nat))); LStep 0;
   LCall 0 (acts (data_ref data_cleared wrapped)); LStep 0; LMove 0 1 1;
   LCall 0 (acts (data_unref wrapped)); LCall 1 (acts (data_unref wrapped));
   LStep 1; LStep 0; LStep 0; LStep 0; LStep 0].
Example C15_ex_calls : data_wrap data_cleared 4096 10 (Some 1%nat) = Ok ((wrapped, 0), [ANew 1 KUser true false])
  /\ data_ref data_cleared wrapped = Ok (wrapped, [AInc 1])
  /\ data_unref wrapped = Ok (data_cleared, [ADec 1]).
Proof. repeat split. Qed.
Example C15_ex : exists s, runs (init 2) ex_run (Ok s) /\ log s = [0%nat] /\ mem s 1%nat = None
  /\ thrs s = repeat {| own := []; todo := []; at_ := None |} 2.
Proof.
  destruct (go (init 2) ex_run) as [[s|]|] eqn:E.
  - exists s. split; [now apply go_runs|]. vm_compute in E. injection E as <-. repeat split.
  - exfalso. vm_compute in E. discriminate E.
  - exfalso. vm_compute in E. discriminate E.
Qed.

Print Assumptions C15_safe.
Print Assumptions C15_not_early.
Print Assumptions C15_once.
Print Assumptions C15_all_released.
Print Assumptions C15_releaser.
Print Assumptions C15_no_wait.
Print Assumptions C15_writable.
Print Assumptions C15_data.
Print Assumptions C15_props.
Print Assumptions C15_picture.
Print Assumptions C15_picture_alloc.
Print Assumptions C15_wrap_again_refuted.

(** C23: thread and frame-delay settings. *)
From Coq Require Import ZArith List Bool Lia.
From Verif Require Import Base.CInt Base.Lemmas Lib.Model Lib.Proofs.
Import ListNotations.
Open Scope Z_scope.

(** Settings dav1d_open accepts. *)
Definition valid (s : opts) : Prop :=
  0 <= n_threads s <= 256 /\ 0 <= max_frame_delay s <= 256 /\ a_alloc s <> 0 /\ a_release s <> 0 /\
  0 <= operating_point s <= 31 /\ 0 <= decode_frame_type s <= 3.
(** Default and custom picture callbacks are not mixed, and the default ones take no cookie. *)
Definition callbacks_ok (s : opts) : Prop :=
  (a_alloc s = 1 <-> a_release s = 1) /\ (a_alloc s = 1 -> a_cookie s = false).

Lemma open_cases : forall wide cpus s,
  (~ valid s /\ open wide cpus s = Ok (inr (-22))) \/
  (valid s /\ ~ callbacks_ok s /\ open wide cpus s = Ok (inr (-12))) \/
  (valid s /\ callbacks_ok s /\ exists tc fc, get_num_threads (n_threads s) (max_frame_delay s) cpus = Ok (tc, fc) /\
     open wide cpus s = Ok (inl (mkOpened tc fc
       (if negb wide && (8192 * 8192 <=? u32 (frame_size_limit s - 1)) then 8192 * 8192 else frame_size_limit s)
       (if 1 <? tc then tc else 0) (if 1 <? fc then fc else 0)))).
Proof.
  intros wide cpus s. unfold open, valid, callbacks_ok, MAX_THREADS, MAX_FRAME_DELAY.
  destruct (Z.leb_spec 0 (n_threads s)), (Z.leb_spec (n_threads s) 256); cbn [andb negb]; try (left; split; [lia|auto]; fail).
  destruct (Z.leb_spec 0 (max_frame_delay s)), (Z.leb_spec (max_frame_delay s) 256); cbn [andb negb]; try (left; split; [lia|auto]; fail).
  destruct (Z.eqb_spec (a_alloc s) 0); [left; split; [lia|auto]|].
  destruct (Z.eqb_spec (a_release s) 0); [left; split; [lia|auto]|].
  destruct (Z.leb_spec 0 (operating_point s)), (Z.leb_spec (operating_point s) 31); cbn [andb negb]; try (left; split; [lia|auto]; fail).
  destruct (Z.leb_spec 0 (decode_frame_type s)), (Z.leb_spec (decode_frame_type s) 3); cbn [andb negb]; try (left; split; [lia|auto]; fail).
  right. destruct (threads_ok (n_threads s) (max_frame_delay s) cpus ltac:(lia) ltac:(lia)) as (tc & fc & E & _).
  destruct (Z.eqb_spec (a_alloc s) 1), (Z.eqb_spec (a_release s) 1); cbn [andb orb negb].
  - destruct (a_cookie s) eqn:C; [left|right].
    + split; [lia|]. split; [|auto]. intros (_ & A). specialize (A ltac:(auto)). discriminate.
    + split; [lia|]. split; [split; [tauto|auto]|]. exists tc, fc. rewrite E. auto.
  - left. split; [lia|]. split; [tauto|auto].
  - left. split; [lia|]. split; [tauto|auto].
  - right. split; [lia|]. split; [split; [tauto|tauto]|]. exists tc, fc. rewrite E. auto.
Qed.

(** Opening never performs an undefined operation and accepts exactly the valid settings
    (given that resources are available). *)
Theorem C23_accepted : forall wide cpus s,
  (exists r, open wide cpus s = Ok (inl r)) <-> (valid s /\ callbacks_ok s).
Proof.
  intros wide cpus s. destruct (open_cases wide cpus s) as [(A & E)|[(A & B & E)|(A & B & tc & fc & _ & E)]]; rewrite E; split.
  - intros (r & R). discriminate.
  - intros (R & _). contradiction.
  - intros (r & R). discriminate.
  - intros (_ & R). contradiction.
  - auto.
  - eauto.
Qed.
Theorem C23_rejected : forall wide cpus s, ~ (valid s /\ callbacks_ok s) ->
  open wide cpus s = Ok (inr (-22)) \/ open wide cpus s = Ok (inr (-12)).
Proof.
  intros wide cpus s N. destruct (open_cases wide cpus s) as [(A & E)|[(A & B & E)|(A & B & tc & fc & _ & E)]]; auto. tauto.
Qed.
(** At least one and at most 256 threads; the frame contexts are at most the threads, at
    most max_frame_delay if set, else min(8, ceil(sqrt(threads))). *)
Theorem C23_counts : forall wide cpus s r, open wide cpus s = Ok (inl r) ->
  1 <= o_n_tc r <= 256 /\ 1 <= o_n_fc r <= o_n_tc r /\
  o_n_tc r = (if n_threads s =? 0 then Z.max 1 (Z.min cpus 256) else n_threads s) /\
  (if max_frame_delay s =? 0
   then (o_n_tc r <= 64 -> (o_n_fc r - 1) * (o_n_fc r - 1) < o_n_tc r <= o_n_fc r * o_n_fc r) /\ (64 < o_n_tc r -> o_n_fc r = 8)
   else o_n_fc r = Z.min (max_frame_delay s) (o_n_tc r)) /\
  o_workers r = (if o_n_tc r =? 1 then 0 else o_n_tc r).
Proof.
  intros wide cpus s r O. destruct (open_cases wide cpus s) as [(A & E)|[(A & B & E)|(A & B & tc & fc & G & E)]]; rewrite E in O; try discriminate.
  injection O as <-. cbn [o_n_tc o_n_fc o_workers].
  destruct (threads_ok (n_threads s) (max_frame_delay s) cpus) as (tc' & fc' & G' & T1 & F1 & X1 & X2 & X3 & X4); try (unfold valid in A; lia).
  rewrite G in G'. injection G' as <- <-. split; [auto|]. split; [auto|]. split; [|split].
  - destruct (Z.eqb_spec (n_threads s) 0); auto.
  - destruct (Z.eqb_spec (max_frame_delay s) 0) as [Z0|Z0]; [|auto]. destruct (X4 Z0) as (U1 & U2 & U3). split.
    + intros L. destruct (Z_le_gt_dec tc 49); [auto|]. rewrite U3 by lia. lia.
    + intros L. apply U3. lia.
  - destruct (Z.ltb_spec 1 tc), (Z.eqb_spec tc 1); lia.
Qed.
(** dav1d_get_frame_delay reports the number of frame contexts dav1d_open will use. *)
Theorem C23_frame_delay : forall wide cpus s r, open wide cpus s = Ok (inl r) ->
  get_frame_delay (n_threads s) (max_frame_delay s) cpus = Ok (o_n_fc r).
Proof.
  intros wide cpus s r O. destruct (open_cases wide cpus s) as [(A & E)|[(A & B & E)|(A & B & tc & fc & G & E)]]; rewrite E in O; try discriminate.
  injection O as <-. unfold get_frame_delay, MAX_THREADS, MAX_FRAME_DELAY. unfold valid in A.
  destruct (Z.leb_spec 0 (n_threads s)), (Z.leb_spec (n_threads s) 256); try lia.
  destruct (Z.leb_spec 0 (max_frame_delay s)), (Z.leb_spec (max_frame_delay s) 256); try lia.
  cbn [andb negb]. rewrite G. reflexivity.
Qed.
(** The frame size limit is the configured one; on 32-bit targets an absent limit and one
    above 8192x8192 become 8192x8192. *)
Theorem C23_size_limit : forall wide cpus s r, 0 <= frame_size_limit s < 2 ^ 32 -> open wide cpus s = Ok (inl r) ->
  o_limit r = if wide then frame_size_limit s
              else if frame_size_limit s =? 0 then 67108864 else Z.min (frame_size_limit s) 67108864.
Proof.
  intros wide cpus s r L O. destruct (open_cases wide cpus s) as [(A & E)|[(A & B & E)|(A & B & tc & fc & G & E)]]; rewrite E in O; try discriminate.
  injection O as <-. cbn [o_limit]. change (8192 * 8192) with 67108864. destruct wide; cbn [negb andb]; [auto|].
  destruct (Z.eqb_spec (frame_size_limit s) 0) as [->|N]; [reflexivity|].
  rewrite u32_id by lia. destruct (Z.leb_spec 67108864 (frame_size_limit s - 1)); lia.
Qed.

Example C23_example : exists r, open true 12 (mkOpts 0 0 1 1 false 0 0 0) = Ok (inl r) /\ o_n_tc r = 12 /\ o_n_fc r = 4 /\
  open true 12 (mkOpts 3 7 2 2 true 31 3 100) = Ok (inl (mkOpened 3 3 100 3 3)).
Proof. eexists. split; [vm_compute; reflexivity|]. vm_compute. auto. Qed.

Print Assumptions C23_accepted.
Print Assumptions C23_rejected.
Print Assumptions C23_counts.
Print Assumptions C23_frame_delay.
Print Assumptions C23_size_limit.

(** C26: published frame progress never runs ahead of finished rows. *)
From Coq Require Import ZArith List Bool Lia.
From Verif Require Import Base.CInt Base.Lemmas Sched.Progress Sched.ProgressProofs.
Import ListNotations.
Open Scope Z_scope.

(** A frame of at most 65536 luma rows in superblocks of at least 64. *)
Definition frame (c : cfg) : Prop := 1 <= sbh c <= 1024.
(** Luma rows of a superblock row. *)
Definition sb_rows (c : cfg) : Z := if sb128 c then 128 else 64.
Definition finished (s : st) (row : Z) : Prop := ph s row <> Working.

Lemma sbsz_rows : forall c, sbsz c = sb_rows c. Proof. intros c. unfold sbsz, sb_rows. destruct (sb128 c); reflexivity. Qed.
Lemma marked_finished : forall s r, marked (ph s r) -> finished s r.
Proof. unfold finished. intros s r M E. rewrite E in M. exact M. Qed.

(** No step is undefined: every bitmap access is inside the bitmap. *)
Theorem C26_defined : forall c s row, frame c -> reach c s -> 0 <= row < sbh c -> step c s row <> Bad.
Proof.
  intros c s row F H R. pose proof (inv_reach c F s H) as I. pose proof (prog_sz_bounds c) as PB.
  pose proof (i_hold c s I row R) as HO. unfold step. destruct (ph s row); try (destruct (lock s); discriminate); try (destruct (_ <=? _); discriminate); try discriminate.
  - destruct (mark_words (words s) row) as (w & ws & E1 & E2 & _); [rewrite (i_len c s I); unfold frame in F; lia|apply (i_rng c s I)|].
    rewrite E1, E2. discriminate.
  - cbn [holder] in HO. rewrite (rd_at_nth _ _ _ 0) by (rewrite (i_len c s I); lia). destruct (negb _); [|destruct (_ <? _)]; discriminate.
  - destruct (fthr c); discriminate.
Qed.
(** A dependent frame that sees progress p and no error may read every luma row y < p: its
    superblock row is finished. *)
Theorem C26_safe : forall c s y, frame c -> reach c s -> pub s <> FRAME_ERROR ->
  0 <= y < pub s -> y < sbh c * sb_rows c -> finished s (y / sb_rows c).
Proof.
  intros c s y F H N Y B. pose proof (inv_reach c F s H) as I. apply marked_finished. apply (i_safe c s I N).
  assert (SZ : 0 < sb_rows c) by (unfold sb_rows; destruct (sb128 c); lia).
  split; [apply Z.div_pos; lia|]. destruct (i_pub c s I) as [E|[(E & _)|(k & K & E)]]; rewrite E.
  - rewrite rows_of_max. apply Z.div_lt_upper_bound; lia.
  - congruence.
  - rewrite (proj2 (rows_of_k c F k K)). rewrite E, sbsz_rows in Y. apply Z.div_lt_upper_bound; lia.
Qed.
(** Progress only grows, except that it may become the error mark, and that only when an
    error has been flagged. *)
Theorem C26_monotone : forall c s s', frame c -> reach c s -> trans c s s' -> pub s <= pub s' \/ (pub s' = FRAME_ERROR /\ err s' = true).
Proof.
  intros c s s' F H T. pose proof (inv_reach c F s H) as I. destruct T as [row R ST | ->]; [|left; cbn; lia].
  pose proof (inv_step c F s row s' I R ST) as I'. pose proof (i_hold c s I row R) as HO. pose proof (i_hold c s' I' row R) as HO'.
  unfold step in ST. destruct (ph s row) eqn:P; cbn [holder] in HO.
  - injection ST as <-. left. cbn. lia.
  - destruct (rd_at _ _); [|discriminate]. destruct (wr_at _ _ _); [|discriminate]. injection ST as <-. left. cbn. lia.
  - destruct (lock s); [discriminate|]. injection ST as <-. left. cbn. lia.
  - destruct (FRAME_ERROR <=? _); injection ST as <-; left; cbn; lia.
  - destruct (rd_at _ _); [|discriminate]. destruct (negb _); [|destruct (_ <? _)]; injection ST as <-; left; cbn; lia.
  - injection ST as <-. left. cbn. lia.
  - destruct (fthr c) eqn:FT; injection ST as <-; [|left; cbn; lia]. destruct HO as ((RB & _ & RM & _) & E1 & E2). cbn [pub err]. destruct e; [right; auto|].
    assert (N : pub s <> FRAME_ERROR) by (intros Q; specialize (E2 eq_refl Q); discriminate).
    specialize (RM FT N). left. destruct (Z.eqb_spec (r + 1) (sbh c)) as [Q|Q].
    + destruct (i_pub c s I) as [->|[(E & _)|(k & K & ->)]]; [lia|congruence|]. destruct (rows_of_k c F k K). unfold FRAME_ERROR in *. lia.
    + destruct (rows_of_k c F (r + 1) ltac:(lia)) as (A & B). pose proof (sbsz_rows c) as SR.
      assert (SZ : 0 < sbsz c) by (rewrite SR; unfold sb_rows; destruct (sb128 c); lia).
      rewrite u32_id by (unfold FRAME_ERROR, UINT_MAX in A; nia).
      destruct (i_pub c s I) as [E|[(E & _)|(k & K & E)]].
      * rewrite E, rows_of_max in RM. lia.
      * congruence.
      * rewrite E in RM |- *. rewrite (proj2 (rows_of_k c F k K)) in RM. nia.
  - injection ST as <-. left. cbn. lia.
  - injection ST as <-. left. cbn. lia.
  - discriminate.
Qed.
(** The error mark is only published after an error. *)
Theorem C26_error : forall c s, frame c -> reach c s -> pub s = FRAME_ERROR -> err s = true.
Proof.
  intros c s F H E. pose proof (inv_reach c F s H) as I. destruct (i_pub c s I) as [A|[(A & B)|(k & K & A)]]; auto.
  - rewrite A in E. unfold FRAME_ERROR, UINT_MAX in E. lia.
  - destruct (rows_of_k c F k K). lia.
Qed.
(** Exactness: whenever no worker is between marking its row and leaving, the published value
    is exactly the number of leading complete rows. *)
Theorem C26_exact : forall c s, frame c -> reach c s -> fthr c = true -> pub s <> FRAME_ERROR ->
  (forall r, 0 <= r < sbh c -> ph s r = Working \/ ph s r = Finished \/ ph s r = Done) ->
  exists k, 0 <= k <= sbh c /\ pub s = (if k =? sbh c then UINT_MAX else k * sb_rows c) /\
    (forall r, 0 <= r < k -> ph s r = Done) /\ (k < sbh c -> ph s k <> Done).
Proof.
  intros c s F H FT N Q. pose proof (inv_reach c F s H) as I. pose proof (i_safe c s I N) as S. pose proof (i_live c s I FT N) as L.
  exists (rows_of c (pub s)). pose proof (rows_bound c F s I N) as RB. split; [auto|]. split; [|split].
  - destruct (i_pub c s I) as [E|[(E & _)|(k & K & E)]]; [|congruence|]; rewrite E.
    + rewrite rows_of_max, Z.eqb_refl. auto.
    + rewrite (proj2 (rows_of_k c F k K)). destruct (Z.eqb_spec k (sbh c)); [lia|]. rewrite sbsz_rows. auto.
  - intros r R. specialize (S r R). destruct (Q r ltac:(lia)) as [E|[E|E]]; rewrite E in S; cbn in S; tauto.
  - intros LT D. assert (rows_of c (pub s) + 1 <= rows_of c (pub s)); [|lia]. apply L; [lia|].
    intros r R. destruct (Z.eq_dec r (rows_of c (pub s))) as [->|]; [rewrite D; exact Logic.I|].
    specialize (S r ltac:(lia)). destruct (Q r ltac:(lia)) as [E|[E|E]]; rewrite E in S |- *; cbn in S |- *; tauto.
Qed.
(** When all workers have left, the end of the frame has been published and recorded, so
    nobody waits for ever. *)
Theorem C26_complete : forall c s, frame c -> reach c s -> (forall r, 0 <= r < sbh c -> ph s r = Done) ->
  done0 s = true /\ (fthr c = true -> pub s = UINT_MAX \/ (pub s = FRAME_ERROR /\ err s = true)).
Proof.
  intros c s F H D. pose proof (inv_reach c F s H) as I. split.
  - destruct (i_fin c s I) as [A|(r & q & R & E & _)]; [intros r R; rewrite D by auto; exact Logic.I|auto|]. rewrite D in E by auto. discriminate.
  - intros FT. destruct (Z.eq_dec (pub s) FRAME_ERROR) as [E|N]; [right; split; [auto|]; eapply C26_error; eauto|]. left.
    assert (A : sbh c <= rows_of c (pub s)) by (apply (i_live c s I FT N); [lia|]; intros r R; rewrite D by auto; exact Logic.I).
    destruct (i_pub c s I) as [->|[(E & _)|(k & K & E)]]; [auto|congruence|]. rewrite E in A. rewrite (proj2 (rows_of_k c F k K)) in A. lia.
Qed.
(** The frame is recorded as done only when all rows are finished or an error was flagged. *)
Theorem C26_done : forall c s, frame c -> reach c s -> done0 s = true -> (forall r, 0 <= r < sbh c -> finished s r) \/ err s = true.
Proof.
  intros c s F H D. destruct (i_done c s (inv_reach c F s H) D) as [A|A]; [left|auto]. intros r R. apply marked_finished. auto.
Qed.
(** No deadlock: as long as a worker has not left, some worker can take a step. *)
Theorem C26_no_deadlock : forall c s row, frame c -> reach c s -> 0 <= row < sbh c -> ph s row <> Done ->
  exists row' s', 0 <= row' < sbh c /\ step c s row' = Next s'.
Proof.
  intros c s row F H R ND. pose proof (inv_reach c F s H) as I.
  assert (A : forall r, 0 <= r < sbh c -> ph s r <> Done -> (ph s r = Marked -> lock s = None) -> exists s', step c s r = Next s').
  { intros r Rr N M. pose proof (C26_defined c s r F H Rr) as B. destruct (step c s r) eqn:E; [|contradiction|eauto]. exfalso.
    unfold step in E. destruct (ph s r); try discriminate; try congruence.
    - destruct (rd_at _ _); [|discriminate]. destruct (wr_at _ _ _); discriminate.
    - rewrite M in E by auto. discriminate.
    - destruct (_ <=? _); discriminate.
    - destruct (rd_at _ _); [|discriminate]. destruct (negb _); [|destruct (_ <? _)]; discriminate.
    - destruct (fthr c); discriminate. }
  destruct (lock s) as [h|] eqn:L.
  - pose proof (i_lock2 c s I h L) as Rh. destruct (A h Rh) as (s' & S').
    + intros E. pose proof (proj2 (i_lock c s I h Rh) L) as K. rewrite E in K. exact K.
    + intros E. pose proof (proj2 (i_lock c s I h Rh) L) as K. rewrite E in K. contradiction.
    + eauto.
  - destruct (A row R ND) as (s' & S'); [auto|eauto].
Qed.

(** Rows 1 and then 0 of a two-row frame finish: progress jumps from nothing to the end. *)
Definition run (c : cfg) (l : list Z) : option st :=
  fold_left (fun o r => match o with Some s => match step c s r with Next s' => Some s' | _ => None end | None => None end) l (Some (init c)).
Example C26_example :
  let c := mkCfg true 2 false in
  (exists s, run c (repeat 1 9) = Some s /\ pub s = 0 /\ ph s 1 = Done /\ done0 s = false) /\
  (exists s, run c (repeat 1 9 ++ repeat 0 9) = Some s /\ pub s = UINT_MAX /\ done0 s = true /\ ph s 0 = Done) /\
  (exists s, run c (repeat 0 9) = Some s /\ pub s = 64 /\ ph s 0 = Done).
Proof. cbv zeta. repeat apply conj; eexists; vm_compute; auto. Qed.

Print Assumptions C26_defined.
Print Assumptions C26_safe.
Print Assumptions C26_monotone.
Print Assumptions C26_error.
Print Assumptions C26_exact.
Print Assumptions C26_complete.
Print Assumptions C26_done.
Print Assumptions C26_no_deadlock.

(** C24: parallel film grain applies every strip exactly once and finishes only when all are done. *)
From Coq Require Import ZArith List Bool Lia Permutation.
From Verif Require Import Base.CInt Base.Lemmas Sched.Grain Sched.GrainProofs.
Import ListNotations.
Open Scope Z_scope.

(** Number of 32-row strips of a picture. *)
Definition strips (h : Z) : Z := (h + 31) / 32.
(** A worker that is not in the film grain task. *)
Definition idle (p : wphase) : Prop := p = WCheck \/ p = WWait \/ p = WBusy.
Definition waiting (s : st) : Prop := caller s = CWait \/ caller s = CWoken.

Lemma progmax_strips : forall n s, reach n s -> progmax s = strips (height s).
Proof.
  intros n s H. pose proof (i_h s (inv_reach n s H)). unfold progmax, strips.
  replace (height s + 32 - 1) with (height s + 31) by lia. apply Z.quot_div_nonneg; lia.
Qed.
Lemma sum_pos : forall f l, (forall p, 0 <= f p) -> 1 <= sumw f l -> exists w p, nth_error l w = Some p /\ 1 <= f p.
Proof.
  intros f l N. induction l as [|a l IH]; cbn; intros SM; [lia|]. destruct (Z_le_gt_dec 1 (f a)).
  - exists O, a. auto.
  - destruct IH as (w & p & E & F); [lia|]. exists (S w), p. auto.
Qed.
Lemma sum_two : forall f l w w' p p', (forall p, 0 <= f p) -> f WCheck = 0 -> nth_error l w = Some p -> nth_error l w' = Some p' -> w <> w' -> f p + f p' <= sumw f l.
Proof.
  intros f l w w' p p' N Z0 E E' NE. rewrite (sumw_rest f l w p E Z0).
  assert (EU : nth_error (upd_nat l w WCheck) w' = Some p') by (rewrite (nth_upd _ _ _ _ _ E); destruct (Nat.eqb_spec w' w); [congruence|auto]).
  pose proof (sumw_ge f _ _ _ N EU). lia.
Qed.

(** Every strip is applied at most once, and only strips of the picture are. *)
Theorem C24_at_most_once : forall n s, reach n s -> NoDup (log s) /\ forall r, In r (log s) -> 0 <= r < strips (height s).
Proof.
  intros n s H. pose proof (inv_reach n s H) as I. rewrite <- (progmax_strips n s H). split.
  - apply (NoDup_count_occ Z.eq_dec). intros r. destruct (Z_lt_le_dec r 0), (Z_lt_le_dec r (progmax s));
      try (pose proof (i_rows2 s I r ltac:(lia)) as Q; unfold cnt in Q; lia).
    pose proof (i_rows s I r ltac:(lia)) as Q. pose proof (sumw_nonneg (pre r) (ws s) (pre_nn r)). pose proof (b2z_nn (r <? p0 s)). unfold cnt in Q. lia.
  - intros r R. apply (count_occ_In Z.eq_dec) in R. destruct (Z_lt_le_dec r 0), (Z_lt_le_dec r (progmax s)); auto;
      pose proof (i_rows2 s I r ltac:(lia)) as Q; unfold cnt in Q; lia.
Qed.
(** Two workers never work on the same strip, and nobody works on one already applied. *)
Theorem C24_exclusive : forall n s w r, reach n s -> nth_error (ws s) w = Some (WApply r) ->
  ~ In r (log s) /\ 0 <= r < strips (height s) /\ forall w', nth_error (ws s) w' = Some (WApply r) -> w' = w.
Proof.
  intros n s w r H E. pose proof (inv_reach n s H) as I. rewrite <- (progmax_strips n s H).
  pose proof (i_local s I w _ E) as L. cbn [local] in L. pose proof (i_rows s I r ltac:(lia)) as Q. pose proof (b2z_nn (r <? p0 s)).
  assert (P : pre r (WApply r) = 1) by (cbn; rewrite Z.eqb_refl; auto).
  split; [|split].
  - intros N. apply (count_occ_In Z.eq_dec) in N. pose proof (sumw_ge (pre r) _ _ _ (pre_nn r) E). unfold cnt in Q. lia.
  - lia.
  - intros w' E'. destruct (Nat.eq_dec w' w) as [|NE]; [auto|]. pose proof (sum_two (pre r) _ _ _ _ _ (pre_nn r) eq_refl E' E NE).
    unfold cnt in Q. lia.
Qed.
(** The caller returns only when all strips have been applied, each once, and no worker is
    in the film grain task any more. *)
Theorem C24_return : forall n s h w s', reach n s -> caller s = CWoken -> cstep s h w = Some s' -> caller s' = COut ->
  (exists l, Permutation (log s) l /\ l = map Z.of_nat (seq 0 (Z.to_nat (strips (height s))))) /\
  (forall w p, nth_error (ws s) w = Some p -> idle p) /\ exec s = false.
Proof.
  intros n s h w s' H C ST CO. pose proof (inv_reach n s H) as I. unfold cstep in ST. rewrite C in ST. destruct (lock s); [discriminate|].
  injection ST as <-. cbn in CO. destruct (finished s) eqn:F; [|discriminate].
  destruct (i_stage s I) as [[Q|(Q & _)] ? ? ?|Q ? ? ? ? ? ?|Q ? ? ? ? ?|Q ? ? ? ? ?|Q _ EX PM IP IA]; try congruence.
  split; [|split].
  - eexists. split; [|reflexivity]. rewrite <- (progmax_strips n s H). destruct (C24_at_most_once n s H) as (ND & IN).
    rewrite <- (progmax_strips n s H) in IN. apply NoDup_Permutation; [auto| |].
    + apply FinFun.Injective_map_NoDup; [intros a b; lia|apply seq_NoDup].
    + intros r. rewrite in_map_iff. split.
      * intros R. specialize (IN r R). exists (Z.to_nat r). rewrite in_seq. lia.
      * intros (k & <- & K). apply in_seq in K. apply (count_occ_In Z.eq_dec).
        pose proof (i_rows s I (Z.of_nat k) ltac:(lia)) as R. pose proof (pre_le (Z.of_nat k) (ws s)).
        destruct (Z.ltb_spec (Z.of_nat k) (p0 s)); cbn [b2z] in R; unfold cnt in R; lia.
  - intros w' p E. pose proof (sumw_ge inprep _ _ _ inprep_nn E). pose proof (sumw_ge inapply _ _ _ inapply_nn E). unfold idle.
    destruct p; cbn in *; auto; lia.
  - auto.
Qed.
(** Outside a request no worker is in the film grain task and none can enter it: the request
    fields may be set up without holding the lock. *)
Theorem C24_quiet : forall n s, reach n s -> caller s = COut \/ caller s = CInit ->
  exec s = false /\ forall w p, nth_error (ws s) w = Some p -> idle p.
Proof.
  intros n s H C. pose proof (inv_reach n s H) as I.
  assert (A : exec s = false /\ sumw inprep (ws s) = 0 /\ sumw inapply (ws s) = 0).
  { destruct (i_stage s I) as [? ? ? ?|[Q|Q] ? ? ? ? ? ?|[Q|Q] ? ? ? ? ?|[Q|Q] ? ? ? ? ?|Q ? ? ? ? ?]; try (destruct C; congruence). auto. }
  destruct A as (A1 & A2 & A3). split; [auto|]. intros w p E. pose proof (sumw_ge inprep _ _ _ inprep_nn E). pose proof (sumw_ge inapply _ _ _ inapply_nn E).
  unfold idle. destruct p; cbn in *; auto; lia.
Qed.

(** A started request has an awake worker. *)
Definition awake (s : st) : Prop := exec s = true -> prep s = true -> exists w p, nth_error (ws s) w = Some p /\ p <> WWait.
Lemma awake_reach : forall n s, (1 <= n)%nat -> reach n s -> awake s /\ length (ws s) = n.
Proof.
  intros n s N H. induction H as [|s s' H (IH & LN) T].
  - split; [|apply repeat_length]. intros E. discriminate.
  - pose proof (inv_reach n s H) as I. destruct T as [w ch ST | h w Hh Hw ST].
    + unfold wstep in ST. destruct (nth_error (ws s) w) as [p|] eqn:E; [|discriminate].
      assert (KEEP : forall q, (exec s = true -> q <> WWait) -> awake (setw s w q)).
      { intros q Q EX PR. exists w, q. split; [|apply Q; exact EX]. cbn. rewrite (nth_upd _ _ _ _ _ E), Nat.eqb_refl. auto. }
      assert (LU : forall q, length (upd_nat (ws s) w q) = n) by (intros q; rewrite upd_nat_length; auto).
      assert (NX : forall q, q <> WWait -> exists w' p', nth_error (upd_nat (ws s) w q) w' = Some p' /\ p' <> WWait).
      { intros q Q. exists w, q. rewrite (nth_upd _ _ _ _ _ E), Nat.eqb_refl. auto. }
      destruct p;
        repeat match type of ST with context [if ?b then _ else _] => destruct b eqn:?; try discriminate end;
        injection ST as <-; try (destruct (caller _)); (split; [|cbn; apply LU]);
        try (intros EX PR; cbn in EX, PR |- *; apply NX; discriminate); cbn; try congruence.
      * intros EX PR. cbn in *. congruence.
    + unfold cstep in ST. destruct (caller s) eqn:C.
      * injection ST as <-. split; [|auto]. intros EX _. cbn in EX. destruct (C24_quiet n s H (or_introl C)). congruence.
      * destruct (lock s); [discriminate|]. injection ST as <-. destruct (all_waiting _) eqn:AW.
        -- split; [|cbn; rewrite upd_nat_length; auto]. intros _ _. exists w, WCheck. split; [|discriminate]. cbn.
           destruct (nth_error (ws s) w) eqn:E; [|apply nth_error_None in E; lia]. rewrite (nth_upd _ _ _ _ _ E), Nat.eqb_refl. auto.
        -- split; [|auto]. intros _ _. unfold all_waiting in AW. cbn in AW |- *.
           assert (X : exists p, In p (ws s) /\ p <> WWait).
           { clear - AW. induction (ws s) as [|a l IHl]; cbn in AW; [discriminate|]. destruct a; try (eexists; split; [left; reflexivity|discriminate]).
             destruct (IHl AW) as (p & P1 & P2). exists p. split; [right; auto|auto]. }
           destruct X as (p & P1 & P2). apply In_nth_error in P1. destruct P1 as (w' & W'). eauto.
      * injection ST as <-. split; [exact IH|auto].
      * destruct (lock s); [discriminate|]. injection ST as <-. split; [exact IH|auto].
Qed.
(** No deadlock: with at least one worker, while a request is in progress either the request
    is finished and the caller can return as soon as the lock is free, or some worker that is
    not asleep can take a step.  (No spurious wake-up is needed.) *)
Theorem C24_no_deadlock : forall n s, (1 <= n)%nat -> reach n s -> waiting s ->
  (exists w p s', nth_error (ws s) w = Some p /\ p <> WWait /\ wstep s w true = Some s') \/
  (finished s = true /\ caller s = CWoken /\ lock s = false).
Proof.
  intros n s N H WT. pose proof (inv_reach n s H) as I.
  assert (GO : forall w p, nth_error (ws s) w = Some p -> p <> WWait -> (locked p = 1 \/ lock s = false) -> exists s', wstep s w true = Some s').
  { intros w p E NW L. unfold wstep. rewrite E. destruct p; cbn [locked] in L; try congruence; try (eexists; reflexivity);
      try (assert (LF : lock s = false) by (destruct L; [lia|auto]); rewrite LF); try (eexists; reflexivity).
    - destruct (exec s); [destruct (prep s)|]; eexists; reflexivity.
    - destruct (_ <? _); [destruct (_ <? _)|]; eexists; reflexivity. }
  destruct (lock s) eqn:LK.
  - left. pose proof (i_lock s I) as L. rewrite LK in L. cbn in L. destruct (sum_pos locked (ws s) locked_nn ltac:(lia)) as (w & p & E & P).
    assert (P1 : locked p = 1) by (destruct p; cbn in *; lia).
    destruct (GO w p E ltac:(intros ->; discriminate) (or_introl P1)) as (s' & S'). exists w, p, s'. split; [auto|]. split; [intros ->; discriminate|auto].
  - assert (FG : (1 <= sumw inprep (ws s) \/ 1 <= sumw inapply (ws s)) -> exists w p s', nth_error (ws s) w = Some p /\ p <> WWait /\ wstep s w true = Some s').
    { intros D. assert (X : exists w p, nth_error (ws s) w = Some p /\ p <> WWait).
      { destruct D as [D|D]; [destruct (sum_pos _ _ inprep_nn D) as (w & p & E & P)|destruct (sum_pos _ _ inapply_nn D) as (w & p & E & P)];
          exists w, p; (split; [auto|intros ->; cbn in P; lia]). }
      destruct X as (w & p & E & NW). destruct (GO w p E NW (or_intror eq_refl)) as (s' & S'). eauto 8. }
    destruct (i_stage s I) as [Q ? ? ?|Q F EX PR ? ? ?|Q F ? ? ? ?|Q F ? ? ? ?|Q F ? ? ? ?].
    + exfalso. destruct Q as [Q|(Q & _)], WT; congruence.
    + left. destruct (awake_reach n s N H) as (AW & _). destruct (AW EX PR) as (w & p & E & NW).
      destruct (GO w p E NW (or_intror eq_refl)) as (s' & S'). eauto 8.
    + left. apply FG. lia.
    + left. apply FG. lia.
    + right. auto.
Qed.

(** Work left in a request: bounded by the number of workers and strips, and every step of a
    worker in (or entering) the film grain task decreases it; steps of other workers leave it
    alone.  So a request takes boundedly many such steps and then ends. *)
Definition valid (m r : Z) : Z := if r <? m then 10 else 0.
Definition weight (m : Z) (e : bool) (p : wphase) : Z :=
  match p with
  | WCheck | WWait | WBusy => if e then 20 else 0
  | WPrep => 50 | WPrepDone => 49 | WClaim => 14 | WClaimed r => 13 + valid m r | WLoop r => 12 + valid m r | WLast _ => 21 | WApply _ => 20
  | WApplied _ => 14 | WNext r => 13 + valid m r | WExit => 11 | WExit1 => 10 | WExit2 _ => 9 | WExit3 _ => 8
  end.
Definition work (s : st) : Z :=
  sumw (weight (progmax s) (exec s || (p0 s =? 0))) (ws s) + 10 * Z.max 0 (progmax s - p0 s) + (if exec s && prep s then 100 else 0).
Lemma weight_mono : forall m e e' p, (e' = true -> e = true) -> weight m e' p <= weight m e p.
Proof. intros m e e' p I. destruct p; cbn; try lia; destruct e'; try (rewrite I by auto; lia); destruct e; lia. Qed.
Theorem C24_bounded : forall n s w ch s', reach n s -> waiting s -> finished s = false -> wstep s w ch = Some s' ->
  0 <= work s' /\
  match nth_error (ws s) w, nth_error (ws s') w with
  | Some p, Some p' => (idle p /\ idle p' -> work s' = work s) /\ (~ (idle p /\ idle p') -> work s' < work s)
  | _, _ => False
  end.
Proof.
  intros n s w ch s' H WT NF ST. pose proof (inv_reach n s H) as I.
  assert (NN : forall x, 0 <= work x).
  { intros x. unfold work. assert (0 <= sumw (weight (progmax x) (exec x || (p0 x =? 0))) (ws x)).
    { apply sumw_nonneg. intros p. unfold weight, valid. destruct p, (exec x || (p0 x =? 0)); try lia; destruct (_ <? _); lia. }
    destruct (exec x && prep x); lia. }
  split; [apply NN|]. unfold wstep in ST. destruct (nth_error (ws s) w) as [p|] eqn:E; [|discriminate].
  pose proof (i_local s I w p E) as LO. pose proof (facts s w p I E) as FA. pose proof (i_p s I) as IP.
  assert (ON : 0 <= sumw owed (ws s)) by (apply sumw_nonneg, owed_nn).
  (* the general bound *)
  assert (B : forall x q, ws x = upd_nat (ws s) w q -> progmax x = progmax s -> ((exec x || (p0 x =? 0)) = true -> (exec s || (p0 s =? 0)) = true) ->
     work x <= sumw (weight (progmax s) (exec s || (p0 s =? 0))) (ws s) - weight (progmax s) (exec s || (p0 s =? 0)) p + weight (progmax s) (exec x || (p0 x =? 0)) q
        + 10 * Z.max 0 (progmax s - p0 x) + (if exec x && prep x then 100 else 0)).
  { intros x q EW EP EE. unfold work. rewrite EW, EP. set (m := progmax s) in *. set (e := exec s || (p0 s =? 0)) in *. set (e' := exec x || (p0 x =? 0)) in *.
    rewrite (sumw_upd _ _ _ _ q E).
    assert (sumw (weight m e') (ws s) - weight m e' p <= sumw (weight m e) (ws s) - weight m e p); [|lia].
    pose proof (sumw_upd (weight m e') _ _ _ WExit1 E) as A1. pose proof (sumw_upd (weight m e) _ _ _ WExit1 E) as A2.
    assert (sumw (weight m e') (upd_nat (ws s) w WExit1) <= sumw (weight m e) (upd_nat (ws s) w WExit1)) by (apply sumw_le; intros; apply weight_mono; auto).
    cbn [weight] in *. lia. }
  assert (WK : work s = sumw (weight (progmax s) (exec s || (p0 s =? 0))) (ws s) + 10 * Z.max 0 (progmax s - p0 s) + (if exec s && prep s then 100 else 0)) by reflexivity.
  assert (NTH : forall q, nth_error (upd_nat (ws s) w q) w = Some q) by (intros q; rewrite (nth_upd _ _ _ _ _ E), Nat.eqb_refl; auto).
  assert (NID : forall p, inprep p = 1 \/ inapply p = 1 -> ~ idle p) by (intros q Q [-> | [-> | ->]]; cbn in Q; lia).
  assert (SAME : forall q, idle p -> idle q -> work (setw s w q) = work s).
  { intros q Q1 Q2. unfold work. cbn [exec p0 prep ws setw]. change (progmax (setw s w q)) with (progmax s). rewrite (sumw_upd _ _ _ _ q E).
    destruct Q1 as [-> | [-> | ->]], Q2 as [-> | [-> | ->]]; cbn [weight]; lia. }
  destruct p.
  - destruct (lock s); [discriminate|]. destruct (exec s) eqn:EX; [destruct (prep s) eqn:PR|]; injection ST as <-.
    + cbn [ws setw]. rewrite NTH. split; [intros (_ & Q); exfalso; revert Q; apply NID; auto|]. intros _.
      eapply Z.le_lt_trans; [apply (B _ WPrep); auto|]. cbn [exec p0 prep setw w_exec andb orb weight] in *. cbn [andb orb] in WK. cbn [weight]. lia.
    + cbn [ws setw]. rewrite NTH. split; [intros (_ & Q); exfalso; revert Q; apply NID; auto|]. intros _.
      eapply Z.le_lt_trans; [apply (B _ WClaim); auto|]. cbn [exec p0 prep setw w_lock andb orb weight] in *. rewrite EX, PR. cbn [andb orb weight]. lia.
    + cbn [ws setw]. rewrite NTH. assert (ID : idle (if ch then WWait else WBusy)) by (unfold idle; destruct ch; auto).
      assert (IC : idle WCheck) by (left; auto). split; [intros _; apply SAME; auto|]. intros Q. exfalso. apply Q. split; auto.
  - injection ST as <-. cbn [ws setw]. rewrite NTH. assert (ID : idle WWait) by (unfold idle; auto).
    assert (IC : idle WCheck) by (left; auto). split; [intros _; apply SAME; auto|]. intros Q. exfalso. apply Q. split; auto.
  - injection ST as <-. cbn [ws setw]. rewrite NTH. assert (ID : idle WBusy) by (unfold idle; auto).
    assert (IC : idle WCheck) by (left; auto). split; [intros _; apply SAME; auto|]. intros Q. exfalso. apply Q. split; auto.
  - injection ST as <-. cbn [ws setw w_prep]. rewrite NTH. split; [intros (Q & _); exfalso; revert Q; apply NID; auto|]. intros _.
    eapply Z.le_lt_trans; [apply (B _ WPrepDone); auto|]. cbn [exec p0 prep setw w_prep weight] in *. rewrite andb_false_r. destruct (exec s && prep s); lia.
  - destruct (lock s); [discriminate|]. injection ST as <-. cbn [ws setw w_exec w_lock]. rewrite NTH. split; [intros (Q & _); exfalso; revert Q; apply NID; auto|]. intros _.
    cbn [local inprep] in *.
    assert (P0 : p0 s = 0 /\ prep s = false).
    { split; [|auto]. destruct (i_stage s I) as [Q ? ? ?|Q F EX PR ? ? ?|Q F ? ? ? ?|Q F ? ? ? ?|Q F ? ? ? ?]; lia. }
    destruct P0 as (P0 & PR).
    eapply Z.le_lt_trans; [apply (B _ WClaim); auto|]; cbn [exec p0 prep setw w_exec w_lock]; rewrite P0; cbn [Z.eqb]; rewrite ?orb_true_r; auto.
    rewrite PR in *. cbn [andb orb weight]. rewrite P0 in *. cbn [Z.eqb] in *. rewrite orb_true_r in *. rewrite andb_false_r in WK. cbn [weight] in *. lia.
  - injection ST as <-. cbn [ws setw w_p0]. rewrite NTH. split; [intros (Q & _); exfalso; revert Q; apply NID; auto|]. intros _.
    eapply Z.le_lt_trans; [apply (B _ (WClaimed (p0 s))); auto|]; cbn [exec p0 prep setw w_p0].
    + intros Q. apply orb_true_iff in Q. destruct Q as [->|Q]; [auto|]. apply Z.eqb_eq in Q. lia.
    + cbn [weight]. unfold valid. destruct (Z.ltb_spec (p0 s) (progmax s)), (exec s && prep s); lia.
  - injection ST as <-. cbn [ws setw w_lock]. rewrite NTH. split; [intros (Q & _); exfalso; revert Q; apply NID; auto|]. intros _.
    eapply Z.le_lt_trans; [apply (B _ (WLoop row)); auto|]; cbn [exec p0 prep setw w_lock]. cbn [weight]. destruct (exec s && prep s); lia.
  - destruct (Z.ltb_spec row (progmax s)) as [LT|GE]; [destruct (Z.ltb_spec (row + 1) (progmax s)) as [LT2|GE2]|]; injection ST as <-; cbn [ws setw]; rewrite NTH;
      (split; [intros (Q & _); exfalso; revert Q; apply NID; auto|]); intros _.
    + eapply Z.le_lt_trans; [apply (B _ (WApply row)); auto|]; cbn [exec p0 prep setw weight]. unfold valid. destruct (Z.ltb_spec row (progmax s)); [|lia]. destruct (exec s && prep s); lia.
    + eapply Z.le_lt_trans; [apply (B _ (WLast row)); auto|]; cbn [exec p0 prep setw weight]. unfold valid. destruct (Z.ltb_spec row (progmax s)); [|lia]. destruct (exec s && prep s); lia.
    + eapply Z.le_lt_trans; [apply (B _ WExit); auto|]; cbn [exec p0 prep setw weight]. unfold valid. destruct (Z.ltb_spec row (progmax s)); [lia|]. destruct (exec s && prep s); lia.
  - destruct (lock s); [discriminate|]. injection ST as <-. cbn [ws setw w_exec]. rewrite NTH. split; [intros (Q & _); exfalso; revert Q; apply NID; auto|]. intros _.
    eapply Z.le_lt_trans; [apply (B _ (WApply row)); auto|]; cbn [exec p0 prep setw w_exec orb andb]; [intros ->; apply orb_true_r|]. cbn [weight]. destruct (exec s && prep s); lia.
  - injection ST as <-. cbn [ws setw w_log]. rewrite NTH. split; [intros (Q & _); exfalso; revert Q; apply NID; auto|]. intros _.
    eapply Z.le_lt_trans; [apply (B _ (WApplied row)); auto|]; cbn [exec p0 prep setw w_log weight]. destruct (exec s && prep s); lia.
  - injection ST as <-. cbn [ws setw w_p0]. rewrite NTH. split; [intros (Q & _); exfalso; revert Q; apply NID; auto|]. intros _.
    eapply Z.le_lt_trans; [apply (B _ (WNext (p0 s))); auto|]; cbn [exec p0 prep setw w_p0].
    + intros Q. apply orb_true_iff in Q. destruct Q as [->|Q]; [auto|]. apply Z.eqb_eq in Q. lia.
    + cbn [weight]. unfold valid. destruct (Z.ltb_spec (p0 s) (progmax s)), (exec s && prep s); lia.
  - injection ST as <-. cbn [ws setw w_p1]. rewrite NTH. split; [intros (Q & _); exfalso; revert Q; apply NID; auto|]. intros _.
    eapply Z.le_lt_trans; [apply (B _ (WLoop row)); auto|]; cbn [exec p0 prep setw w_p1 weight]. destruct (exec s && prep s); lia.
  - destruct (lock s); [discriminate|]. injection ST as <-. cbn [ws setw w_exec w_lock]. rewrite NTH. split; [intros (Q & _); exfalso; revert Q; apply NID; auto|]. intros _.
    eapply Z.le_lt_trans; [apply (B _ WExit1); auto|]; cbn [exec p0 prep setw w_exec w_lock orb andb]; [intros ->; apply orb_true_r|]. cbn [weight]. destruct (exec s && prep s); lia.
  - injection ST as <-. cbn [ws setw w_p1]. rewrite NTH. split; [intros (Q & _); exfalso; revert Q; apply NID; auto|]. intros _.
    eapply Z.le_lt_trans; [apply (B _ (WExit2 (p1 s + 1))); auto|]; cbn [exec p0 prep setw w_p1 weight]. destruct (exec s && prep s); lia.
  - injection ST as <-. cbn [ws setw]. rewrite NTH. split; [intros (Q & _); exfalso; revert Q; apply NID; auto|]. intros _.
    eapply Z.le_lt_trans; [apply (B _ (WExit3 (p0 s <=? done))); auto|]; cbn [exec p0 prep setw weight]. destruct (exec s && prep s); lia.
  - injection ST as <-. cbn [local] in LO. destruct LO as (L1 & L2 & _).
    assert (PM : 1 <= progmax s) by (pose proof (i_h s I); unfold progmax; pose proof (Z.quot_le_lower_bound (height s + 32 - 1) 32 1); lia).
    assert (Z1 : (exec s || (p0 s =? 0)) = false) by (rewrite L2; apply Z.eqb_neq; lia).
    match goal with |- context [nth_error (ws ?x) w] => set (s1 := x) end.
    assert (W1 : ws s1 = upd_nat (ws s) w WCheck) by (unfold s1; destruct fin; [destruct (caller _)|]; reflexivity).
    assert (W2 : exec s1 = exec s /\ p0 s1 = p0 s /\ prep s1 = prep s /\ progmax s1 = progmax s) by (unfold s1; destruct fin; [destruct (caller _)|]; repeat split).
    destruct W2 as (W2 & W3 & W4 & W5). rewrite W1, NTH. split; [intros (Q & _); exfalso; revert Q; apply NID; auto|]. intros _.
    eapply Z.le_lt_trans; [apply (B _ WCheck); auto; rewrite W2, W3; auto|]. rewrite W2, W3, W4, WK, Z1. cbn [weight]. lia.
Qed.

(** Two workers share a picture of 40 rows (two strips) and the caller returns.  A blocked
    step in the schedule is skipped. *)
Definition wrun (l : list (option nat)) (s : st) : st :=
  fold_left (fun s w => match (match w with Some w => wstep s w true | None => cstep s 40 0%nat end) with Some s' => s' | None => s end) l s.
Definition sched : list (option nat) :=
  [None; None] ++ repeat (Some 0%nat) 7 ++ repeat (Some 1%nat) 6 ++ repeat (Some 0%nat) 1 ++ repeat (Some 1%nat) 12 ++ repeat (Some 0%nat) 6.
Example C24_example : let s := wrun sched (init 2) in
  (log s, finished s, caller s, caller (wrun [None] s)) = ([1; 0], true, CWoken, COut).
Proof. vm_compute. reflexivity. Qed.
Lemma wrun_reach : forall l n s, (1 <= n)%nat -> reach n s -> reach n (wrun l s).
Proof.
  induction l as [|[w|] l IH]; intros n s N H; cbn; auto; apply IH; auto.
  - destruct (wstep s w true) eqn:E; [|auto]. eapply r_step; [exact H|]. eapply t_w; eauto.
  - destruct (cstep s 40 0) eqn:E; [|auto]. eapply r_step; [exact H|]. eapply t_c; [| |exact E]; [lia|]. destruct (awake_reach n s N H) as (_ & ->). lia.
Qed.

Print Assumptions C24_at_most_once.
Print Assumptions C24_exclusive.
Print Assumptions C24_return.
Print Assumptions C24_quiet.
Print Assumptions C24_no_deadlock.
Print Assumptions C24_bounded.

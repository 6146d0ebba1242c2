From Coq Require Import ZArith List Bool Lia.
From Verif Require Import Base.CInt Base.Lemmas Sched.Grain.
Import ListNotations.
Open Scope Z_scope.

Fixpoint sumw (f : wphase -> Z) (l : list wphase) : Z := match l with [] => 0 | p :: l => f p + sumw f l end.
Lemma sumw_upd : forall f l w p q, nth_error l w = Some p -> sumw f (upd_nat l w q) = sumw f l - f p + f q.
Proof.
  intros f. induction l as [|a l IH]; intros [|w] p q E; cbn in *; try discriminate.
  - injection E as ->. lia.
  - rewrite (IH _ _ q E). lia.
Qed.
Lemma sumw_nonneg : forall f l, (forall p, 0 <= f p) -> 0 <= sumw f l.
Proof. intros f l N. induction l as [|a l IH]; cbn; [lia|]. specialize (N a). lia. Qed.
Lemma sumw_ge : forall f l w p, (forall p, 0 <= f p) -> nth_error l w = Some p -> f p <= sumw f l.
Proof.
  intros f. induction l as [|a l IH]; intros [|w] p N E; cbn in *; try discriminate.
  - injection E as ->. pose proof (sumw_nonneg f l N). lia.
  - specialize (IH _ _ N E). specialize (N a). lia.
Qed.
Lemma sumw_le : forall f g l, (forall p, f p <= g p) -> sumw f l <= sumw g l.
Proof. intros f g l N. induction l as [|a l IH]; cbn; [lia|]. specialize (N a). lia. Qed.
Lemma sumw_plus : forall f g l, sumw (fun p => f p + g p) l = sumw f l + sumw g l.
Proof. intros f g l. induction l as [|a l IH]; cbn; lia. Qed.
(** All but worker w. *)
Lemma sumw_rest : forall f l w p, nth_error l w = Some p -> f WCheck = 0 -> sumw f l = f p + sumw f (upd_nat l w WCheck).
Proof. intros f l w p E Z0. rewrite (sumw_upd f l w p WCheck E). lia. Qed.
Lemma nth_upd : forall A (l : list A) w v p, nth_error l w = Some p -> forall w', nth_error (upd_nat l w v) w' = if Nat.eqb w' w then Some v else nth_error l w'.
Proof. intros A. induction l as [|a l IH]; intros [|w] v p E [|w']; cbn in *; try discriminate; auto. rewrite (IH w v p E w'). auto. Qed.

Definition locked (p : wphase) : Z := match p with WClaim | WClaimed _ | WExit1 | WExit2 _ | WExit3 _ => 1 | _ => 0 end.
Definition owed (p : wphase) : Z :=
  match p with WClaimed _ | WLoop _ | WLast _ | WApply _ | WApplied _ | WExit | WExit1 => 1 | WNext _ => 2 | _ => 0 end.
Definition inprep (p : wphase) : Z := match p with WPrep | WPrepDone => 1 | _ => 0 end.
Definition inapply (p : wphase) : Z := match p with WCheck | WWait | WBusy | WPrep | WPrepDone => 0 | _ => 1 end.
Definition pre (r : Z) (p : wphase) : Z :=
  match p with WClaimed q | WLoop q | WLast q | WApply q | WNext q => b2z (q =? r) | _ => 0 end.
Definition cnt (r : Z) (l : list Z) : Z := Z.of_nat (count_occ Z.eq_dec l r).

Definition local (s : st) (p : wphase) : Prop :=
  match p with
  | WPrep => prep s = true
  | WPrepDone => prep s = false
  | WClaimed r | WLoop r | WNext r => 0 <= r < p0 s
  | WLast r => 0 <= r < p0 s /\ r + 1 = progmax s
  | WApply r => 0 <= r < p0 s /\ r < progmax s
  | WApplied r => 0 <= r < p0 s /\ r < progmax s
  | WExit => progmax s < p0 s
  | WExit1 => progmax s < p0 s /\ exec s = false
  | WExit2 d => progmax s < p0 s /\ exec s = false /\ d <= p1 s /\ (d = p1 s \/ 2 <= sumw inapply (ws s))
  | WExit3 b => progmax s < p0 s /\ exec s = false /\ (b = true <-> sumw inapply (ws s) = 1)
  | _ => True
  end.
Inductive stage (s : st) : Prop :=
| sg_out : (caller s = COut \/ (caller s = CInit /\ prep s = true /\ p0 s = 0 /\ p1 s = 0 /\ log s = [])) -> exec s = false ->
    sumw inprep (ws s) = 0 -> sumw inapply (ws s) = 0 -> stage s
| sg_start : (caller s = CWait \/ caller s = CWoken) -> finished s = false -> exec s = true -> prep s = true -> p0 s = 0 ->
    sumw inprep (ws s) = 0 -> sumw inapply (ws s) = 0 -> stage s
| sg_prep : (caller s = CWait \/ caller s = CWoken) -> finished s = false -> exec s = false -> p0 s = 0 ->
    sumw inprep (ws s) = 1 -> sumw inapply (ws s) = 0 -> stage s
| sg_apply : (caller s = CWait \/ caller s = CWoken) -> finished s = false -> prep s = false ->
    sumw inprep (ws s) = 0 -> 1 <= sumw inapply (ws s) -> (exec s = false -> progmax s <= p0 s) -> stage s
| sg_fin : caller s = CWoken -> finished s = true -> exec s = false -> progmax s < p0 s ->
    sumw inprep (ws s) = 0 -> sumw inapply (ws s) = 0 -> stage s.
Record inv (s : st) : Prop := {
  i_h : 1 <= height s <= 65536;
  i_lock : b2z (lock s) = sumw locked (ws s);
  i_p : 0 <= p1 s /\ p0 s = p1 s + sumw owed (ws s);
  i_rows : forall r, 0 <= r < progmax s -> cnt r (log s) + sumw (pre r) (ws s) = b2z (r <? p0 s);
  i_rows2 : forall r, ~ (0 <= r < progmax s) -> cnt r (log s) = 0;
  i_local : forall w p, nth_error (ws s) w = Some p -> local s p;
  i_stage : stage s }.

Lemma locked_nn : forall p, 0 <= locked p. Proof. intros []; cbn; lia. Qed.
Lemma owed_nn : forall p, 0 <= owed p. Proof. intros []; cbn; lia. Qed.
Lemma inprep_nn : forall p, 0 <= inprep p. Proof. intros []; cbn; lia. Qed.
Lemma inapply_nn : forall p, 0 <= inapply p. Proof. intros []; cbn; lia. Qed.
Lemma b2z_nn : forall b, 0 <= b2z b <= 1. Proof. intros []; cbn; lia. Qed.
Lemma pre_nn : forall r p, 0 <= pre r p. Proof. intros r []; cbn; try lia; apply b2z_nn. Qed.
Lemma apply_le : forall l, sumw inapply l <= sumw owed l + sumw locked l.
Proof. intros l. rewrite <- sumw_plus. apply sumw_le. intros []; cbn; lia. Qed.
Lemma owed_le : forall l, sumw owed l <= 2 * sumw inapply l.
Proof. intros l. replace (2 * sumw inapply l) with (sumw inapply l + sumw inapply l) by lia. rewrite <- sumw_plus. apply sumw_le. intros []; cbn; lia. Qed.
Lemma pre_le : forall r l, sumw (pre r) l <= sumw inapply l.
Proof. intros r l. apply sumw_le. intros []; cbn; try lia; apply b2z_nn. Qed.
Lemma cnt_cons : forall r q l, cnt r (q :: l) = b2z (q =? r) + cnt r l.
Proof. intros r q l. unfold cnt. cbn [count_occ]. destruct (Z.eq_dec q r), (Z.eqb_spec q r); cbn [b2z]; lia. Qed.

(** What the sums say about a state in which worker w is in phase p. *)
Lemma facts : forall s w p, inv s -> nth_error (ws s) w = Some p ->
  locked p <= sumw locked (ws s) <= 1 /\ owed p <= sumw owed (ws s) /\ inprep p <= sumw inprep (ws s) /\ inapply p <= sumw inapply (ws s) /\
  sumw inapply (ws s) <= sumw owed (ws s) + sumw locked (ws s) /\ sumw owed (ws s) - owed p <= 2 * (sumw inapply (ws s) - inapply p).
Proof.
  intros s w p I E. pose proof (sumw_ge locked _ _ _ locked_nn E). pose proof (sumw_ge owed _ _ _ owed_nn E).
  pose proof (sumw_ge inprep _ _ _ inprep_nn E). pose proof (sumw_ge inapply _ _ _ inapply_nn E).
  pose proof (i_lock s I). pose proof (b2z_nn (lock s)). pose proof (apply_le (ws s)).
  pose proof (sumw_rest owed _ _ _ E eq_refl). pose proof (sumw_rest inapply _ _ _ E eq_refl). pose proof (owed_le (upd_nat (ws s) w WCheck)). lia.
Qed.
(** Rows are left alone. *)
Definition rows_ok (s : st) : Prop :=
  (forall r, 0 <= r < progmax s -> cnt r (log s) + sumw (pre r) (ws s) = b2z (r <? p0 s)).

Lemma local_frame : forall s s' p, local s p -> height s' = height s -> p0 s <= p0 s' ->
  ((p = WPrep \/ p = WPrepDone) -> prep s' = prep s) ->
  (inapply p = 1 -> exec s = false -> exec s' = false) ->
  (forall d, p = WExit2 d -> p1 s <= p1 s' /\ (p1 s' = p1 s \/ 2 <= sumw inapply (ws s'))) ->
  (locked p = 1 -> sumw inapply (ws s') = sumw inapply (ws s)) -> local s' p.
Proof.
  intros s s' p L H P0 PR EX P1 SA. assert (PM : progmax s' = progmax s) by (unfold progmax; rewrite H; auto).
  destruct p; cbn [local] in *; rewrite ?PM in *; auto; try lia.
  - rewrite PR; auto.
  - rewrite PR; auto.
  - destruct L. split; [lia|]. apply EX; auto.
  - destruct L as (A & B & C & D). destruct (P1 done eq_refl) as (E & F). split; [lia|]. split; [apply EX; auto|]. split; [lia|]. rewrite SA in * by auto. lia.
  - destruct L as (A & B & C). split; [lia|]. split; [apply EX; auto|]. rewrite SA by auto. auto.
Qed.

Ltac sums E := repeat match goal with
  | |- context [sumw ?f (upd_nat _ _ ?q)] => rewrite (sumw_upd f _ _ _ q E)
  end.
Ltac sums_in E H := repeat match type of H with
  | context [sumw ?f (upd_nat _ _ ?q)] => rewrite (sumw_upd f _ _ _ q E) in H
  end.
Ltac proj := cbn [exec prep p0 p1 finished lock height caller ws log setw w_exec w_prep w_p0 w_p1 w_fin w_lock w_caller w_log] in *.


Lemma ltb_succ : forall r p, b2z (r <? p + 1) = b2z (r <? p) + b2z (p =? r).
Proof. intros r p. destruct (Z.ltb_spec r (p + 1)), (Z.ltb_spec r p), (Z.eqb_spec p r); cbn; lia. Qed.
Ltac oth w E ILo FA2 own :=
  intros w' p'; rewrite (nth_upd _ _ _ _ _ E);
  destruct (Nat.eqb_spec w' w) as [EW|NE]; [subst w'; intros [= <-]; own|]; intros E';
  pose proof (ILo w' p' E') as LO'; pose proof (FA2 w' p' E' NE) as FF; cbn [locked inapply inprep] in FF; eapply local_frame; [exact LO'|..]; proj; auto; try lia; try discriminate;
  try (intros; sums E; cbn [inapply]; lia); try (intros ? ->; cbn [locked inapply] in FF; lia);
  try (intros [-> | ->]; cbn [inprep] in FF; lia);
  try (intros ? ->; split; [lia|]; sums E; cbn [inapply]; lia).
Ltac base E IR ILo IH IL :=
  constructor; proj; [exact IH | sums E; try match goal with H : lock _ = _ |- _ => rewrite H in * end; cbn [locked b2z] in *; lia | sums E; cbn [owed]; lia
    | try (intros r R; specialize (IR r R); sums E; cbn [pre]; lia) | auto | | ].

Ltac sg s E := apply sg_apply; proj; auto; sums E; cbn; try lia; try congruence;
  try (let Q := fresh in intros Q; match goal with H : exec s = false -> _ |- _ => specialize (H Q) end);
  try (match goal with |- progmax ?x <= _ => change (progmax x) with (progmax s) end); try lia.
Lemma inv_wstep : forall s w ch s', inv s -> wstep s w ch = Some s' -> inv s'.
Proof.
  intros s w ch s' I ST. unfold wstep in ST. destruct (nth_error (ws s) w) as [p|] eqn:E; [|discriminate].
  pose proof (facts s w p I E) as FA. pose proof (i_local s I w p E) as LO.
  assert (FA2 : forall w' p', nth_error (ws s) w' = Some p' -> w' <> w -> locked p' + locked p <= sumw locked (ws s) /\ inapply p' + inapply p <= sumw inapply (ws s) /\
     inprep p' + inprep p <= sumw inprep (ws s)).
  { intros w' p' E' NE. pose proof (facts s w p I E) as F1. pose proof (i_lock s I).
    assert (EU : nth_error (upd_nat (ws s) w WCheck) w' = Some p') by (rewrite (nth_upd _ _ _ _ _ E); destruct (Nat.eqb_spec w' w); [contradiction|auto]).
    pose proof (sumw_ge locked _ _ _ locked_nn EU) as A. pose proof (sumw_ge inapply _ _ _ inapply_nn EU) as B. pose proof (sumw_ge inprep _ _ _ inprep_nn EU) as C.
    sums_in E A. sums_in E B. sums_in E C. cbn [locked inapply inprep] in A, B, C. lia. }
  destruct I as [IH IL (IP1 & IP) IR IR2 ILo IS].
  assert (PM : 1 <= progmax s) by (unfold progmax; pose proof (Z.quot_le_lower_bound (height s + 32 - 1) 32 1); lia).
  destruct p.
  - (* WCheck *)
    destruct (lock s) eqn:LK; [discriminate|]. rewrite ?LK in IL. cbn [b2z] in IL. cbn [b2z] in IL. destruct (exec s) eqn:EX; [destruct (prep s) eqn:PR|]; injection ST as <-; proj.
    + base E IR ILo IH IL.
      * oth w E ILo FA2 ltac:(exact PR).
      * destruct IS; try congruence. apply sg_prep; proj; auto; sums E; cbn; lia.
    + base E IR ILo IH IL.
      * oth w E ILo FA2 ltac:(exact Logic.I).
      * destruct IS; try congruence. apply sg_apply; proj; auto; sums E; cbn; try lia; try congruence.
    + assert (Q : exists q, (q = WWait \/ q = WBusy) /\ (if ch then WWait else WBusy) = q) by (destruct ch; eauto).
      destruct Q as (q & Q & ->). destruct Q as [-> | ->]; (base E IR ILo IH IL; [oth w E ILo FA2 ltac:(exact Logic.I)|]);
      (destruct IS; [apply sg_out|apply sg_start|apply sg_prep|apply sg_apply|apply sg_fin]; proj; auto; sums E; cbn; try lia).
  - injection ST as <-. base E IR ILo IH IL; [oth w E ILo FA2 ltac:(exact Logic.I)|].
    destruct IS; [apply sg_out|apply sg_start|apply sg_prep|apply sg_apply|apply sg_fin]; proj; auto; sums E; cbn; try lia.
  - injection ST as <-. base E IR ILo IH IL; [oth w E ILo FA2 ltac:(exact Logic.I)|].
    destruct IS; [apply sg_out|apply sg_start|apply sg_prep|apply sg_apply|apply sg_fin]; proj; auto; sums E; cbn; try lia.
  - (* WPrep *) injection ST as <-. cbn [locked owed inprep inapply] in FA. base E IR ILo IH IL; [oth w E ILo FA2 ltac:(exact eq_refl)|].
    + destruct IS; try lia. intros [-> | ->]; cbn in FF; lia.
    + destruct IS; try lia. apply sg_prep; proj; auto; sums E; cbn; try lia.
  - (* WPrepDone *) destruct (lock s) eqn:LK; [discriminate|]. rewrite ?LK in IL. cbn [b2z] in IL. injection ST as <-. cbn [locked owed inprep inapply local] in *.
    base E IR ILo IH IL; [oth w E ILo FA2 ltac:(exact Logic.I)|].
    + destruct IS; try lia.
    + destruct IS; try lia. apply sg_apply; proj; auto; sums E; cbn; try lia; try congruence.
  - (* WClaim *) injection ST as <-. cbn [locked owed inprep inapply local] in *. base E IR ILo IH IL.
    + intros r R. specialize (IR r R). sums E. cbn [pre]. rewrite ltb_succ. lia.
    + oth w E ILo FA2 ltac:(cbn; lia).
    + destruct IS; try lia. sg s E.
  - (* WClaimed *) injection ST as <-. cbn [locked owed inprep inapply local] in *. assert (LK : lock s = true) by (destruct (lock s); cbn in IL; [auto|lia]). base E IR ILo IH IL.
    + oth w E ILo FA2 ltac:(cbn; lia).
    + destruct IS; try lia. sg s E.
  - (* WLoop *) cbn [locked owed inprep inapply local] in *.
    destruct (Z.ltb_spec row (progmax s)); [destruct (Z.ltb_spec (row + 1) (progmax s))|]; injection ST as <-.
    + base E IR ILo IH IL; [oth w E ILo FA2 ltac:(cbn; unfold progmax in *; proj; lia)|]. destruct IS; try lia. sg s E.
    + base E IR ILo IH IL; [oth w E ILo FA2 ltac:(cbn; unfold progmax in *; proj; lia)|]. destruct IS; try lia. sg s E.
    + base E IR ILo IH IL; [|oth w E ILo FA2 ltac:(cbn; unfold progmax in *; proj; lia)|].
      * intros r R. specialize (IR r R). sums E. cbn [pre]. change (progmax _) with (progmax s) in R. destruct (Z.eqb_spec row r); [lia|]. cbn. lia.
      * destruct IS; try lia. sg s E.
  - (* WLast *) destruct (lock s) eqn:LK; [discriminate|]. rewrite ?LK in IL. cbn [b2z] in IL. injection ST as <-. cbn [locked owed inprep inapply local] in *.
    base E IR ILo IH IL; [oth w E ILo FA2 ltac:(cbn; unfold progmax in *; proj; lia)|].
    destruct IS; try lia. sg s E. intros _. change (progmax _) with (progmax s). lia.
  - (* WApply *) injection ST as <-. cbn [locked owed inprep inapply local] in *. base E IR ILo IH IL.
    + intros r R. specialize (IR r R). sums E. cbn [pre]. rewrite cnt_cons. lia.
    + intros r R. rewrite cnt_cons. change (progmax _) with (progmax s) in R. rewrite (IR2 r R). destruct (Z.eqb_spec row r); [lia|]. reflexivity.
    + oth w E ILo FA2 ltac:(cbn; unfold progmax in *; proj; lia).
    + destruct IS; try lia. sg s E.
  - (* WApplied *) injection ST as <-. cbn [locked owed inprep inapply local] in *. base E IR ILo IH IL.
    + intros r R. specialize (IR r R). sums E. cbn [pre]. rewrite ltb_succ. lia.
    + oth w E ILo FA2 ltac:(cbn; lia).
    + destruct IS; try lia. sg s E.
  - (* WNext *) injection ST as <-. cbn [locked owed inprep inapply local] in *. base E IR ILo IH IL.
    + oth w E ILo FA2 ltac:(cbn; lia). intros d ->. cbn [inapply locked] in FF. split; [lia|]. right. sums E. cbn. lia.
    + destruct IS; try lia. sg s E.
  - (* WExit *) destruct (lock s) eqn:LK; [discriminate|]. rewrite ?LK in IL. cbn [b2z] in IL. injection ST as <-. cbn [locked owed inprep inapply local] in *.
    base E IR ILo IH IL; [oth w E ILo FA2 ltac:(cbn; unfold progmax in *; proj; auto)|].
    destruct IS; try lia. sg s E. intros _. change (progmax _) with (progmax s). lia.
  - (* WExit1 *) injection ST as <-. cbn [locked owed inprep inapply local] in *. base E IR ILo IH IL.
    + oth w E ILo FA2 ltac:(cbn; change (progmax _) with (progmax s); repeat split; try lia; try tauto).
    + destruct IS; try lia. sg s E.
  - (* WExit2 *) injection ST as <-. cbn [locked owed inprep inapply local] in *. base E IR ILo IH IL.
    + oth w E ILo FA2 ltac:(cbn; change (progmax _) with (progmax s); sums E; cbn [inapply]; repeat split; try tauto; rewrite ?Z.leb_le; lia).
    + destruct IS; try lia. sg s E.
  - (* WExit3 *) injection ST as <-. cbn [locked owed inprep inapply local] in *.
    assert (LK : lock s = true) by (destruct (lock s); cbn in IL; [auto|lia]). destruct LO as (LO1 & LO2 & LO3).
    assert (FR : forall c' f', inv (mkSt (exec s) (prep s) (p0 s) (p1 s) f' false (height s) c' (upd_nat (ws s) w WCheck) (log s)) <-> stage (mkSt (exec s) (prep s) (p0 s) (p1 s) f' false (height s) c' (upd_nat (ws s) w WCheck) (log s))).
    { intros c' f'. split; [intros []; auto|]. intros SG. base E IR ILo IH IL; [oth w E ILo FA2 ltac:(exact Logic.I)|exact SG]. }
    destruct IS; try lia. destruct fin.
    + assert (Q : sumw inapply (ws s) = 1) by tauto.
      enough (W : forall x, x = mkSt (exec s) (prep s) (p0 s) (p1 s) true false (height s) CWoken (upd_nat (ws s) w WCheck) (log s) -> inv x).
      { apply W. unfold w_fin, w_caller, setw, w_lock; cbn. destruct H as [H|H]; rewrite H; cbn; rewrite ?H; reflexivity. }
      intros x ->. apply FR. apply sg_fin; proj; auto; sums E; cbn; lia.
    + assert (Q : sumw inapply (ws s) <> 1) by (intros Q; apply LO3 in Q; discriminate).
      unfold setw, w_lock. proj. apply FR. sg s E. 
Qed.

Lemma inv_init : forall n, inv (init n).
Proof.
  intros n. assert (Z0 : forall f, f WCheck = 0 -> sumw f (repeat WCheck n) = 0) by (intros f F; induction n; cbn; lia).
  constructor; cbn [init height lock ws p0 p1 log caller].
  - lia.
  - rewrite Z0; reflexivity.
  - rewrite Z0; [lia|reflexivity].
  - intros r R. rewrite Z0 by reflexivity. destruct (Z.ltb_spec r 0); [lia|reflexivity].
  - reflexivity.
  - intros w p E. apply nth_error_In, repeat_spec in E. subst p. exact Logic.I.
  - apply sg_out; cbn; auto; apply Z0; reflexivity.
Qed.
Lemma inv_cstep : forall s h w s', inv s -> 1 <= h <= 65536 -> (w < length (ws s))%nat -> cstep s h w = Some s' -> inv s'.
Proof.
  intros s h w s' I H W ST. unfold cstep in ST. destruct I as [IH IL (IP1 & IP) IR IR2 ILo IS]. destruct (caller s) eqn:C.
  - injection ST as <-. assert (A : exec s = false /\ sumw inprep (ws s) = 0 /\ sumw inapply (ws s) = 0).
    { destruct IS as [? ? ? ?|[Q|Q] ? ? ? ? ? ?|[Q|Q] ? ? ? ? ?|[Q|Q] ? ? ? ? ?|Q ? ? ? ? ?]; try congruence; auto. }
    destruct A as (A1 & A2 & A3).
    assert (OW : sumw owed (ws s) = 0) by (pose proof (owed_le (ws s)); pose proof (sumw_nonneg owed (ws s) owed_nn); lia).
    constructor; proj; auto; try lia.
    + intros r R. change (cnt r []) with 0. pose proof (pre_le r (ws s)). pose proof (sumw_nonneg (pre r) (ws s) (pre_nn r)). destruct (Z.ltb_spec r 0); [lia|]. cbn [b2z]. lia.
    + intros w' p' E'. pose proof (sumw_ge inprep _ _ _ inprep_nn E'). pose proof (sumw_ge inapply _ _ _ inapply_nn E').
      destruct p'; cbn in *; auto; lia.
    + apply sg_out; proj; auto. right. auto.
  - destruct (lock s) eqn:LK; [discriminate|]. injection ST as <-.
    assert (A : exec s = false /\ sumw inprep (ws s) = 0 /\ sumw inapply (ws s) = 0 /\ prep s = true /\ p0 s = 0 /\ p1 s = 0 /\ log s = []).
    { destruct IS as [[Q|Q] ? ? ?|[Q|Q] ? ? ? ? ? ?|[Q|Q] ? ? ? ? ?|[Q|Q] ? ? ? ? ?|Q ? ? ? ? ?]; try congruence. tauto. }
    destruct A as (A1 & A2 & A3 & A4 & A5 & A6 & A7).
    set (s1 := w_caller CWait (w_fin false (w_exec true s))).
    assert (LOC : forall w' p', nth_error (ws s) w' = Some p' -> local s1 p').
    { intros w' p' E'. pose proof (sumw_ge inprep _ _ _ inprep_nn E'). pose proof (sumw_ge inapply _ _ _ inapply_nn E').
      destruct p'; cbn in *; auto; lia. }
    assert (I1 : inv s1).
    { constructor; unfold s1; proj; auto; try lia; [rewrite LK; auto|]. apply sg_start; proj; auto. }
    destruct (all_waiting s1) eqn:AW; [|exact I1].
    destruct (nth_error (ws s) w) as [p|] eqn:E; [|apply nth_error_None in E; lia].
    assert (P : p = WWait).
    { unfold all_waiting in AW. rewrite forallb_forall in AW. specialize (AW p (nth_error_In _ _ E)). destruct p; auto; discriminate. }
    subst p. eapply (inv_wstep s1 w true); [exact I1|]. unfold wstep. change (ws s1) with (ws s). rewrite E. reflexivity.
  - injection ST as <-. constructor; proj; auto.
    destruct IS as [[Q|Q] ? ? ?|Q ? ? ? ? ? ?|Q ? ? ? ? ?|Q ? ? ? ? ?|Q ? ? ? ? ?]; try congruence.
    + destruct Q; congruence.
    + apply sg_start; proj; auto.
    + apply sg_prep; proj; auto.
    + apply sg_apply; proj; auto.
  - destruct (lock s) eqn:LK; [discriminate|]. injection ST as <-. constructor; proj; auto.
    + rewrite LK. auto.
    + destruct IS as [[Q|Q] ? ? ?|Q ? ? ? ? ? ?|Q ? ? ? ? ?|Q ? ? ? ? ?|Q F ? ? ? ?]; try congruence.
      * destruct Q; congruence.
      * rewrite H0. apply sg_start; proj; auto.
      * rewrite H0. apply sg_prep; proj; auto.
      * rewrite H0. apply sg_apply; proj; auto.
      * rewrite F. apply sg_out; proj; auto.
Qed.
Lemma inv_reach : forall n s, reach n s -> inv s.
Proof.
  induction 1 as [|s s' H IH [w ch S | h w Hh Hw S]].
  - apply inv_init.
  - eapply inv_wstep; eauto.
  - eapply inv_cstep; eauto.
Qed.

(** What a run of API calls delivers. *)
From Coq Require Import ZArith List Bool Lia.
From Verif Require Import Base.CInt Obu.SeqModel Obu.FrameModel Dec.State Dec.Submit Dec.ObuModel
  Dec.LibModel Dec.Inv Dec.Step Dec.OutSpec Dec.Micro Dec.Api Dec.Trace Dec.Fifo Dec.Session.
Import ListNotations.
Open Scope Z_scope.

(** Nothing unread, nothing in flight, nothing held. *)
Definition empty_fc (f : fctx) : Prop := fc_out f = None.
Definition fresh (s : settings) (d : dec) : Prop :=
  d_in d = None /\ d_out d = None /\ d_cache d = None /\ d_cached_error d = 0 /\
  (s_n_fc s <> 1 -> Forall (fun f => empty_fc f /\ fc_ret f = 0) (d_fc d)).
Lemma fresh_start : forall s, fresh s (dec0 s).
Proof.
  intros s. unfold fresh. repeat (split; [reflexivity|]). intros _. apply Forall_forall. intros f Hf.
  cbn in Hf. apply repeat_spec in Hf. subst f. split; reflexivity.
Qed.
Lemma fresh_flush : forall s d, fresh s (flush s d).
Proof.
  intros s d. unfold fresh, flush. destruct (Z.eqb_spec (s_n_fc s) 1) as [E|N].
  - repeat (split; [reflexivity|]). intros X. contradiction.
  - repeat (split; [reflexivity|]). intros _. apply Forall_forall. intros f Hf.
    cbn in Hf. apply repeat_spec in Hf. subst f. split; reflexivity.
Qed.
Lemma entries_none : forall s l, Forall empty_fc l -> flat_map (entry s) l = [].
Proof. intros s l H. induction H as [|f l H1 H2 IH]; [reflexivity|]. cbn [flat_map]. rewrite IH, app_nil_r. unfold entry. rewrite H1. reflexivity. Qed.
Lemma Forall_rot : forall A (P : A -> Prop) l i, Forall P l <-> Forall P (rot l i).
Proof.
  intros A P l i. unfold rot. rewrite Forall_app. rewrite <- (firstn_skipn i l) at 1. rewrite Forall_app. tauto.
Qed.
Lemma length_rot : forall A (l : list A) i, length (rot l i) = length l.
Proof. intros A l i. unfold rot. rewrite app_length, Nat.add_comm, <- app_length, firstn_skipn. reflexivity. Qed.
Lemma ring_none : forall s d, Forall empty_fc (d_fc d) -> ring s d = [].
Proof. intros s d H. unfold ring. apply entries_none. apply Forall_rot. exact H. Qed.
Lemma entries_length : forall s l, (length (flat_map (entry s) l) <= length l)%nat.
Proof.
  intros s l. induction l as [|f l IH]; [auto|]. cbn [flat_map length]. rewrite app_length. unfold entry at 1. destruct (fc_out f); cbn [length]; lia.
Qed.

Section Run.
Variables (o : oracle) (s : settings).
Hypothesis (NF : 1 <= s_n_fc s).
(** Frames leave in the order in which they were handed in; those that have not left
    are in flight. *)
Theorem run_order : forall l d rs d' e, live o s d -> fresh s d -> Forall call_ok l -> ~ In Flush l ->
  calls o s l d = Ok (rs, d', e) ->
  exists out waiting, made_all o s e = out ++ waiting /\ ids (outs_of e) = wanted out /\
    Z.of_nat (length waiting) <= s_n_fc s /\
    (s_n_fc s = 1 \/ Forall empty_fc (d_fc d') -> waiting = []) /\
    (s_n_fc s <> 1 -> errs e ++ nonzero [d_cached_error d'] = nonzero (map mk_ret out)).
Proof.
  intros l d rs d' e L (F1 & F2 & F3 & F4 & F5) HC HF E. destruct (live_ok o s d NF L) as (LI & OP).
  destruct (calls_steps o s l d LI OP HC) as (rs' & d1 & e' & X & ((I1 & _) & _ & S & _ & N)).
  rewrite E in X. injection X as <- <- <-. specialize (N HF).
  destruct (Z.eq_dec (s_n_fc s) 1) as [E1|N1].
  - destruct (steps_one_fc _ _ _ _ _ E1 S F4) as (A & B). exists (made_all o s e), []. rewrite app_nil_r.
    split; [auto|]. split; [auto|]. split; [cbn [length]; lia|]. split; [auto|]. intros Z. contradiction.
  - specialize (F5 N1). destruct (steps_fifo _ _ _ _ _ N1 S N []) as (G1 & out & G2 & G3 & G4).
    { split; [eapply Forall_impl; [|exact F5]; intros f (_ & A) _; exact A|]. exists [].
      rewrite (ring_none s d) by (eapply Forall_impl; [|exact F5]; intros f (A & _); exact A).
      unfold error_left. rewrite F4. auto. }
    exists out, (ring s d'). split; [auto|]. split; [auto|]. split.
    { pose proof (inv_fc _ _ I1) as Y. unfold ring. pose proof (entries_length s (rot (d_fc d') (d_next d'))) as Y2.
      rewrite length_rot in Y2. lia. }
    split; [|intros _; exact G4]. intros [Z|Z]; [contradiction|]. apply ring_none. exact Z.
Qed.
(** The pictures of one temporal unit after the other, chosen as specified. *)
Theorem run_choice : forall l d rs d' e, live o s d -> fresh s d -> Forall call_ok l -> ~ In Flush l ->
  calls o s l d = Ok (rs, d', e) ->
  sel_all (s_all_layers s) e (mkSel (top s d) [] None) = seen s (takes e) d' /\
  pics rs = filter (fun p => negb (lost o s p)) (takes e).
Proof.
  intros l d rs d' e L (F1 & F2 & F3 & F4 & F5) HC HF E. destruct (live_ok o s d NF L) as (LI & OP).
  destruct (calls_steps o s l d LI OP HC) as (rs' & d1 & e' & X & (_ & _ & S & P & N)).
  rewrite E in X. injection X as <- <- <-. split; [|exact P]. change (takes e) with ([] ++ takes e). rewrite <- (steps_sel _ _ _ _ _ S (N HF) []).
  unfold seen. rewrite F2, F3. reflexivity.
Qed.
Theorem run_input : forall l d rs d' e, live o s d -> Forall call_ok l ->
  calls o s l d = Ok (rs, d', e) -> feed_all e (d_in d) = Some (d_in d').
Proof.
  intros l d rs d' e L HC E. destruct (live_ok o s d NF L) as (LI & OP).
  destruct (calls_steps o s l d LI OP HC) as (rs' & d1 & e' & X & (_ & _ & S & _)).
  rewrite E in X. injection X as <- <- <-. eapply steps_feed; eauto.
Qed.
End Run.

(** Without spatial layers every picture is wanted. *)
Definition flat (s : settings) (e : list ev) : Prop :=
  s_all_layers s = true \/ forall b m r sid, In (EvParse b m r sid) e -> sid = 0.
Lemma sel_zero : forall s e x, flat s e -> sl_top x = 0 ->
  sel_all (s_all_layers s) e x = mkSel 0 (sl_done x ++ outs_of e) (sl_held x).
Proof.
  intros s e. induction e as [|v e IH]; intros x F T.
  - cbn. rewrite app_nil_r. rewrite <- T. destruct x; reflexivity.
  - assert (F2 : flat s e) by (destruct F as [F|F]; [left; auto|right; intros; eapply F; right; eauto]).
    change (sel_all (s_all_layers s) (v :: e) x) with (sel_all (s_all_layers s) e (sel_ev (s_all_layers s) x v)).
    destruct v; cbn [sel_ev outs_of flat_map app]; try (apply IH; auto).
    + rewrite IH; auto.
      * unfold sel_pic. rewrite T. cbn. rewrite <- app_assoc. reflexivity.
      * unfold sel_pic. rewrite T. reflexivity.
    + rewrite IH; auto. cbn. destruct F as [F|F]; [rewrite F; auto|]. destruct (s_all_layers s); auto. eapply F; left; reflexivity.
    + unfold sel_cut. rewrite T. apply IH; auto.
Qed.
Lemma seen_zero : forall s t d x, seen s t d = mkSel 0 x None -> t ++ opt_list (d_out d) = x.
Proof.
  intros s t d x H. unfold seen in H. destruct (d_out d) as [p|]; cbn [opt_list].
  - unfold sel_pic in H. cbn [sl_top sl_done sl_held] in H. destruct (top s d =? 0); [injection H; auto|].
    destruct (d_cache d); [destruct (_ || _)|]; injection H; discriminate.
  - injection H as _ H _. rewrite app_nil_r. auto.
Qed.

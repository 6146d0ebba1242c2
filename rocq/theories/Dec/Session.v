(** Runs of API calls. *)
From Coq Require Import ZArith List Bool Lia.
From Verif Require Import Base.CInt Obu.SeqModel Obu.FrameModel Dec.State Dec.Submit Dec.ObuModel
  Dec.LibModel Dec.Inv Dec.Step Dec.OutSpec Dec.Micro Dec.Api Dec.Trace Dec.Fifo.
Import ListNotations.
Open Scope Z_scope.

(** A run of API calls. *)
Fixpoint calls (o : oracle) (s : settings) (l : list call) (d : dec) : outcome (list reply * dec * list ev) :=
  match l with
  | [] => Ok ([], d, [])
  | c :: t => match api o s c d with
              | Ok (r, d, e) => match calls o s t d with Ok (rs, d, e2) => Ok (r :: rs, d, e ++ e2) | Undef => Undef end
              | Undef => Undef
              end
  end.
Lemma calls_live : forall o s l d rs d' e, live o s d -> Forall call_ok l -> calls o s l d = Ok (rs, d', e) -> live o s d'.
Proof.
  induction l; intros d rs d' e L H E; cbn [calls] in E.
  - injection E as _ <- _. auto.
  - destruct (api o s a d) as [[[r d1] e1]|] eqn:EA; [|discriminate].
    destruct (calls o s l d1) as [[[rs1 d2] e2]|] eqn:EC; [|discriminate]. injection E as _ <- _.
    inversion H; subst. eapply IHl; [|eauto|eauto]. eapply live_api; eauto.
Qed.

(** Pictures returned to the caller. *)
Definition pics (rs : list reply) : list tpic :=
  flat_map (fun r => match rp_pic r with Some x => [op_pic x] | None => [] end) rs.
Lemma reply_pics : forall o s c rp e, reply_ok o s c rp e ->
  pics [rp] = filter (fun p => negb (lost o s p)) (takes e).
Proof.
  intros o s c rp e H. unfold pics. cbn [flat_map]. rewrite app_nil_r. destruct c; cbn [reply_ok] in H.
  - destruct H as (-> & _ & -> & _). reflexivity.
  - destruct H as [H|(-> & _ & -> & _)]; [|reflexivity]. unfold delivers in H. destruct (rp_pic rp) as [x|].
    + destruct H as (_ & -> & _ & L). cbn [filter]. rewrite L. reflexivity.
    + destruct H as [(-> & _)|[(-> & _)|(q & -> & _ & _ & L)]]; try reflexivity. cbn [filter]. rewrite L. reflexivity.
  - destruct H as (-> & ->). reflexivity.
  - destruct H as (-> & ->). reflexivity.
  - destruct H as (-> & ->). reflexivity.
Qed.
(** Only dav1d_flush flushes. *)
Lemma take_nf : forall s d, ~ In EvFlush (take_ev s d).
Proof. intros s d. unfold take_ev. destruct (source s d); cbn; intuition discriminate. Qed.
Lemma end_nf : forall o s d evs r p d1 e, drain_end o s d evs = Ok (r, p, d1, e) -> ~ In EvFlush evs -> ~ In EvFlush e.
Proof.
  intros o s d evs r p d1 e E N. unfold drain_end in E. destruct (output_picture_ready s true d) as [rdy d2].
  assert (N2 : ~ In EvFlush (evs ++ [EvCut])) by (rewrite in_app_iff; cbn; intuition discriminate).
  destruct rdy; [|injection E as <- <- <- <-; auto].
  destruct (output_image o s d2) as [[[? ?] ?]|]; [|discriminate]. cbn [obind] in E. injection E as <- <- <- <-.
  rewrite in_app_iff. pose proof (take_nf s d2). tauto.
Qed.
Lemma drain_nf : forall o s n dr d evs r p d1 e, drain_loop n o s dr d evs = Ok (r, p, d1, e) -> ~ In EvFlush evs -> ~ In EvFlush e.
Proof.
  intros o s n. induction n as [|n IH]; intros dr d evs r p d1 e E N; cbn [drain_loop] in E; [eapply end_nf; eauto|].
  destruct (_ <? _)%nat; [|discriminate]. cbv zeta in E. destruct (_ && dr); [eapply end_nf; eauto|].
  destruct (negb _).
  { injection E as <- <- <- <-. rewrite in_app_iff. cbn. intuition discriminate. }
  destruct (fc_out _) as [q|]; [|eapply IH; eauto].
  assert (G : forall d2 evs2, ~ In EvFlush evs2 ->
     (let '(rdy, d3) := output_picture_ready s false d2 in
        if rdy then obind (output_image o s d3) (fun '(r, p, d') => Ok (r, p, d', evs2 ++ take_ev s d3))
        else drain_loop n o s (dr || (negb (is_none (Some q)) || fc_err (nth (d_next d) (d_fc d) fctx0))) d3 evs2) = Ok (r, p, d1, e) -> ~ In EvFlush e).
  { intros d2 evs2 N2 Y. destruct (output_picture_ready s false d2) as [rdy d3]. destruct rdy; [|eapply IH; eauto].
    destruct (output_image o s d3) as [[[? ?] ?]|]; [|discriminate]. cbn [obind] in Y. injection Y as <- <- <- <-.
    rewrite in_app_iff. pose proof (take_nf s d3). tauto. }
  destruct (_ && _).
  - destruct (put_out _ _) as [d2|]; [|discriminate]. cbn [obind] in E. eapply G; [|exact E].
    rewrite in_app_iff. cbn. intuition discriminate.
  - cbn [obind] in E. eapply G; [|exact E]. auto.
Qed.
Lemma parse_ev_nf : forall e, Forall parse_ev e -> ~ In EvFlush e.
Proof. intros e H X. rewrite Forall_forall in H. exact (H _ X). Qed.
Lemma api_nf : forall o s c d r d1 e, live_inv s d -> op_ok s d -> call_ok c -> c <> Flush -> api o s c d = Ok (r, d1, e) -> ~ In EvFlush e.
Proof.
  intros o s c d r d1 e LI OP HC NF E. destruct (api_steps o s c d LI OP HC) as (r' & d1' & e' & X & _ & _ & _ & R).
  rewrite E in X. injection X as <- <- <-. destruct c as [pkt| | | |]; try contradiction.
  - cbn [api] in E. destruct (send_data o s pkt d) as [[[[r0 t] d2] e2]|] eqn:ES; [|discriminate]. cbn [obind] in E. injection E as <- <- <-.
    unfold send_data in ES. destruct (match pkt with Some _ => _ | None => _ end) eqn:EZ; [injection ES as <- <- <- <-; auto|].
    set (dd := match pkt with Some _ => w_drain false d | None => d end) in *.
    destruct (d_in dd) eqn:EI; [injection ES as <- <- <- <-; auto|].
    assert (L2 : live_inv s (w_in pkt dd) /\ op_ok s (w_in pkt dd)).
    { destruct LI as (I & J). destruct (inv_pending _ _ I) as (P1 & P2). subst dd. split; [split|].
      - destruct pkt; apply (inv_eq s d _ I); auto.
      - intros buf m Y. dsimp. subst pkt. split; [exact HC|]. assert (0 <= zlen buf) by (unfold zlen; lia). lia.
      - destruct pkt; exact OP. }
    destruct L2 as (L2 & O2). destruct (gen_ok o s _ L2 O2) as (r3 & d3 & e3 & X1 & _ & X3 & _).
    rewrite X1 in ES. cbn [obind] in ES. injection ES as <- <- <- <-. rewrite in_app_iff. pose proof (parse_ev_nf _ X3).
    destruct pkt as [[? ?]|]; cbn; intuition discriminate.
  - cbn [api] in E. destruct (get_picture o s d) as [[[[r0 t] d2] e2]|] eqn:ES; [|discriminate]. cbn [obind] in E. injection E as <- <- <-.
    unfold get_picture in ES. cbv zeta in ES.
    assert (L2 : live_inv s (w_drain true d)).
    { destruct LI as (I & J). destruct (inv_pending _ _ I) as (P1 & P2). split; [|exact J]. apply (inv_eq s d _ I); auto. }
    destruct (gen_ok o s _ L2 OP) as (r3 & d3 & e3 & X1 & _ & X3 & _).
    rewrite X1 in ES. cbn [obind] in ES. pose proof (parse_ev_nf _ X3) as N3. destruct (r3 <? 0); [injection ES as <- <- <- <-; auto|].
    destruct (negb _); [injection ES as <- <- <- <-; rewrite in_app_iff; cbn; intuition discriminate|].
    set (e4 := if (s_n_fc s =? 1) && is_none (d_out d3) then e3 ++ [EvCut] else e3) in *.
    assert (N4 : ~ In EvFlush e4) by (subst e4; destruct (_ && _); auto; rewrite in_app_iff; cbn; intuition discriminate).
    clearbody e4. destruct (output_picture_ready _ _ d3) as [rdy d4]. destruct rdy.
    + destruct (output_image o s d4) as [[[? ?] ?]|]; [|discriminate]. cbn [obind] in ES. injection ES as <- <- <- <-.
      rewrite in_app_iff. pose proof (take_nf s d4). tauto.
    + destruct (_ && _); [|injection ES as <- <- <- <-; auto].
      destruct (drain_picture o s d4) as [[[[? ?] ?] ?]|] eqn:ED; [|discriminate]. cbn [obind] in ES. injection ES as <- <- <- <-.
      rewrite in_app_iff. unfold drain_picture in ED. pose proof (drain_nf _ _ _ _ _ _ _ _ _ _ ED). cbn in *. tauto.
  - destruct R as (_ & ->). auto.
  - destruct R as (_ & ->). auto.
Qed.
Theorem calls_steps : forall o s l d, live_inv s d -> op_ok s d -> Forall call_ok l ->
  exists rs d1 e, calls o s l d = Ok (rs, d1, e) /\ live_inv s d1 /\ op_ok s d1 /\ steps o s d e d1 /\
    pics rs = filter (fun p => negb (lost o s p)) (takes e) /\ (~ In Flush l -> ~ In EvFlush e).
Proof.
  intros o s l. induction l as [|c l IH]; intros d LI OP H; cbn [calls].
  - exists [], d, []. split; [reflexivity|]. split; [auto|]. split; [auto|]. split; [constructor|]. split; [reflexivity|auto].
  - inversion H as [|? ? H1 H2]; subst.
    destruct (api_steps o s c d LI OP H1) as (r & d1 & e1 & EA & LI1 & OP1 & S1 & R1). rewrite EA.
    destruct (IH d1 LI1 OP1 H2) as (rs & d2 & e2 & -> & LI2 & OP2 & S2 & P2 & F2).
    eexists; eexists; eexists. split; [reflexivity|]. split; [auto|]. split; [auto|]. split; [eapply steps_app; eauto|].
    split.
    + rewrite takes_app, filter_app, <- P2, <- (reply_pics _ _ _ _ _ R1). unfold pics. cbn [flat_map]. rewrite app_nil_r. reflexivity.
    + intros NI X. apply in_app_or in X. destruct X as [X|X].
      * revert X. eapply api_nf; [exact LI|exact OP|exact H1| |exact EA]. intros ->. apply NI. left. reflexivity.
      * apply F2; auto. intros Y. apply NI. right. exact Y.
Qed.

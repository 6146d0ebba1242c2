(** The API calls as sequences of small steps. *)
From Coq Require Import ZArith List Bool Lia.
From Verif Require Import Base.CInt Obu.SeqModel Obu.FrameModel Dec.State Dec.Submit Dec.ObuModel Dec.LibModel Dec.Inv Dec.Step.
Import ListNotations.
Open Scope Z_scope.

(** What is left of a packet after a step of dav1d_parse_obus that returned [r]. *)
Definition rest (r : Z) (buf : list Z) (m : props) : option (list Z * props) :=
  if (r <? 0) || (r =? zlen buf) then None else Some (skipn (Z.to_nat r) buf, m).
Definition cut_ev (b : bool) (d : dec) : list ev := if b && is_none (d_out d) then [EvCut] else [].

Inductive micro (o : oracle) (s : settings) : dec -> list ev -> dec -> Prop :=
| m_quiet : forall d a b c, micro o s d [] (w_drain a (w_event_flags b (w_err_props c d)))
| m_in : forall d buf m, d_in d = None -> Forall is_byte buf -> 0 < zlen buf ->
    micro o s d [EvIn buf m] (w_in (Some (buf, m)) d)
| m_keep : forall b d d1, (cut_ev b d <> [] -> d_in d = None) -> output_picture_ready s b d = (false, d1) -> micro o s d (cut_ev b d) d1
| m_take : forall b d r p d1, (cut_ev b d <> [] -> d_in d = None) -> d_cached_error d = 0 -> output_picture_ready s b d = (true, d) ->
    output_image o s d = Ok (r, p, d1) -> micro o s d (cut_ev b d ++ take_ev s d) d1
| m_parse : forall d buf m r d1 e, dec_inv s d -> Forall is_byte buf -> 0 < zlen buf -> d_in d = Some (buf, m) ->
    d_out d = None -> d_cached_error d = 0 -> parse_obus o s buf m d = Ok (r, d1, e) ->
    micro o s d (EvParse buf m r (d_max_sid d1) :: e) (w_in (rest r buf m) d1)
| m_err : forall d, d_cached_error d <> 0 -> micro o s d [EvErr (d_cached_error d)] (w_cached_error 0 d)
| m_pop : forall d d1 e, dec_inv s d -> d_out d = None -> d_cached_error d = 0 -> s_n_fc s <> 1 ->
    ring_take s d = Ok (d1, e) -> micro o s d e d1
| m_flush : forall d, micro o s d [EvFlush] (flush s d).

Inductive steps (o : oracle) (s : settings) : dec -> list ev -> dec -> Prop :=
| st_nil : forall d, steps o s d [] d
| st_cons : forall d e d1 e2 d2, micro o s d e d1 -> steps o s d1 e2 d2 -> steps o s d (e ++ e2) d2.

Lemma steps_one : forall o s d e d1, micro o s d e d1 -> steps o s d e d1.
Proof. intros. rewrite <- (app_nil_r e). econstructor; [eauto|constructor]. Qed.
Lemma steps_app : forall o s d e d1 e2 d2, steps o s d e d1 -> steps o s d1 e2 d2 -> steps o s d (e ++ e2) d2.
Proof. intros o s d e d1 e2 d2 H. revert e2 d2. induction H; intros e3 d3 H3; auto. rewrite <- app_assoc. econstructor; eauto. Qed.
Lemma steps_two : forall o s d e d1 e2 d2, micro o s d e d1 -> micro o s d1 e2 d2 -> steps o s d (e ++ e2) d2.
Proof. intros. eapply steps_app; apply steps_one; eauto. Qed.
Lemma quiet_step : forall o s d d1, d1 = w_drain (d_drain d1) (w_event_flags (d_event_flags d1) (w_err_props (d_err_props d1) d)) ->
  steps o s d [] d1.
Proof. intros o s d d1 E. rewrite E. apply steps_one. constructor. Qed.

Lemma keep_step : forall o s d d1, output_picture_ready s false d = (false, d1) -> micro o s d [] d1.
Proof. intros o s d d1 E. apply (m_keep o s false d d1); auto. intros H. contradiction H. reflexivity. Qed.

(** The events of dav1d_parse_obus itself. *)
Definition plain (x : ev) : Prop :=
  match x with EvSubmit _ _ | EvRefuse _ _ | EvSkip _ | EvShow _ _ | EvOut _ => True | _ => False end.
Lemma ring_plain : forall s d d1 e, ring_take s d = Ok (d1, e) -> Forall plain e.
Proof.
  intros s d d1 e E. unfold ring_take in E. destruct (_ <? _)%nat; [|discriminate].
  destruct (negb _); [injection E as _ <-; constructor|].
  destruct (fc_out _) as [p|]; [|injection E as _ <-; constructor].
  destruct (_ && _); [|injection E as _ <-; constructor].
  destruct (put_out _ _); [|discriminate]. cbn [obind] in E. injection E as _ <-. repeat constructor.
Qed.
Ltac fin A := let H := fresh in intros H; injection H as _ _ <-; apply A; repeat constructor.
Lemma submit_plain : forall o s q h m d r d1 e, submit_frame o s q h m d = Ok (r, d1, e) -> Forall plain e.
Proof.
  intros o s q h m d r d1 e E. unfold submit_frame in E. cbv zeta in E.
  destruct (if s_n_fc s =? 1 then Ok (d, []) else ring_take s d) as [[d2 e2]|] eqn:ER; [|discriminate]. cbn [obind] in E.
  assert (P : Forall plain e2).
  { destruct (s_n_fc s =? 1); [injection ER as _ <-; constructor|exact (ring_plain _ _ _ _ ER)]. }
  assert (A : forall l, Forall plain l -> Forall plain (e2 ++ l)) by (intros; apply Forall_app; auto).
  revert E. destruct (_ && _ && _); [fin A|].
  destruct (if is_inter_or_switch _ then _ else _) as [refp|]; [|fin A].
  destruct (if _ =? PRIMARY_REF_NONE then _ else _) as [cdf|]; [|discriminate]. cbn [obind].
  destruct (d_tiles _); [discriminate|]. destruct (_ <? 0); [fin A|]. destruct (_ && _); [fin A|].
  destruct (take_segmap _ _ _ _) as [[a b]|]; [|discriminate]. cbn [obind].
  destruct (s_n_fc s =? 1); [|fin A].
  destruct (if _ || _ then put_out _ _ else _); [|discriminate]. cbn [obind].
  destruct (_ <? 0); [fin A|]. destruct (z2b (show_frame (f_pre h)) || s_output_invisible s); fin A.
Qed.
Lemma parse_plain : forall o s buf m d r d1 e, parse_obus o s buf m d = Ok (r, d1, e) -> Forall plain e.
Proof.
  intros o s buf m d r d1 e E. unfold parse_obus in E.
  destruct (obu_open _ _) as [x|]; [|discriminate]. cbn [obind] in E.
  destruct x as [[[[[type ext] tid] sid] c]|]; [|injection E as _ _ <-; constructor].
  destruct (layer_dropped _ _ _ _ _); [injection E as _ _ <-; constructor|].
  destruct (obu_switch _ _ _ _ _ _ _) as [x|]; [|discriminate]. cbn [obind] in E.
  destruct x as [d2|d2|r2 d2]; try solve [injection E as _ _ <-; constructor].
  unfold after_switch in E. destruct (d_seq d2) as [q|]; [|injection E as _ _ <-; constructor].
  destruct (d_fhdr d2) as [h|]; [|injection E as _ _ <-; constructor].
  destruct (z2b (show_existing_frame h)).
  - unfold show_existing in E. cbv zeta in E.
    destruct (r_pic _) as [p|]; [|injection E as _ _ <-; constructor].
    destruct (dft_drops_shown _ _); [injection E as _ _ <-; repeat constructor|].
    destruct (negb _); [injection E as _ _ <-; constructor|].
    destruct (_ && _); [injection E as _ _ <-; constructor|].
    destruct (_ =? 1).
    + destruct (put_out _ _); [|discriminate]. cbn [obind] in E. injection E as _ _ <-. repeat constructor.
    + destruct (ring_take s d2) as [[d3 e3]|] eqn:ER; [|discriminate]. cbn [obind] in E. injection E as _ _ <-.
      apply Forall_app. split; [exact (ring_plain _ _ _ _ ER)|repeat constructor].
  - destruct (_ =? _); [|injection E as _ _ <-; constructor].
    unfold frame_complete in E. destruct (dft_drops s h); [injection E as _ _ <-; repeat constructor|].
    destruct (is_none _); [injection E as _ _ <-; constructor|].
    destruct (submit_frame o s q h m d2) as [[[r2 d3] e3]|] eqn:ES; [|discriminate]. cbn [obind] in E.
    pose proof (submit_plain _ _ _ _ _ _ _ _ _ ES) as P.
    destruct (r2 <? 0); [injection E as _ _ <-; exact P|]. destruct (is_none _); [|discriminate]. injection E as _ _ <-. exact P.
Qed.

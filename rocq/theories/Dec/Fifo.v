(** Frame threading: pictures and errors leave the ring of frame contexts in the
    order in which the frames entered it. *)
From Coq Require Import ZArith List Bool Lia.
From Verif Require Import Base.CInt Base.Lemmas GetBits.Model GetBits.Spec GetBits.AtPos
  Obu.SeqModel Obu.SeqRel Obu.ObuSpec Obu.FrameModel Obu.FrameRel Obu.FrameHist
  Dec.State Dec.Submit Dec.ObuModel Dec.LibModel Dec.Front Dec.Wf Dec.Inv Dec.Meta Dec.Step Dec.SubmitProofs Dec.Parse Dec.Micro Dec.Api Dec.Trace.
Import ListNotations.
Open Scope Z_scope.
Local Open Scope outcome_scope.

(** * The ring as a queue *)
Definition rot {A} (l : list A) (i : nat) : list A := skipn i l ++ firstn i l.
Lemma upd_twice : forall A (l : list A) i a b, (i < length l)%nat -> upd_nth (upd_nth l i a) i b = upd_nth l i b.
Proof.
  intros A l i a b H. unfold upd_nth.
  assert (L : length (firstn i l) = i) by (apply firstn_length_le; lia).
  rewrite firstn_app, L, Nat.sub_diag, firstn_O, app_nil_r, firstn_firstn, Nat.min_id. f_equal. f_equal.
  change (a :: skipn (S i) l) with ([a] ++ skipn (S i) l). rewrite app_assoc, skipn_app.
  rewrite skipn_all2 by (rewrite app_length; cbn; lia). rewrite app_length, L. cbn [length app].
  replace (S i - (i + 1))%nat with O by lia. reflexivity.
Qed.
Lemma upd_self : forall A (l : list A) i x d, (i < length l)%nat -> nth i l d = x -> upd_nth l i x = l.
Proof.
  intros A l i x d H E. unfold upd_nth. rewrite <- (firstn_skipn i l) at 3. f_equal.
  rewrite <- E. clear E x. revert i H. induction l as [|a l IH]; intros i H; cbn in H; [lia|].
  destruct i as [|i]; [reflexivity|]. change (skipn (S i) (a :: l)) with (skipn i l). rewrite <- IH by lia. reflexivity.
Qed.
Lemma rot_cons : forall A (l : list A) i d, (i < length l)%nat -> rot l i = nth i l d :: (skipn (S i) l ++ firstn i l).
Proof.
  intros A l i d H. unfold rot.
  assert (E : skipn i l = nth i l d :: skipn (S i) l).
  { revert i H. induction l as [|a l IH]; intros i H; cbn in H; [lia|]. destruct i as [|i]; [reflexivity|].
    change (skipn (S i) (a :: l)) with (skipn i l). rewrite IH by lia. reflexivity. }
  rewrite E. reflexivity.
Qed.
Definition after (n i : nat) : nat := if Nat.eqb (S i) n then O else S i.
Lemma rot_upd : forall A (l : list A) i x, (i < length l)%nat ->
  rot (upd_nth l i x) (after (length l) i) = (skipn (S i) l ++ firstn i l) ++ [x].
Proof.
  intros A l i x H. unfold after, rot, upd_nth.
  assert (L : length (firstn i l) = i) by (apply firstn_length_le; lia).
  destruct (Nat.eqb_spec (S i) (length l)) as [E|N].
  - rewrite (skipn_all2 l) by lia. rewrite skipn_O, firstn_O, app_nil_r. reflexivity.
  - change (x :: skipn (S i) l) with ([x] ++ skipn (S i) l). rewrite app_assoc.
    assert (L2 : length (firstn i l ++ [x]) = S i) by (rewrite app_length, L; cbn; lia).
    rewrite skipn_app, firstn_app, L2, Nat.sub_diag, skipn_O, firstn_O, app_nil_r.
    rewrite (skipn_all2 (firstn i l ++ [x])) by lia. rewrite firstn_all2 by lia. rewrite app_nil_l. rewrite <- app_assoc. reflexivity.
Qed.
Lemma ring_next_after : forall s d, Z.of_nat (length (d_fc d)) = s_n_fc s -> ring_next s d = after (length (d_fc d)) (d_next d).
Proof.
  intros s d H. unfold ring_next, after. destruct (Z.eqb_spec (Z.of_nat (S (d_next d))) (s_n_fc s)); destruct (Nat.eqb_spec (S (d_next d)) (length (d_fc d))); auto; lia.
Qed.

(** * What is in the ring *)
Definition entry (s : settings) (f : fctx) : list made :=
  match fc_out f with
  | Some p => [mkMade (tp_buf p) (fc_ret f) ((fc_ret f =? 0) && visible s (tp_visible p) && negb (tp_bad p))]
  | None => []
  end.
Definition ring (s : settings) (d : dec) : list made := flat_map (entry s) (rot (d_fc d) (d_next d)).
(** An error belongs to a frame. *)
Definition fc_fine (f : fctx) : Prop := fc_out f = None -> fc_ret f = 0.
Definition error_left (d : dec) : list Z := nonzero [d_cached_error d].

(** Taking the next context removes the head of the queue. *)
Lemma ring_take_fc : forall s d d1 e, dec_inv s d -> d_out d = None -> d_cached_error d = 0 -> ring_take s d = Ok (d1, e) ->
  let f := nth (d_next d) (d_fc d) fctx0 in
  d_fc d1 = upd_nth (d_fc d) (d_next d) (mkFctx 0 (fc_err f) None) /\ d_next d1 = ring_next s d /\
  (fc_fine f -> ids (outs_of e) = wanted (entry s f) /\ error_left d1 = nonzero (map mk_ret (entry s f))).
Proof.
  intros s d d1 e I EO EC X f. unfold ring_take in X. pose proof (inv_next _ _ I) as HN.
  replace (d_next d <? length (d_fc d))%nat with true in X by (symmetry; apply Nat.ltb_lt, HN).
  cbv zeta in X. fold f in X. unfold entry, wanted, error_left, nonzero, fc_fine.
  destruct (Z.eqb_spec (fc_ret f) 0) as [E0|N0]; cbn [negb] in X.
  - destruct (fc_out f) as [p|] eqn:EP.
    + destruct (shown s p && negb (tp_bad p)) eqn:ES.
      * unfold put_out in X. dsimp. rewrite EO in X. cbn [is_none obind] in X. injection X as <- <-. dsimp.
        split; [reflexivity|]. split; [reflexivity|]. intros _. rewrite E0, EC. unfold shown in ES. fold (visible s (tp_visible p)) in ES.
        cbn [Z.eqb]. rewrite andb_true_l, ES. auto.
      * injection X as <- <-. dsimp. split; [reflexivity|]. split; [reflexivity|]. intros _. rewrite E0, EC. unfold shown in ES.
        fold (visible s (tp_visible p)) in ES. cbn [Z.eqb]. rewrite andb_true_l. cbn [filter mk_out]. rewrite ES. auto.
    + injection X as <- <-. dsimp. split; [|split; [reflexivity|intros _; rewrite EC; auto]].
      symmetry. apply upd_self with (d := fctx0); auto. fold f. destruct f as [a b c]. cbn in *. subst. reflexivity.
  - injection X as <- <-. dsimp. split; [reflexivity|]. split; [reflexivity|]. intros F.
    destruct (fc_out f) as [p|] eqn:EP; [|contradiction (N0 (F eq_refl))]. cbn.
    destruct (Z.eqb_spec (fc_ret f) 0); [contradiction|]. auto.
Qed.

(** One round: the head leaves, and [g] enters. *)
Definition round (s : settings) (d d1 : dec) (e : list ev) (g : fctx) : Prop :=
  d_fc d1 = upd_nth (d_fc d) (d_next d) g /\ d_next d1 = ring_next s d /\
  (fc_fine (nth (d_next d) (d_fc d) fctx0) ->
   ids (outs_of e) = wanted (entry s (nth (d_next d) (d_fc d) fctx0)) /\
   error_left d1 = nonzero (map mk_ret (entry s (nth (d_next d) (d_fc d) fctx0)))).
Definition no_round (d d1 : dec) (e : list ev) : Prop :=
  d_fc d1 = d_fc d /\ d_next d1 = d_next d /\ d_cached_error d1 = d_cached_error d /\ outs_of e = [].

(** A frame that enters has a picture unless it was refused. *)
Definition fc_in (e : list ev) (g : fctx) : Prop :=
  fc_fine g /\ (fc_out g = None -> exists h r, In (EvRefuse h r) e).

(** ** dav1d_submit_frame *)
Lemma submit_round : forall o s q h m d r d1 e, dec_inv s d -> d_out d = None -> d_cached_error d = 0 -> s_n_fc s <> 1 ->
  submit_frame o s q h m d = Ok (r, d1, e) ->
  exists g, round s d d1 e g /\ fc_in e g /\ made_all o s e = entry s g.
Proof.
  intros o s q h m d r d1 e I EO EC NF E. unfold submit_frame in E. cbv zeta in E.
  destruct (Z.eqb_spec (s_n_fc s) 1) as [N|_]; [contradiction|].
  destruct (ring_take s d) as [[d2 e2]|] eqn:ER; [|discriminate]. cbn [obind] in E.
  destruct (ring_take_fc s d d2 e2 I EO EC ER) as (F1 & F2 & F3).
  pose proof (inv_next _ _ I) as HN.
  assert (ME : made_all o s e2 = []).
  { unfold ring_take in ER. destruct (_ <? _)%nat; [|discriminate]. destruct (negb _); [injection ER as _ <-; reflexivity|].
    destruct (fc_out _); [|injection ER as _ <-; reflexivity]. destruct (_ && _); [|injection ER as _ <-; reflexivity].
    destruct (put_out _ _); [|discriminate]. cbn [obind] in ER. injection ER as _ <-. reflexivity. }
  assert (RF : forall dx hx rx, d_fc dx = d_fc d2 -> d_next dx = d_next d2 -> d_cached_error dx = d_cached_error d2 ->
    exists g, round s d (submit_fail s (d_next d) m dx) (e2 ++ [EvRefuse hx rx]) g /\ fc_in (e2 ++ [EvRefuse hx rx]) g /\
      made_all o s (e2 ++ [EvRefuse hx rx]) = entry s g).
  { intros dx hx rx A1 A2 A3. exists (mkFctx 0 true None). unfold submit_fail.
    destruct (Z.eqb_spec (s_n_fc s) 1) as [N|_]; [contradiction|]. unfold round, fc_in, fc_fine. dsimp. rewrite A1, F1.
    rewrite upd_nth_same by auto. cbn [fc_ret]. rewrite upd_twice by auto. rewrite outs_of_app. cbn [outs_of flat_map]. rewrite app_nil_r.
    split; [|split; [split; [auto|intros _; exists hx, rx; apply in_or_app; right; left; reflexivity]|unfold made_all in *; rewrite flat_map_app, ME; reflexivity]].
    split; [reflexivity|]. split; [congruence|]. intros K. destruct (F3 K) as (K1 & K2). split; auto.
    rewrite <- K2. unfold error_left. dsimp. rewrite A3. reflexivity. }
  revert E. destruct (_ && _ && _); [intros E; injection E as _ <- <-; apply RF; reflexivity|].
  destruct (if is_inter_or_switch _ then _ else _) as [refp|]; [|intros E; injection E as _ <- <-; apply RF; reflexivity].
  destruct (if _ =? PRIMARY_REF_NONE then _ else _) as [cdf|]; [|discriminate]. cbn [obind].
  destruct (d_tiles _); [discriminate|].
  destruct (_ <? 0); [intros E; injection E as _ <- <-; apply RF; reflexivity|].
  assert (PA : forall h' dx, d_fc (pic_alloc_ctx s h' dx) = d_fc dx /\ d_next (pic_alloc_ctx s h' dx) = d_next dx /\
     d_cached_error (pic_alloc_ctx s h' dx) = d_cached_error dx).
  { intros h' dx. unfold pic_alloc_ctx. cbv zeta. destruct (z2b _); auto. }
  match goal with |- context [pic_alloc_ctx s h ?x] => destruct (PA h x) as (P1 & P2 & P3); set (dy := pic_alloc_ctx s h x) in * end.
  clearbody dy. dsimp.
  destruct (_ && _); [intros E; injection E as _ <- <-; apply RF; auto|].
  destruct (take_segmap _ _ _ _) as [[a b]|]; [|discriminate]. cbn [obind].
  intros E. injection E as _ <- <-. dsimp. match goal with |- context [EvSubmit ?jj 0] => set (j := jj) end.
  eexists. unfold round. dsimp. rewrite P1, F1, upd_twice by auto. split; [split; [reflexivity|split; [congruence|]]|].
  - intros K. destruct (F3 K) as (K1 & K2). rewrite outs_of_app. cbn [outs_of flat_map]. rewrite app_nil_r. split; [auto|].
    rewrite <- K2. unfold error_left. dsimp. rewrite P3. reflexivity.
  - split; [split; intros Y; discriminate|]. unfold made_all in *. rewrite flat_map_app, ME. cbn [flat_map app made_ev].
    destruct (Z.eqb_spec (s_n_fc s) 1) as [N|_]; [contradiction|]. reflexivity.
Qed.
Lemma parse_round : forall o s buf m d r d1 e, dec_inv s d -> d_out d = None -> d_cached_error d = 0 -> s_n_fc s <> 1 ->
  Forall is_byte buf -> 0 < zlen buf -> parse_obus o s buf m d = Ok (r, d1, e) ->
  (no_round d d1 e /\ made_all o s e = []) \/
  exists g, round s d d1 e g /\ fc_in e g /\ made_all o s e = entry s g.
Proof.
  intros o s buf m d r d1 e I EO EC NF HB HL E. unfold parse_obus in E.
  destruct (obu_open_ok (s_strict s) buf HB HL) as (x & EX & X). rewrite EX in E. cbn [obind] in E.
  assert (QQ : forall d1, d_fc d1 = d_fc d -> d_next d1 = d_next d -> d_cached_error d1 = d_cached_error d -> no_round d d1 []) by (unfold no_round; auto).
  destruct x as [[[[[type ext] tid] sid] c]|].
  2:{ injection E as _ <- <-. left. split; [apply QQ|]; reflexivity. }
  destruct X as (h & start & stop & N & ST & -> & -> & -> & -> & R1 & R2 & R3 & R4 & R5 & R6 & GE & AP).
  destruct (layer_dropped _ _ _ _ _); [injection E as _ <- <-; left; split; [apply QQ|]; reflexivity|].
  assert (ZS : zlen (firstn (Z.to_nat stop) buf) = stop) by (apply zlen_firstn; lia).
  destruct (obu_switch_ok s (obu_type h) (temporal_id h) (spatial_id h) m (firstn (Z.to_nat stop) buf) start c d I AP ltac:(lia) ltac:(lia) ltac:(lia))
    as (x & X1 & X2). rewrite X1 in E. cbn [obind] in E.
  destruct (switch_inv s (obu_type h) (temporal_id h) (spatial_id h) m (firstn (Z.to_nat stop) buf) start d x I ltac:(lia) ltac:(lia) ltac:(lia) X2)
    as (I1 & (_ & Q2 & _ & Q4 & _ & _ & _ & _ & Q9 & Q10) & _ & _).
  rewrite EO in Q4. rewrite EC in Q2.
  destruct x as [d2|d2|r2 d2]; cbn [sw_dec] in *;
    try solve [injection E as _ <- <-; left; split; [apply QQ; dsimp; congruence|reflexivity]].
  assert (QD : forall d3 e3, no_round d2 d3 e3 -> no_round d d3 e3).
  { unfold no_round. intros d3 e3 (A & B & C & D). repeat (apply conj); congruence. }
  assert (RD : forall d3 e3 g, round s d2 d3 e3 g -> round s d d3 e3 g).
  { unfold round, ring_next. intros d3 e3 g. rewrite Q9, Q10. auto. }
  enough (P : (no_round d2 d1 e /\ made_all o s e = []) \/ exists g, round s d2 d1 e g /\ fc_in e g /\ made_all o s e = entry s g).
  { destruct P as [(P & M)|(g & P & M)]; [left|right; exists g]; auto. }
  clear QD RD QQ. assert (QQ : forall d1, d_fc d1 = d_fc d2 -> d_next d1 = d_next d2 -> d_cached_error d1 = d_cached_error d2 -> no_round d2 d1 []) by (unfold no_round; auto).
  assert (SK : forall q h', no_round d2 (skip_frame q h' d2) [EvSkip h']) by (intros; unfold no_round, skip_frame; dsimp; auto).
  unfold after_switch in E.
  destruct (d_seq d2) as [q|]; [|injection E as _ <- <-; left; split; [apply QQ|]; reflexivity].
  destruct (d_fhdr d2) as [h'|]; [|injection E as _ <- <-; left; split; [apply QQ|]; reflexivity].
  destruct (z2b (show_existing_frame h')).
  - unfold show_existing in E. cbv zeta in E.
    destruct (r_pic _) as [p|]; [|injection E as _ <- <-; left; split; [apply QQ|]; reflexivity].
    destruct (dft_drops_shown _ _); [injection E as _ <- <-; left; split; [apply SK|]; reflexivity|].
    destruct (negb _); [injection E as _ <- <-; left; split; [apply QQ|]; reflexivity|].
    destruct (_ && _); [injection E as _ <- <-; left; split; [apply QQ|]; reflexivity|].
    destruct (Z.eqb_spec (s_n_fc s) 1) as [N1|_]; [contradiction|].
    destruct (ring_take s d2) as [[d3 e3]|] eqn:ER; [|discriminate]. cbn [obind] in E. injection E as _ <- <-. right.
    destruct (ring_take_fc s d2 d3 e3 I1 Q4 Q2 ER) as (F1 & F2 & F3). pose proof (inv_next _ _ I1) as HN.
    assert (ME : made_all o s e3 = []).
    { unfold ring_take in ER. destruct (_ <? _)%nat; [|discriminate]. destruct (negb _); [injection ER as _ <-; reflexivity|].
      destruct (fc_out _); [|injection ER as _ <-; reflexivity]. destruct (_ && _); [|injection ER as _ <-; reflexivity].
      destruct (put_out _ _); [|discriminate]. cbn [obind] in ER. injection ER as _ <-. reflexivity. }
    exists (mkFctx 0 (fc_err (nth (d_next d2) (d_fc d3) fctx0)) (Some (set_visible (copy_props m d3 p)))).
    match goal with |- context [w_fhdr None ?x] => set (dx := x) end.
    assert (K : d_fc dx = upd_nth (d_fc d3) (d_next d2) (mkFctx 0 (fc_err (nth (d_next d2) (d_fc d3) fctx0)) (Some (set_visible (copy_props m d3 p)))) /\
        d_next dx = d_next d3 /\ d_cached_error dx = d_cached_error d3).
    { assert (F0 : fc_ret (nth (d_next d2) (d_fc d3) fctx0) = 0) by (rewrite F1, upd_nth_same by auto; reflexivity).
      subst dx. destruct (_ =? FT_KEY); unfold key_refresh; dsimp; rewrite F0; auto. }
    clearbody dx.
    destruct K as (K1 & K2 & K3). unfold round. dsimp. rewrite K1, F1, upd_twice by auto.
    split; [split; [reflexivity|split; [congruence|]]|].
    + intros K. destruct (F3 K) as (A & B). rewrite outs_of_app. cbn [outs_of flat_map]. rewrite app_nil_r. split; [auto|].
      rewrite <- B. unfold error_left. dsimp. rewrite K3. reflexivity.
    + split; [split; intros Y; discriminate|]. unfold made_all in *. rewrite flat_map_app, ME. cbn [flat_map app made_ev].
      destruct (Z.eqb_spec (s_n_fc s) 1) as [N1|_]; [contradiction|]. reflexivity.
  - destruct (_ =? _); [|injection E as _ <- <-; left; split; [apply QQ|]; reflexivity].
    unfold frame_complete in E. destruct (dft_drops s h'); [injection E as _ <- <-; left; split; [apply SK|]; reflexivity|].
    destruct (is_none _); [injection E as _ <- <-; left; split; [apply QQ|]; reflexivity|].
    destruct (submit_frame o s q h' m d2) as [[[r2 d3] e3]|] eqn:ES; [|discriminate]. cbn [obind] in E. right.
    destruct (submit_round _ _ _ _ _ _ _ _ _ I1 Q4 Q2 NF ES) as (g & P1 & P2 & P3).
    destruct (r2 <? 0); [injection E as _ <- <-; eauto|]. destruct (is_none _); [|discriminate]. injection E as _ <- <-.
    exists g. auto.
Qed.

(** * The queue over any number of steps *)
Definition fifo (o : oracle) (s : settings) (e : list ev) (d : dec) : Prop :=
  Forall fc_fine (d_fc d) /\
  exists out, made_all o s e = out ++ ring s d /\ ids (outs_of e) = wanted out /\
    errs e ++ error_left d = nonzero (map mk_ret out).
Lemma nonzero_app : forall a b, nonzero (a ++ b) = nonzero a ++ nonzero b.
Proof. intros. apply filter_app. Qed.
Lemma wanted_app : forall a b, wanted (a ++ b) = wanted a ++ wanted b.
Proof. intros. unfold wanted. rewrite filter_app, map_app. reflexivity. Qed.
Lemma fifo_round : forall o s d d1 e0 e g, dec_inv s d -> d_cached_error d = 0 -> fifo o s e0 d -> errs e = [] ->
  round s d d1 e g -> fc_fine g -> made_all o s e = entry s g -> fifo o s (e0 ++ e) d1.
Proof.
  intros o s d d1 e0 e g I EC (FF & out & M & O & R) ER (R1 & R2 & R3) G ME.
  pose proof (inv_next _ _ I) as HN. set (f := nth (d_next d) (d_fc d) fctx0) in *.
  assert (Ff : fc_fine f) by (apply (proj1 (Forall_forall _ _) FF); apply nth_In; auto).
  destruct (R3 Ff) as (A & B). split.
  - rewrite R1. apply upd_nth_Forall; auto.
  - exists (out ++ entry s f).
    assert (RG : ring s d = entry s f ++ flat_map (entry s) (skipn (S (d_next d)) (d_fc d) ++ firstn (d_next d) (d_fc d))).
    { unfold ring. rewrite (rot_cons _ _ _ fctx0) by auto. reflexivity. }
    assert (RG1 : ring s d1 = flat_map (entry s) (skipn (S (d_next d)) (d_fc d) ++ firstn (d_next d) (d_fc d)) ++ entry s g).
    { unfold ring. rewrite R1, R2, ring_next_after by apply (inv_fc _ _ I). rewrite rot_upd by auto.
      rewrite flat_map_app. cbn [flat_map]. rewrite app_nil_r. reflexivity. }
    split; [|split].
    + unfold made_all in *. rewrite flat_map_app, M, RG, RG1, ME, <- !app_assoc. reflexivity.
    + unfold ids in *. rewrite outs_of_app, map_app, O, A, wanted_app. reflexivity.
    + rewrite errs_app, ER, app_nil_r, map_app, nonzero_app, <- R, B. unfold error_left, nonzero at 2. rewrite EC. cbn. rewrite app_nil_r. reflexivity.
Qed.
Lemma fifo_same : forall o s d d1 e0 e, fifo o s e0 d -> no_round d d1 e -> made_all o s e = [] -> errs e = [] -> fifo o s (e0 ++ e) d1.
Proof.
  intros o s d d1 e0 e (FF & out & M & O & R) (N1 & N2 & N3 & N4) ME ER. split; [rewrite N1; auto|].
  exists out. unfold made_all, ring, error_left in *. rewrite flat_map_app, ME, app_nil_r, N1, N2, N3.
  unfold ids in *. rewrite outs_of_app, N4, app_nil_r, errs_app, ER, app_nil_r. auto.
Qed.
Lemma errs_plain : forall e, Forall plain e -> errs e = [].
Proof. intros e H. induction H as [|x e H1 H2 IH]; [auto|]. destruct x; cbn in *; try contradiction; auto. Qed.
Lemma ring_made : forall o s d d1 e, ring_take s d = Ok (d1, e) -> made_all o s e = [].
Proof.
  intros o s d d1 e ER. unfold ring_take in ER. destruct (_ <? _)%nat; [|discriminate]. destruct (negb _); [injection ER as _ <-; reflexivity|].
  destruct (fc_out _); [|injection ER as _ <-; reflexivity]. destruct (_ && _); [|injection ER as _ <-; reflexivity].
  destruct (put_out _ _); [|discriminate]. cbn [obind] in ER. injection ER as _ <-. reflexivity.
Qed.
Lemma micro_fifo : forall o s d e d1 e0, s_n_fc s <> 1 -> micro o s d e d1 -> ~ In EvFlush e -> fifo o s e0 d -> fifo o s (e0 ++ e) d1.
Proof.
  intros o s d e d1 e0 NF H NE F.
  destruct H as [d a b c|d buf m H1 H2 H3|b d d1 H1 H2|b d r p d1 H1 H2 H3 H4|d buf m r d1 e I HB HL EI EO EC X|d H|d d1 e I EO EC _ X|d].
  - apply (fifo_same o s d); auto. unfold no_round. auto.
  - apply (fifo_same o s d); auto. unfold no_round. auto.
  - apply (fifo_same o s d); auto; try (unfold cut_ev; destruct (_ && _); reflexivity).
    assert (OE : outs_of (cut_ev b d) = []) by (unfold cut_ev; destruct (_ && _); reflexivity).
    destruct (opr_ok _ _ _ _ _ H2) as ([->|(p & _ & _ & _ & ->)] & _); unfold no_round; dsimp; auto.
  - apply (fifo_same o s d); auto.
    + unfold output_image in H4. destruct (source s d); [|discriminate]. destruct (if _ || _ then _ else _). injection H4 as _ _ <-.
      assert (OE : outs_of (cut_ev b d ++ take_ev s d) = []) by (unfold cut_ev, take_ev; destruct (_ && _); destruct (source s d); reflexivity).
      destruct (one_layer s d); unfold no_round; dsimp; auto.
    + unfold cut_ev, take_ev; destruct (_ && _); destruct (source s d); reflexivity.
    + unfold cut_ev, take_ev; destruct (_ && _); destruct (source s d); reflexivity.
  - pose proof (errs_plain _ (parse_plain _ _ _ _ _ _ _ _ X)) as EE.
    change (EvParse buf m r (d_max_sid d1) :: e) with ([EvParse buf m r (d_max_sid d1)] ++ e).
    destruct (parse_round o s buf m d r d1 e I EO EC NF HB HL X) as [(N & M)|(g & R & (G & _) & M)].
    + apply (fifo_same o s d); auto.
    + apply (fifo_round o s d _ e0 _ g); auto.
  - destruct F as (FF & out & M & O & R). split; [exact FF|]. exists out.
    unfold made_all, ids in *. rewrite flat_map_app, outs_of_app, errs_app. cbn [flat_map made_ev app outs_of errs]. rewrite !app_nil_r.
    split; [exact M|]. split; [exact O|]. rewrite <- R. unfold error_left, nonzero. dsimp. cbn [filter Z.eqb negb].
    destruct (Z.eqb_spec (d_cached_error d) 0); [contradiction|]. reflexivity.
  - destruct (ring_take_fc s d d1 e I EO EC X) as (A & B & C).
    apply (fifo_round o s d d1 e0 e (mkFctx 0 (fc_err (nth (d_next d) (d_fc d) fctx0)) None)); auto.
    + apply errs_plain. exact (ring_plain _ _ _ _ X).
    + unfold round. auto.
    + intros _. reflexivity.
    + rewrite (ring_made _ _ _ _ _ X). reflexivity.
  - contradiction NE. left. reflexivity.
Qed.
Lemma steps_fifo : forall o s d e d1, s_n_fc s <> 1 -> steps o s d e d1 -> ~ In EvFlush e -> forall e0, fifo o s e0 d -> fifo o s (e0 ++ e) d1.
Proof.
  intros o s d e d1 NF H. induction H as [d|d e d1 e2 d2 H1 H2 IH]; intros NE e0 F.
  - rewrite app_nil_r. exact F.
  - rewrite app_assoc. apply IH; [intros X; apply NE, in_or_app; auto|].
    eapply micro_fifo; eauto. intros X; apply NE, in_or_app; auto.
Qed.

(** * Without frame threading *)
Lemma alloc_error : forall s h dx, d_cached_error (pic_alloc_ctx s h dx) = d_cached_error dx.
Proof. intros; unfold pic_alloc_ctx; cbv zeta; destruct (z2b _); reflexivity. Qed.
Lemma submit_one : forall o s q h m d r d1 e, s_n_fc s = 1 -> submit_frame o s q h m d = Ok (r, d1, e) ->
  ids (outs_of e) = wanted (made_all o s e) /\ d_cached_error d1 = d_cached_error d.
Proof.
  intros o s q h m d r d1 e NF E. unfold submit_frame in E. cbv zeta in E.
  destruct (Z.eqb_spec (s_n_fc s) 1) as [_|N]; [|contradiction]. cbn [obind] in E.
  assert (PA := alloc_error s).
  assert (SF : forall i m' dx, d_cached_error (submit_fail s i m' dx) = d_cached_error dx) by (intros; unfold submit_fail; destruct (_ =? 1); reflexivity).
  assert (E1 : (s_n_fc s =? 1) = true) by lia.
  revert E. destruct (_ && _ && _); [intros E; injection E as _ <- <-; rewrite SF; auto|].
  destruct (if is_inter_or_switch _ then _ else _) as [refp|]; [|intros E; injection E as _ <- <-; rewrite SF; auto].
  destruct (if _ =? PRIMARY_REF_NONE then _ else _) as [cdf|]; [|discriminate]. cbn [obind].
  destruct (d_tiles _); [discriminate|].
  destruct (_ <? 0); [intros E; injection E as _ <- <-; rewrite SF; auto|].
  destruct (_ && _); [intros E; injection E as _ <- <-; rewrite SF, PA; auto|].
  destruct (take_segmap _ _ _ _) as [[a b]|]; [|discriminate]. cbn [obind].
  fold (visible s (show_frame (f_pre h))).
  match goal with |- context [if ?v then put_out ?p ?x else _] => assert (PO : forall y, (if v then put_out p x else Ok x) = Ok y -> d_cached_error y = d_cached_error d) end.
  { intros y. destruct (visible _ _).
    - unfold put_out. destruct (is_none _); [|discriminate]. intros Y. injection Y as <-. dsimp. rewrite PA. reflexivity.
    - intros Y. injection Y as <-. rewrite PA. reflexivity. }
  destruct (if visible _ _ then put_out _ _ else _) as [dy|]; [|discriminate]. specialize (PO dy eq_refl). cbn [obind].
  match goal with |- context [o_decode o ?jj] => assert (J1 : tp_buf (new_pic s q h (d_jobs d) (tg_props t) false d) = Some (j_id jj)) by reflexivity; assert (JH : j_hdr jj = h) by reflexivity; set (j := jj) in * end.
  clearbody j. destruct (Z.ltb_spec (dr_ret (o_decode o j)) 0) as [LT|GE]; intros E; injection E as _ <- <-.
  - rewrite SF. dsimp. split; [|exact PO]. unfold wanted, made_all. cbn [flat_map made_ev app]. rewrite E1. cbn [filter mk_out].
    replace (dr_ret (o_decode o j) =? 0) with false by lia. reflexivity.
  - dsimp. split; [|exact PO]. unfold wanted, made_all, ids. cbn [flat_map made_ev]. rewrite E1, JH. cbn [filter mk_out app Z.eqb andb].
    destruct (visible _ _); cbn in *; congruence.
Qed.
Lemma parse_one : forall o s buf m d r d1 e, dec_inv s d -> d_out d = None -> s_n_fc s = 1 ->
  Forall is_byte buf -> 0 < zlen buf -> parse_obus o s buf m d = Ok (r, d1, e) ->
  ids (outs_of e) = wanted (made_all o s e) /\ d_cached_error d1 = d_cached_error d.
Proof.
  intros o s buf m d r d1 e I EO NF HB HL E. unfold parse_obus in E.
  destruct (obu_open_ok (s_strict s) buf HB HL) as (x & EX & X). rewrite EX in E. cbn [obind] in E.
  destruct x as [[[[[type ext] tid] sid] c]|]; [|injection E as _ <- <-; auto].
  destruct X as (h & start & stop & N & ST & -> & -> & -> & -> & R1 & R2 & R3 & R4 & R5 & R6 & GE & AP).
  destruct (layer_dropped _ _ _ _ _); [injection E as _ <- <-; auto|].
  assert (ZS : zlen (firstn (Z.to_nat stop) buf) = stop) by (apply zlen_firstn; lia).
  destruct (obu_switch_ok s (obu_type h) (temporal_id h) (spatial_id h) m (firstn (Z.to_nat stop) buf) start c d I AP ltac:(lia) ltac:(lia) ltac:(lia))
    as (x & X1 & X2). rewrite X1 in E. cbn [obind] in E.
  destruct (switch_inv s (obu_type h) (temporal_id h) (spatial_id h) m (firstn (Z.to_nat stop) buf) start d x I ltac:(lia) ltac:(lia) ltac:(lia) X2)
    as (_ & (_ & Q2 & _) & _ & _).
  destruct x as [d2|d2|r2 d2]; cbn [sw_dec] in *; try solve [injection E as _ <- <-; auto].
  rewrite <- Q2. clear Q2. unfold after_switch in E.
  destruct (d_seq d2) as [q|]; [|injection E as _ <- <-; auto].
  destruct (d_fhdr d2) as [h'|]; [|injection E as _ <- <-; auto].
  destruct (z2b (show_existing_frame h')).
  - unfold show_existing in E. cbv zeta in E.
    destruct (r_pic _) as [p|]; [|injection E as _ <- <-; auto].
    destruct (dft_drops_shown _ _); [injection E as _ <- <-; auto|].
    destruct (negb _); [injection E as _ <- <-; auto|].
    destruct (_ && _); [injection E as _ <- <-; auto|].
    destruct (Z.eqb_spec (s_n_fc s) 1) as [_|N1]; [|contradiction].
    unfold put_out in E. destruct (is_none _); [|discriminate]. cbn [obind] in E. injection E as _ <- <-. split.
    + unfold wanted, made_all. cbn [flat_map made_ev app]. replace (s_n_fc s =? 1) with true by lia. reflexivity.
    + destruct (_ =? FT_KEY); reflexivity.
  - destruct (_ =? _); [|injection E as _ <- <-; auto].
    unfold frame_complete in E. destruct (dft_drops s h'); [injection E as _ <- <-; auto|].
    destruct (is_none _); [injection E as _ <- <-; auto|].
    destruct (submit_frame o s q h' m d2) as [[[r2 d3] e3]|] eqn:ES; [|discriminate]. cbn [obind] in E.
    destruct (submit_one _ _ _ _ _ _ _ _ _ NF ES) as (A & B).
    destruct (r2 <? 0); [injection E as _ <- <-; auto|]. destruct (is_none _); [|discriminate]. injection E as _ <- <-. auto.
Qed.
Lemma micro_one : forall o s d e d1, s_n_fc s = 1 -> micro o s d e d1 -> d_cached_error d = 0 ->
  ids (outs_of e) = wanted (made_all o s e) /\ d_cached_error d1 = 0.
Proof.
  intros o s d e d1 NF H CE.
  destruct H as [d a b c|d buf m H1 H2 H3|b d d1 H1 H2|b d r p d1 H1 H2 H3 H4|d buf m r d1 e I HB HL EI EO EC X|d H|d d1 e I EO EC N X|d];
    try contradiction; auto.
  - split; [unfold cut_ev; destruct (_ && _); reflexivity|].
    destruct (opr_ok _ _ _ _ _ H2) as ([->|(p & _ & _ & _ & ->)] & _); auto.
  - split; [unfold cut_ev, take_ev; destruct (_ && _); destruct (source s d); reflexivity|].
    unfold output_image in H4. destruct (source s d); [|discriminate]. destruct (if _ || _ then _ else _). injection H4 as _ _ <-.
    destruct (one_layer s d); auto.
  - destruct (parse_one o s buf m d r d1 e I EO NF HB HL X) as (A & B). split; [exact A|]. dsimp. congruence.
  - split; [reflexivity|]. unfold flush. destruct (_ =? 1); reflexivity.
Qed.
Lemma steps_one_fc : forall o s d e d1, s_n_fc s = 1 -> steps o s d e d1 -> d_cached_error d = 0 ->
  ids (outs_of e) = wanted (made_all o s e) /\ d_cached_error d1 = 0.
Proof.
  intros o s d e d1 NF H. induction H as [d|d e d1 e2 d2 H1 H2 IH]; intros CE; [auto|].
  destruct (micro_one _ _ _ _ _ NF H1 CE) as (A & B). destruct (IH B) as (C & D). split; [|auto].
  unfold ids, made_all in *. rewrite outs_of_app, map_app, A, C, flat_map_app, wanted_app. reflexivity.
Qed.

(** The actions of any sequence of API calls conform to Dec/OutSpec.v. *)
From Coq Require Import ZArith List Bool Lia.
From Verif Require Import Base.CInt Base.Lemmas GetBits.Model GetBits.Spec GetBits.AtPos
  Obu.SeqModel Obu.SeqRel Obu.ObuSpec Obu.FrameModel Obu.FrameRel Obu.FrameHist
  Dec.State Dec.Submit Dec.ObuModel Dec.LibModel Dec.Front Dec.Wf Dec.Inv Dec.Meta Dec.Step Dec.SubmitProofs Dec.Parse Dec.Micro Dec.Api.
Import ListNotations.
Open Scope Z_scope.
Local Open Scope outcome_scope.

(** * Input *)
Lemma feed_all_app : forall a b u, feed_all (a ++ b) u = match feed_all a u with Some v => feed_all b v | None => None end.
Proof. induction a as [|x a IH]; intros b u; cbn [feed_all app]; [reflexivity|]. destruct (feed_ev x u); auto. Qed.
Lemma feed_plain : forall e u, Forall plain e -> feed_all e u = Some u.
Proof. intros e u H. induction H as [|x e H1 H2 IH]; [reflexivity|]. destruct x; cbn in *; try contradiction; exact IH. Qed.
Lemma feed_cut : forall b d, (cut_ev b d <> [] -> d_in d = None) -> feed_all (cut_ev b d) (d_in d) = Some (d_in d).
Proof.
  intros b d H. unfold cut_ev in *. destruct (b && is_none (d_out d)); [|reflexivity].
  rewrite H by discriminate. reflexivity.
Qed.
Lemma feed_take : forall s d u, feed_all (take_ev s d) u = Some u.
Proof. intros s d u. unfold take_ev. destruct (source s d); reflexivity. Qed.
Lemma image_in : forall o s d r p d1, output_image o s d = Ok (r, p, d1) -> d_in d1 = d_in d.
Proof.
  intros o s d r p d1 E. unfold output_image in E. destruct (source s d); [|discriminate].
  destruct (if _ || _ then _ else _). injection E as _ _ <-. destruct (one_layer s d); reflexivity.
Qed.
Lemma micro_feed : forall o s d e d1, micro o s d e d1 -> feed_all e (d_in d) = Some (d_in d1).
Proof.
  intros o s d e d1 H.
  destruct H as [d a b c|d buf m H1 H2 H3|b d d1 H1 H2|b d r p d1 H1 H2 H3 H4|d buf m r d1 e I HB HL EI EO EC X|d H|d d1 e I EO EC NF X|d].
  - reflexivity.
  - cbn. rewrite H1. reflexivity.
  - rewrite feed_cut by auto. destruct (opr_ok _ _ _ _ _ H2) as ([->|(p & _ & _ & _ & ->)] & _); reflexivity.
  - rewrite feed_all_app, feed_cut by auto. rewrite feed_take, (image_in _ _ _ _ _ _ H4). reflexivity.
  - cbn [feed_all feed_ev]. rewrite EI. destruct (list_eq_dec Z.eq_dec buf buf) as [_|N]; [|contradiction N; auto].
    destruct (Z.eq_dec m m) as [_|N]; [|contradiction N; auto].
    destruct (parse_obus_ok o s buf m d I EO HB HL) as (r1 & d2 & e1 & Y & _ & _ & RR & _). rewrite X in Y. injection Y as <- <- <-.
    dsimp. unfold rest. destruct (Z.ltb_spec r 0) as [LT|GE]; cbn [orb].
    + apply feed_plain. exact (parse_plain _ _ _ _ _ _ _ _ X).
    + replace (r =? 0) with false by lia. replace (zlen buf <? r) with false by lia. cbn [orb].
      apply feed_plain. exact (parse_plain _ _ _ _ _ _ _ _ X).
  - reflexivity.
  - rewrite feed_plain by exact (ring_plain _ _ _ _ X).
    destruct (ring_take_ok s d (inv_next _ _ I) EO) as (d2 & e1 & Y & R). rewrite X in Y. injection Y as <- <-.
    destruct R as (C & _). f_equal. symmetry. apply C.
  - cbn. unfold flush. destruct (s_n_fc s =? 1); reflexivity.
Qed.
Lemma steps_feed : forall o s d e d1, steps o s d e d1 -> feed_all e (d_in d) = Some (d_in d1).
Proof.
  intros o s d e d1 H. induction H as [d|d e d1 e2 d2 H1 H2 IH]; [reflexivity|].
  rewrite feed_all_app, (micro_feed _ _ _ _ _ H1). exact IH.
Qed.

(** * Choice among spatial layers *)
Definition top (s : settings) (d : dec) : Z := if s_all_layers s then 0 else d_max_sid d.
Lemma top_one : forall s d, one_layer s d = negb (top s d =? 0).
Proof. intros s d. unfold one_layer, top. destruct (s_all_layers s); reflexivity. Qed.
(** The choice made so far, and the picture in c->out that is still to be judged. *)
Definition seen (s : settings) (t : list tpic) (d : dec) : sel :=
  let x := mkSel (top s d) t (d_cache d) in
  match d_out d with Some p => sel_pic p x | None => x end.
Lemma sel_all_app : forall all a b x, sel_all all (a ++ b) x = sel_all all b (sel_all all a x).
Proof. intros. apply fold_left_app. Qed.
Lemma sel_plain : forall all e x, Forall plain e -> sel_all all e x = fold_left (fun x p => sel_pic p x) (outs_of e) x.
Proof.
  intros all e x H. revert x. induction H as [|v e H1 H2 IH]; intros x; [reflexivity|].
  change (v :: e) with ([v] ++ e). rewrite sel_all_app, IH. destruct v; cbn in *; try contradiction; reflexivity.
Qed.
Lemma land_pow2 : forall x k, 0 <= k -> Z.land x (2 ^ k) = if Z.testbit x k then 2 ^ k else 0.
Proof.
  intros x k Hk. apply Z.bits_inj'. intros n Hn. rewrite Z.land_spec, Z.pow2_bits_eqb by lia.
  destruct (Z.eqb_spec k n) as [->|N].
  - rewrite andb_true_r. destruct (Z.testbit x n); [rewrite Z.pow2_bits_eqb by lia; rewrite Z.eqb_refl; reflexivity|rewrite Z.bits_0; reflexivity].
  - rewrite andb_false_r. destruct (Z.testbit x k); [rewrite Z.pow2_bits_eqb by lia; symmetry; apply Z.eqb_neq; auto|rewrite Z.bits_0; reflexivity].
Qed.
Lemma new_unit_land : forall p, z2b (Z.land (tp_flags p) PF_NEW_TEMPORAL_UNIT) = new_unit p.
Proof.
  intros p. unfold new_unit, PF_NEW_TEMPORAL_UNIT. change 4 with (2 ^ 2). rewrite land_pow2 by lia.
  destruct (Z.testbit _ _); reflexivity.
Qed.
Lemma seen_out : forall s t d p, d_out d = Some p -> seen s t d =
  if one_layer s d then
    match d_cache d with
    | Some q => if (d_max_sid d =? f_spatial_id (tp_hdr q)) || z2b (Z.land (tp_flags p) PF_NEW_TEMPORAL_UNIT)
                then mkSel (top s d) (t ++ [q]) (Some p) else mkSel (top s d) t (Some p)
    | None => mkSel (top s d) t (Some p)
    end
  else mkSel (top s d) (t ++ [p]) (d_cache d).
Proof.
  intros s t d p E. unfold seen, sel_pic. rewrite E, top_one. cbn [sl_top sl_done sl_held].
  destruct (Z.eqb_spec (top s d) 0) as [T|T]; cbn [negb]; [reflexivity|].
  destruct (d_cache d) as [q|]; [|reflexivity]. rewrite new_unit_land.
  replace (top s d) with (d_max_sid d) at 1 by (unfold top in *; destruct (s_all_layers s); congruence).
  rewrite (Z.eqb_sym (d_max_sid d)). reflexivity.
Qed.
Lemma sel_cut_ev : forall all b d x, sel_all all (cut_ev b d) x = if b && is_none (d_out d) then sel_cut x else x.
Proof. intros all b d x. unfold cut_ev. destruct (_ && _); reflexivity. Qed.
Lemma sel_take_ev : forall all s d x, sel_all all (take_ev s d) x = x.
Proof. intros all s d x. unfold take_ev. destruct (source s d); reflexivity. Qed.
Lemma takes_cut : forall b d, takes (cut_ev b d) = [].
Proof. intros b d. unfold cut_ev. destruct (_ && _); reflexivity. Qed.
Lemma takes_plain : forall e, Forall plain e -> takes e = [].
Proof. intros e H. induction H as [|x e H1 H2 IH]; [auto|]. destruct x; cbn in *; try contradiction; auto. Qed.

Lemma keep_seen : forall s b d d1 t, output_picture_ready s b d = (false, d1) ->
  sel_all (s_all_layers s) (cut_ev b d) (seen s t d) = seen s t d1.
Proof.
  intros s b d d1 t E. rewrite sel_cut_ev. unfold output_picture_ready in E.
  destruct (negb _); [discriminate|].
  destruct (one_layer s d) eqn:OL.
  - destruct (d_out d) as [p|] eqn:EO; destruct (d_cache d) as [q|] eqn:EC.
    + rewrite andb_false_r. rewrite (seen_out s t d p EO), OL, EC. destruct (_ || _); [discriminate|]. injection E as <-. reflexivity.
    + rewrite andb_false_r. rewrite (seen_out s t d p EO), OL, EC. injection E as <-. reflexivity.
    + injection E as -> <-. reflexivity.
    + injection E as <-. unfold seen. rewrite EO, EC. unfold sel_cut. cbn. destruct (_ && _); [|reflexivity]. destruct (_ =? 0); reflexivity.
  - injection E as EN <-. destruct (d_out d) eqn:EO; [discriminate|].
    destruct (_ && _); [|reflexivity]. unfold sel_cut, seen. rewrite EO. cbn. rewrite top_one in OL.
    destruct (top s d =? 0); [reflexivity|discriminate].
Qed.
Lemma take_seen : forall o s b d r p d1 t, d_cached_error d = 0 -> output_picture_ready s b d = (true, d) ->
  output_image o s d = Ok (r, p, d1) ->
  sel_all (s_all_layers s) (cut_ev b d) (seen s t d) = seen s (t ++ takes (take_ev s d)) d1.
Proof.
  intros o s b d r p d1 t CE E X. rewrite sel_cut_ev. unfold output_picture_ready in E. rewrite CE in E. cbn [Z.eqb negb] in E.
  unfold output_image in X. unfold take_ev, source in *.
  destruct (one_layer s d) eqn:OL.
  - destruct (d_cache d) as [q|] eqn:EC; [|discriminate]. destruct (if _ || _ then _ else _). injection X as _ _ <-.
    destruct (d_out d) as [p'|] eqn:EO.
    + rewrite andb_false_r. rewrite (seen_out s t d p' EO), OL, EC. destruct (_ || _); [|discriminate]. reflexivity.
    + injection E as ->. cbn [andb is_none]. unfold seen, sel_cut. rewrite EO, EC. dsimp. cbn [sl_top sl_held sl_done takes flat_map app].
      rewrite top_one in OL. destruct (top s d =? 0); [discriminate|]. reflexivity.
  - destruct (d_out d) as [p'|] eqn:EO; [|discriminate]. destruct (if _ || _ then _ else _). injection X as _ _ <-.
    rewrite andb_false_r. rewrite (seen_out s t d p' EO), OL. reflexivity.
Qed.
Lemma micro_sel : forall o s d e d1 t, micro o s d e d1 -> ~ In EvFlush e ->
  sel_all (s_all_layers s) e (seen s t d) = seen s (t ++ takes e) d1.
Proof.
  intros o s d e d1 t H NF0.
  destruct H as [d a b c|d buf m H1 H2 H3|b d d1 H1 H2|b d r p d1 H1 H2 H3 H4|d buf m r d1 e I HB HL EI EO EC X|d H|d d1 e I EO EC NF X|d].
  - cbn. rewrite app_nil_r. reflexivity.
  - cbn. rewrite app_nil_r. reflexivity.
  - rewrite takes_cut, app_nil_r. apply keep_seen; auto.
  - rewrite sel_all_app, sel_take_ev, takes_app, takes_cut. eapply take_seen; eauto.
  - destruct (parse_obus_ok o s buf m d I EO HB HL) as (r1 & d2 & e1 & Y & _ & _ & _ & OO). rewrite X in Y. injection Y as <- <- <-.
    destruct (parse_keeps o s buf m d r d1 e I EO HB HL X) as (_ & _ & _ & K4).
    pose proof (parse_plain _ _ _ _ _ _ _ _ X) as PL.
    change (EvParse buf m r (d_max_sid d1) :: e) with ([EvParse buf m r (d_max_sid d1)] ++ e).
    rewrite sel_all_app, sel_plain by auto. rewrite <- OO. rewrite takes_app. cbn [takes flat_map app].
    rewrite (takes_plain e PL), app_nil_r. unfold seen at 1. rewrite EO. cbn [sel_all fold_left sel_ev sl_done sl_held].
    unfold seen. dsimp. rewrite K4. unfold top. dsimp. destruct (d_out d1); reflexivity.
  - cbn. rewrite app_nil_r. reflexivity.
  - pose proof (ring_plain _ _ _ _ X) as PL.
    destruct (ring_or_not s d I EO) as (d2 & e1 & Y & _ & C & _ & OO & _).
    destruct (Z.eqb_spec (s_n_fc s) 1) as [N|N]; [contradiction|]. rewrite X in Y. injection Y as <- <-.
    rewrite sel_plain by auto. rewrite <- OO, takes_plain, app_nil_r by auto.
    assert (CC : d_cache d1 = d_cache d) by apply C. assert (CM : d_max_sid d1 = d_max_sid d) by apply C.
    unfold seen, top. rewrite EO, CC, CM. destruct (d_out d1); reflexivity.
  - contradiction NF0. left. reflexivity.
Qed.
Lemma steps_sel : forall o s d e d1, steps o s d e d1 -> ~ In EvFlush e -> forall t,
  sel_all (s_all_layers s) e (seen s t d) = seen s (t ++ takes e) d1.
Proof.
  intros o s d e d1 H. induction H as [d|d e d1 e2 d2 H1 H2 IH]; intros NF t.
  - cbn. rewrite app_nil_r. reflexivity.
  - rewrite sel_all_app, (micro_sel _ _ _ _ _ t H1), IH, takes_app, app_assoc; auto; intros X; apply NF; apply in_or_app; auto.
Qed.

(** dav1d_parse_obus as a whole: it is defined on every packet, keeps the
    invariant, consumes at least a byte or fails, and its effect. *)
From Coq Require Import ZArith List Bool Lia.
From Verif Require Import Base.CInt Base.Lemmas GetBits.Model GetBits.Spec GetBits.AtPos
  Obu.SeqModel Obu.SeqRel Obu.ObuSpec Obu.FrameModel Obu.FrameRel Obu.FrameHist
  Dec.State Dec.Submit Dec.ObuModel Dec.Front Dec.Wf Dec.Inv Dec.Meta Dec.Step Dec.SubmitProofs.
Import ListNotations.
Open Scope Z_scope.
Local Open Scope outcome_scope.

(** * Showing an existing frame *)
Definition show_eff (s : settings) (n : Z) (q : seq_hdr) (h : frame_hdr) (m : props) (d : dec) (r : Z) (d' : dec) (e : list ev) : Prop :=
  let i := existing_frame_idx h in
  0 <= i <= 7 /\
  ((r = EINVAL_ /\ d' = w_err_props m d /\ e = [] /\
    (r_pic (slot_at d i) = None \/
     exists p, r_pic (slot_at d i) = Some p /\ dft_drops_shown s (frame_type (f_pre (tp_hdr p))) = false /\
       (has_data p = false \/ s_strict s = true /\ z2b (tp_showable p) = false))) \/
   exists p, r_pic (slot_at d i) = Some p /\ r = n /\ d_fhdr d' = None /\ d_jobs d' = d_jobs d /\
     ((dft_drops_shown s (frame_type (f_pre (tp_hdr p))) = true /\ e = [EvSkip h] /\ d_refs d' = d_refs d /\ d_fc d' = d_fc d) \/
      (dft_drops_shown s (frame_type (f_pre (tp_hdr p))) = false /\ has_data p = true /\
       (s_strict s = true -> z2b (tp_showable p) = true) /\
       d_itut d' = [] /\ d_tiles d' = d_tiles d /\ d_n_tiles d' = d_n_tiles d /\
       d_refs d' = (if frame_type (f_pre (tp_hdr p)) =? FT_KEY then d_refs (key_refresh i p d) else d_refs d) /\
       exists x, tp_buf x = tp_buf p /\ tp_hdr x = tp_hdr p /\ tp_seq x = tp_seq p /\ tp_props x = m /\
         tp_cll x = d_cll d /\ tp_mdcv x = d_mdcv d /\ tp_itut x = d_itut d /\
         (s_n_fc s = 1 /\ e = [EvShow i p; EvOut x] /\ tp_visible x = tp_visible p \/
          s_n_fc s <> 1 /\ tp_visible x = 1 /\
            (exists f, nth (d_next d) (d_fc d') fctx0 = f /\ fc_ret f = 0 /\ fc_out f = Some x) /\
            exists e0, e = e0 ++ [EvShow i p] /\ outs e0)))).

Definition complete_eff (o : oracle) (s : settings) (n : Z) (q : seq_hdr) (h : frame_hdr) (m : props) (d : dec)
  (r : Z) (d' : dec) (e : list ev) : Prop :=
  (dft_drops s h = true /\ r = n /\ d' = skip_frame q h d /\ e = [EvSkip h]) \/
  (dft_drops s h = false /\ exists r0 d2, submit_frame o s q h m d = Ok (r0, d2, e) /\ submit_eff o s q h d r0 d2 e /\
     (r0 < 0 /\ r = r0 /\ d' = d2 \/ r0 = 0 /\ r = n /\ d' = w_n_tiles 0 (w_fhdr None d2))).

Definition after_eff (o : oracle) (s : settings) (n : Z) (m : props) (d : dec) (r : Z) (d' : dec) (e : list ev) : Prop :=
  (r = n /\ d' = d /\ e = [] /\
   (d_seq d = None \/ d_fhdr d = None \/
    exists h, d_fhdr d = Some h /\ show_existing_frame h = 0 /\ d_n_tiles d <> t_cols (f_tiling h) * t_rows (f_tiling h))) \/
  (exists q h, d_seq d = Some q /\ d_fhdr d = Some h /\ show_existing_frame h = 1 /\ show_eff s n q h m d r d' e) \/
  (exists q h, d_seq d = Some q /\ d_fhdr d = Some h /\ show_existing_frame h = 0 /\
     d_n_tiles d = t_cols (f_tiling h) * t_rows (f_tiling h) /\ complete_eff o s n q h m d r d' e).

Definition step_eff (o : oracle) (s : settings) (buf : list Z) (m : props) (d : dec) (r : Z) (d' : dec) (e : list ev) : Prop :=
  (r = EINVAL_ /\ d' = w_err_props m d /\ e = [] /\
   (next_obu buf 0 = None \/ s_strict s && (stream_bit buf (zlen buf) 0 =? 1) = true)) \/
  exists h start stop, next_obu buf 0 = Some (h, start, stop) /\
    s_strict s && (stream_bit buf (zlen buf) 0 =? 1) = false /\ 1 <= start <= stop /\ stop <= zlen buf /\
    let type := obu_type h in let ext := obu_extension_flag h in
    let tid := temporal_id h in let sid := spatial_id h in
    (layer_dropped (d_idc d) type ext tid sid = true /\ r = stop /\ d' = d /\ e = []) \/
    (layer_dropped (d_idc d) type ext tid sid = false /\
     exists x, switch_eff s type tid sid m (firstn (Z.to_nat stop) buf) start d x /\
       match x with
       | SwErr d1 => r = EINVAL_ /\ d' = w_err_props m d1 /\ e = []
       | SwRet r1 d1 => r = r1 /\ d' = d1 /\ e = []
       | SwGo d1 => after_eff o s stop m d1 r d' e
       end).

(** * Proofs *)
Lemma inv_err_props : forall s m d, dec_inv s d -> dec_inv s (w_err_props m d).
Proof.
  intros s m d I. destruct I as [I1 I2 I3 I4 I5 I6 I7 I8 I9]. constructor; dsimp; auto.
Qed.
Lemma skip_inv : forall s q h d, dec_inv s d -> d_seq d = Some q -> d_fhdr d = Some h ->
  show_existing_frame h = 0 \/ refresh_frame_flags (f_refs h) = 0 -> dec_inv s (skip_frame q h d).
Proof.
  intros s q h d I ES EH HS. unfold skip_frame. destruct (inv_parts _ _ I) as (D1 & D2).
  apply (inv_idle s d _ I); dsimp; auto.
  - rewrite refresh_slots_length. apply (inv_refs _ _ I).
  - destruct HS as [HS|HS].
    + unfold slot_hdrs. dsimp. rewrite (refresh_slots_hdrs _ (Some h)) by reflexivity.
      apply (pending_facts s q h d); auto.
    + unfold slot_hdrs. dsimp. rewrite HS. rewrite (refresh_slots_hdrs _ (Some h)) by reflexivity.
      replace (refresh (Z.of_nat 0) 0 (Some h) (map slot_hdr (d_refs d))) with (map slot_hdr (d_refs d)); [apply (inv_hist _ _ I)|].
      generalize (Z.of_nat 0) (map slot_hdr (d_refs d)). clear. intros z l. revert z.
      induction l; intros z; cbn [refresh]; [auto|]. rewrite Z.testbit_0_l. rewrite <- IHl. reflexivity.
  - apply refresh_slots_Forall; [apply (inv_slots _ _ I)|]. intros a _ p X. injection X as <-. discriminate.
Qed.
Lemma refresh_slots_none : forall x l i, refresh_slots i 0 x l = l.
Proof. induction l; intros i; cbn [refresh_slots]; [auto|]. rewrite Z.testbit_0_l, IHl. reflexivity. Qed.

Lemma eight : forall A (l : list A), length l = 8%nat -> exists a b c d e f g h, l = [a; b; c; d; e; f; g; h].
Proof.
  intros A l H. do 8 (destruct l as [|? l]; [discriminate|]). destruct l; [|discriminate]. eauto 12.
Qed.
Lemma key_refresh_hdrs : forall i p d, length (d_refs d) = 8%nat -> 0 <= i <= 7 -> r_pic (slot_at d i) = Some p ->
  slot_hdrs (key_refresh i p d) = refresh 0 255 (nth (Z.to_nat i) (slot_hdrs d) None) (slot_hdrs d).
Proof.
  intros i p d L Hi HP.
  assert (N : nth (Z.to_nat i) (slot_hdrs d) None = Some (tp_hdr p)).
  { unfold slot_hdrs. change None with (slot_hdr slot0). rewrite map_nth. fold (slot_at d i). unfold slot_hdr. rewrite HP. reflexivity. }
  rewrite N. unfold slot_hdrs, key_refresh. dsimp. generalize (slot_at d i). intros sl.
  destruct (eight _ _ L) as (a & b & c & e & f & g & h & k & ->). cbn [map refresh].
  assert (C : i = 0 \/ i = 1 \/ i = 2 \/ i = 3 \/ i = 4 \/ i = 5 \/ i = 6 \/ i = 7) by lia.
  repeat (destruct C as [C|C]; [rewrite C; reflexivity|]). rewrite C; reflexivity.
Qed.
Lemma key_refresh_slots : forall i p d k, length (d_refs d) = 8%nat -> 0 <= i <= 7 -> 0 <= k <= 7 ->
  slot_at (key_refresh i p d) k = mkSlot (Some (unshowable p)) (r_cdf (slot_at d i)) (r_segmap (slot_at d i))
    (if k =? i then r_refmvs (slot_at d i) else None).
Proof.
  intros i p d k L Hi Hk. unfold slot_at at 1, key_refresh. dsimp. generalize (slot_at d i). intros sl.
  destruct (Z.eqb_spec k i) as [->|N].
  - apply upd_nth_same. rewrite map_length. lia.
  - rewrite upd_nth_other; [|rewrite map_length; lia|lia].
    set (g := fun _ : slot => mkSlot (Some (unshowable p)) (r_cdf sl) (r_segmap sl) None).
    rewrite (nth_indep _ slot0 (g slot0)) by (rewrite map_length; lia). rewrite map_nth. reflexivity.
Qed.
Lemma key_refresh_inv : forall s i p d, dec_inv s d -> 0 <= i <= 7 -> r_pic (slot_at d i) = Some p -> has_data p = true ->
  reachable (slot_hdrs (key_refresh i p d)) /\ Forall slot_good (d_refs (key_refresh i p d)) /\
  length (d_refs (key_refresh i p d)) = 8%nat.
Proof.
  intros s i p d I Hi HP HD. pose proof (inv_refs _ _ I) as L. split; [|split].
  - rewrite key_refresh_hdrs by auto. apply reachable_copy, (inv_hist _ _ I).
  - assert (G : r_cdf (slot_at d i) <> None).
    { apply (proj1 (Forall_forall _ _) (inv_slots _ _ I) (slot_at d i)) with p; auto. apply slot_at_nth; auto. }
    unfold key_refresh. dsimp. apply upd_nth_Forall.
    + apply Forall_forall. intros x Hx. apply in_map_iff in Hx. destruct Hx as (y & <- & _). intros p' _ _. exact G.
    + intros p' _ _. exact G.
  - unfold key_refresh. dsimp. rewrite upd_nth_length; rewrite map_length; auto. lia.
Qed.

Section Parse.
Variables (o : oracle) (s : settings).

Lemma show_hdr : forall d q h, dec_inv s d -> d_seq d = Some q -> d_fhdr d = Some h -> show_existing_frame h = 0 \/
  (show_existing_frame h = 1 /\ 0 <= existing_frame_idx h <= 7 /\ refresh_frame_flags (f_refs h) = 0).
Proof.
  intros d q h I ES EH. destruct (inv_hdr _ _ I h EH) as (q0 & _ & Q & _).
  destruct (parsed_facts _ _ _ _ Q (inv_hist _ _ I)) as [(a & b & i & x & y & -> & Hi)|(X & _)]; auto.
Qed.

Theorem show_ok : forall n q h m d, dec_inv s d -> d_seq d = Some q -> d_fhdr d = Some h -> show_existing_frame h = 1 ->
  d_out d = None -> 1 <= n ->
  exists r d' e, show_existing s n q h m d = Ok (r, d', e) /\ dec_inv s d' /\ show_eff s n q h m d r d' e /\
    (r < 0 \/ r = n) /\ opt_list (d_out d') = outs_of e.
Proof.
  intros n q h m d I ES EH S1 EO Hn.
  destruct (show_hdr d q h I ES EH) as [S0|(_ & Hi & RF)]; [lia|].
  unfold show_existing, show_eff. cbv zeta. set (i := existing_frame_idx h) in *.
  assert (ERR : forall P : Prop, P -> exists r d' e, obu_error m d [] = Ok (r, d', e) /\ dec_inv s d' /\
     r = EINVAL_ /\ d' = w_err_props m d /\ e = [] /\ P /\ (r < 0 \/ r = n) /\ opt_list (d_out d') = outs_of e).
  { intros P HP. eexists; eexists; eexists. split; [reflexivity|]. split; [apply inv_err_props; auto|].
    split; [auto|]. split; [auto|]. split; [auto|]. split; [auto|]. split; [left; reflexivity|]. dsimp. rewrite EO. reflexivity. }
  destruct (r_pic (slot_at d i)) as [p|] eqn:EP.
  2:{ destruct (ERR True Logic.I) as (r & d' & e & X1 & X2 & X3 & X4 & X5 & _ & X6 & X7).
      exists r, d', e. split; [auto|]. split; [auto|]. split; [|auto]. split; [auto|]. left. auto. }
  destruct (dft_drops_shown s (frame_type (f_pre (tp_hdr p)))) eqn:ED.
  { eexists; eexists; eexists. split; [reflexivity|]. split; [apply skip_inv; auto|]. split; [|split; [auto|]].
    - split; [auto|]. right. exists p. split; [auto|]. split; [auto|]. split; [reflexivity|]. split; [reflexivity|]. left. split; [auto|]. split; [auto|].
      unfold skip_frame. dsimp. rewrite RF, refresh_slots_none. auto.
    - unfold skip_frame. dsimp. rewrite EO. reflexivity. }
  destruct (has_data p) eqn:EDt; cbn [negb].
  2:{ destruct (ERR True Logic.I) as (r & d' & e & X1 & X2 & X3 & X4 & X5 & _ & X6 & X7).
      exists r, d', e. split; [auto|]. split; [auto|]. split; [|auto]. split; [auto|]. left. repeat (split; [solve [auto]|]). right. eauto. }
  destruct (s_strict s && negb (z2b (tp_showable p))) eqn:EV.
  { destruct (ERR True Logic.I) as (r & d' & e & X1 & X2 & X3 & X4 & X5 & _ & X6 & X7).
    exists r, d', e. split; [auto|]. split; [auto|]. split; [|auto]. split; [auto|]. left. repeat (split; [solve [auto]|]). right.
    apply andb_true_iff in EV. rewrite negb_true_iff in EV. eauto. }
  assert (SV : s_strict s = true -> z2b (tp_showable p) = true).
  { intros X. rewrite X in EV. apply negb_false_iff in EV. exact EV. }
  destruct (key_refresh_inv s i p d I Hi EP EDt) as (K1 & K2 & K3).
  destruct (inv_parts _ _ I) as (D1 & D2).
  (* the state after showing *)
  assert (FIN : forall dx, dec_inv s dx -> d_refs dx = d_refs d -> d_seq dx = d_seq d ->
    let d' := w_fhdr None (if frame_type (f_pre (tp_hdr p)) =? FT_KEY then key_refresh i p (w_itut [] dx) else w_itut [] dx) in
    dec_inv s d' /\ d_refs d' = (if frame_type (f_pre (tp_hdr p)) =? FT_KEY then d_refs (key_refresh i p d) else d_refs d) /\
    d_fhdr d' = None /\ d_itut d' = [] /\ d_tiles d' = d_tiles dx /\ d_n_tiles d' = d_n_tiles dx /\ d_fc d' = d_fc dx /\ d_out d' = d_out dx /\ d_jobs d' = d_jobs dx).
  { intros dx Ix X1 X2. cbv zeta. destruct (inv_parts _ _ Ix) as (Y1 & Y2).
    assert (KR : d_refs (key_refresh i p (w_itut [] dx)) = d_refs (key_refresh i p d)).
    { unfold key_refresh, slot_at. dsimp. rewrite X1. reflexivity. }
    destruct (frame_type (f_pre (tp_hdr p)) =? FT_KEY).
    - split; [|split; [exact KR|repeat (apply conj); reflexivity]].
      apply (inv_idle s dx _ Ix); auto.
      + change (length (d_refs (key_refresh i p (w_itut [] dx))) = 8%nat). rewrite KR. exact K3.
      + unfold slot_hdrs in *. change (reachable (map slot_hdr (d_refs (key_refresh i p (w_itut [] dx))))). rewrite KR. exact K1.
      + change (Forall slot_good (d_refs (key_refresh i p (w_itut [] dx)))). rewrite KR. exact K2.
    - split; [|split; [exact X1|repeat (apply conj); reflexivity]].
      apply (inv_idle s dx _ Ix); auto; try apply (inv_refs _ _ Ix); try apply (inv_hist _ _ Ix); apply (inv_slots _ _ Ix). }
  destruct (Z.eqb_spec (s_n_fc s) 1) as [F1|F1].
  - unfold put_out. rewrite EO. cbn [is_none obind].
    set (x := copy_props m d p). set (dx := w_event_flags _ _).
    assert (Ix : dec_inv s dx).
    { subst dx. destruct I as [I1 I2 I3 I4 I5 I6 I7 I8 I9]. constructor; dsimp; auto.
      apply all_data_parts in I9. destruct I9 as (Z1 & Z2 & Z3). apply all_data_parts. dsimp. split; auto. intros p' X. injection X as <-. exact EDt. }
    destruct (FIN dx Ix eq_refl eq_refl) as (N1 & N2 & N3 & N4 & N5 & N6 & N7 & N8 & N9). cbv zeta in N1, N2, N3, N4, N5, N6, N7, N8, N9.
    eexists; eexists; eexists. split; [reflexivity|]. split; [exact N1|]. split.
    + split; [auto|]. right. exists p. split; [auto|]. split; [auto|]. split; [exact N3|]. split; [exact N9|]. right.
      repeat (split; [solve [auto]|]). exists x. repeat (split; [reflexivity|]). left. auto.
    + split; [auto|]. rewrite N8. reflexivity.
  - destruct (ring_take_ok s d (inv_next _ _ I) EO) as (d1 & e & X & R). pose proof (ring_inv _ _ _ _ I R) as I1.
    rewrite X. cbn [obind]. unfold ring_eff in R. cbv zeta in R. destruct R as (C & N & L & K & F & D).
    assert (OO : outs e /\ opt_list (d_out d1) = outs_of e).
    { rewrite EO in D. destruct D as [(_ & -> & -> & _)|(_ & _ & _ & D)]; [split; [constructor|reflexivity]|].
      destruct (fc_out _) as [p'|]; [match type of D with context [if ?b then _ else _] => destruct b end|]; destruct D as (-> & -> & _);
        (split; [repeat constructor|reflexivity]). }
    destruct OO as (O1 & O2).
    assert (CM : copy_props m d1 p = copy_props m d p).
    { unfold copy_props. replace (d_cll d1) with (d_cll d) by (symmetry; apply C).
      replace (d_mdcv d1) with (d_mdcv d) by (symmetry; apply C). replace (d_itut d1) with (d_itut d) by (symmetry; apply C). reflexivity. }
    rewrite CM. set (x := set_visible (copy_props m d p)). rewrite F. cbn [fc_ret fc_err].
    set (dx := w_fc _ d1).
    assert (NL : (d_next d < length (d_fc d1))%nat) by (rewrite L; apply (inv_next _ _ I)).
    assert (Ix : dec_inv s dx).
    { subst dx. destruct I1 as [J1 J2 J3 J4 J5 J6 J7 J8 J9]. constructor; dsimp; auto.
      - rewrite upd_nth_length; auto.
      - rewrite upd_nth_length; auto.
      - apply all_data_parts in J9. destruct J9 as (Z1 & Z2 & Z3). apply all_data_parts. dsimp. split; [auto|]. split; [auto|].
        apply upd_nth_Forall; auto. intros p' Y. injection Y as <-. exact EDt. }
    assert (R1 : d_refs dx = d_refs d) by (subst dx; dsimp; apply C).
    assert (R2 : d_seq dx = d_seq d) by (subst dx; dsimp; apply C).
    destruct (FIN dx Ix R1 R2) as (N1 & N2 & N3 & N4 & N5 & N6 & N7 & N8 & N9). cbv zeta in N1, N2, N3, N4, N5, N6, N7, N8, N9.
    eexists; eexists; eexists. split; [reflexivity|]. split; [exact N1|]. split.
    + split; [auto|]. right. exists p. split; [auto|]. split; [auto|]. split; [exact N3|].
      split; [etransitivity; [exact N9|subst dx; dsimp; apply C]|]. right.
      split; [auto|]. split; [auto|]. split; [auto|]. split; [exact N4|].
      split; [etransitivity; [exact N5|subst dx; dsimp; apply C]|].
      split; [etransitivity; [exact N6|subst dx; dsimp; apply C]|]. split; [exact N2|].
      exists x. repeat (split; [reflexivity|]). right. split; [auto|]. split; [reflexivity|]. split; [|eauto].
      eexists. split; [reflexivity|]. rewrite N7. subst dx. dsimp. rewrite upd_nth_same by auto. auto.
    + split; [auto|]. rewrite N8. subst dx. dsimp. rewrite outs_of_app, O2. symmetry. apply app_nil_r.
Qed.

Theorem complete_ok : forall n q h m d, dec_inv s d -> d_seq d = Some q -> d_fhdr d = Some h -> show_existing_frame h = 0 ->
  d_n_tiles d = t_cols (f_tiling h) * t_rows (f_tiling h) -> d_out d = None -> 1 <= n ->
  exists r d' e, frame_complete o s n q h m d = Ok (r, d', e) /\ dec_inv s d' /\ complete_eff o s n q h m d r d' e /\
    (r < 0 \/ r = n) /\ opt_list (d_out d') = outs_of e.
Proof.
  intros n q h m d I ES EH S0 EN EO Hn. unfold frame_complete, complete_eff.
  destruct (dft_drops s h) eqn:ED.
  { eexists; eexists; eexists. split; [reflexivity|]. split; [apply skip_inv; auto|]. split; [left; auto|].
    split; [auto|]. unfold skip_frame. dsimp. rewrite EO. reflexivity. }
  destruct (pending_facts s q h d I ES EH S0) as (W & _ & _ & CH & _).
  assert (ET : d_tiles d <> []).
  { intros X. rewrite X in CH. cbn [chain] in CH. rewrite EN in CH.
    destruct W as (_ & _ & _ & T & _). destruct T as (_ & _ & _ & _ & T1 & T2 & _). nia. }
  assert (HE : is_none (hd_error (d_tiles d)) = false) by (destruct (d_tiles d); [contradiction|reflexivity]). rewrite HE.
  destruct (submit_ok o s q h m d I ES EH S0 ET EO) as (r & d2 & e & X & I2 & F2 & S2 & RT & O2 & _ & _ & _ & _ & _ & EF).
  rewrite X. cbn [obind]. destruct (Z.ltb_spec r 0) as [LT|GE].
  - eexists; eexists; eexists. split; [reflexivity|]. split; [auto|]. split; [|auto]. right. split; auto. exists r, d2. split; [auto|]. split; [auto|]. left. auto.
  - destruct RT as [RT|(-> & RT)]; [lia|]. rewrite RT. cbn [hd_error is_none].
    eexists; eexists; eexists. split; [reflexivity|]. split; [|split; [|auto]].
    + apply (inv_quiet s d2 _ I2); [quiet_tac|reflexivity|apply (inv_seq _ _ I2)|dsimp; discriminate].
    + right. split; auto. exists 0, d2. split; [auto|]. split; [auto|]. right. auto.
Qed.

Theorem after_ok : forall n m d, dec_inv s d -> d_out d = None -> 1 <= n ->
  exists r d' e, after_switch o s n m d = Ok (r, d', e) /\ dec_inv s d' /\ after_eff o s n m d r d' e /\
    (r < 0 \/ r = n) /\ opt_list (d_out d') = outs_of e.
Proof.
  intros n m d I EO Hn. unfold after_switch, after_eff.
  assert (ID : forall P : Prop, P -> exists r d' e, Ok (n, d, []) = Ok (r, d', e) /\ dec_inv s d' /\ (r = n /\ d' = d /\ e = @nil ev /\ P) /\
     (r < 0 \/ r = n) /\ opt_list (d_out d') = outs_of e).
  { intros P HP. eexists; eexists; eexists. split; [reflexivity|]. split; [auto|]. split; [auto|]. split; [auto|]. rewrite EO. reflexivity. }
  destruct (d_seq d) as [q|] eqn:ES.
  2:{ destruct (ID True Logic.I) as (r & d' & e & X1 & X2 & (X3 & X4 & X5 & _) & X6). exists r, d', e. split; [auto|]. split; [auto|]. split; [left; auto 10|auto]. }
  destruct (d_fhdr d) as [h|] eqn:EH.
  2:{ destruct (ID True Logic.I) as (r & d' & e & X1 & X2 & (X3 & X4 & X5 & _) & X6). exists r, d', e. split; [auto|]. split; [auto|]. split; [left; auto 10|auto]. }
  destruct (show_hdr d q h I ES EH) as [S0|(S1 & _)].
  - rewrite S0. cbn [z2b Z.eqb negb]. destruct (Z.eqb_spec (d_n_tiles d) (t_cols (f_tiling h) * t_rows (f_tiling h))) as [EN|NN].
    + destruct (complete_ok n q h m d I ES EH S0 EN EO Hn) as (r & d' & e & X1 & X2 & X3 & X4). exists r, d', e.
      split; [auto|]. split; [auto|]. split; [|auto]. right; right. exists q, h. auto 10.
    + destruct (ID True Logic.I) as (r & d' & e & X1 & X2 & (X3 & X4 & X5 & _) & X6). exists r, d', e.
      split; [auto|]. split; [auto|]. split; [|auto]. left. repeat (split; [solve [auto]|]). right; right. exists h. auto.
  - rewrite S1. cbn [z2b Z.eqb negb]. destruct (show_ok n q h m d I ES EH S1 EO Hn) as (r & d' & e & X1 & X2 & X3 & X4). exists r, d', e.
    split; [auto|]. split; [auto|]. split; [|auto]. right; left. exists q, h. auto 10.
Qed.

Theorem parse_obus_ok : forall buf m d, dec_inv s d -> d_out d = None -> Forall is_byte buf -> 0 < zlen buf ->
  exists r d' e, parse_obus o s buf m d = Ok (r, d', e) /\ dec_inv s d' /\ step_eff o s buf m d r d' e /\
    (r < 0 \/ 1 <= r <= zlen buf) /\ opt_list (d_out d') = outs_of e.
Proof.
  intros buf m d I EO HB HL. unfold parse_obus, step_eff.
  destruct (obu_open_ok (s_strict s) buf HB HL) as (x & -> & X). cbn [obind].
  destruct x as [[[[[type ext] tid] sid] c]|].
  2:{ eexists; eexists; eexists. split; [reflexivity|]. split; [apply inv_err_props; auto|]. split; [left; auto|].
      split; [left; reflexivity|]. dsimp. rewrite EO. reflexivity. }
  destruct X as (h & start & stop & N & ST & -> & -> & -> & -> & R1 & R2 & R3 & R4 & R5 & R6 & GE & AP).
  destruct (layer_dropped (d_idc d) (obu_type h) (obu_extension_flag h) (temporal_id h) (spatial_id h)) eqn:LD.
  { eexists; eexists; eexists. split; [reflexivity|]. split; [auto|]. split; [|split; [lia|rewrite EO; reflexivity]].
    right. exists h, start, stop. repeat (split; [solve [auto]|]). left. auto. }
  assert (ZS : zlen (firstn (Z.to_nat stop) buf) = stop) by (apply zlen_firstn; lia).
  destruct (obu_switch_ok s (obu_type h) (temporal_id h) (spatial_id h) m (firstn (Z.to_nat stop) buf) start c d I AP ltac:(lia) ltac:(lia) ltac:(lia))
    as (x & X1 & X2). rewrite X1. cbn [obind].
  destruct (switch_inv s (obu_type h) (temporal_id h) (spatial_id h) m (firstn (Z.to_nat stop) buf) start d x I ltac:(lia) ltac:(lia) ltac:(lia) X2)
    as (I1 & Q & _ & RT).
  assert (O1 : d_out (sw_dec x) = None) by (rewrite <- EO; apply Q).
  assert (K : forall P : Z -> dec -> list ev -> Prop,
    (exists r d' e, match x with
       | SwErr d1 => r = EINVAL_ /\ d' = w_err_props m d1 /\ e = []
       | SwRet r1 d1 => r = r1 /\ d' = d1 /\ e = []
       | SwGo d1 => after_eff o s stop m d1 r d' e end /\ P r d' e) ->
    exists r d' e, P r d' e /\
    ((r = EINVAL_ /\ d' = w_err_props m d /\ e = [] /\
   (next_obu buf 0 = None \/ s_strict s && (stream_bit buf (zlen buf) 0 =? 1) = true)) \/
  exists h start stop, next_obu buf 0 = Some (h, start, stop) /\
    s_strict s && (stream_bit buf (zlen buf) 0 =? 1) = false /\ 1 <= start <= stop /\ stop <= zlen buf /\
    let type := obu_type h in let ext := obu_extension_flag h in
    let tid := temporal_id h in let sid := spatial_id h in
    (layer_dropped (d_idc d) type ext tid sid = true /\ r = stop /\ d' = d /\ e = []) \/
    (layer_dropped (d_idc d) type ext tid sid = false /\
     exists x, switch_eff s type tid sid m (firstn (Z.to_nat stop) buf) start d x /\
       match x with
       | SwErr d1 => r = EINVAL_ /\ d' = w_err_props m d1 /\ e = []
       | SwRet r1 d1 => r = r1 /\ d' = d1 /\ e = []
       | SwGo d1 => after_eff o s stop m d1 r d' e
       end))).
  { intros P (r & d' & e & Y1 & Y2). exists r, d', e. split; auto. right. exists h, start, stop.
    split; [auto|]. split; [auto|]. split; [auto|]. split; [auto|]. right. split; [auto|]. exists x. auto. }
  destruct (K (fun r d' e => match x with
    | SwErr d => obu_error m d [] | SwRet r d => Ok (r, d, []) | SwGo d => after_switch o s (gb_end c) m d end = Ok (r, d', e) /\
    dec_inv s d' /\ (r < 0 \/ 1 <= r <= zlen buf) /\ opt_list (d_out d') = outs_of e)) as (r & d' & e & (Y1 & Y2 & Y3 & Y4) & Y5).
  - destruct x as [d1|d1|r1 d1]; cbn [sw_dec] in *.
    + rewrite GE. destruct (after_ok stop m d1 I1 O1 ltac:(lia)) as (r & d' & e & Z1 & Z2 & Z3 & Z4 & Z5).
      exists r, d', e. split; [auto|]. split; [auto|]. split; [auto|]. split; [lia|auto].
    + eexists; eexists; eexists. split; [auto|]. split; [reflexivity|]. split; [apply inv_err_props; auto|].
      split; [left; reflexivity|]. dsimp. rewrite O1. reflexivity.
    + eexists; eexists; eexists. split; [auto|]. split; [reflexivity|]. split; [auto|].
      split; [left; rewrite (RT _ _ eq_refl); reflexivity|]. rewrite O1. reflexivity.
  - exists r, d', e. auto 10.
Qed.
End Parse.

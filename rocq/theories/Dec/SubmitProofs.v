(** dav1d_submit_frame is defined on every pending frame, keeps the invariant, and
    what it hands to the decoder and does to the slots. *)
From Coq Require Import ZArith List Bool Lia.
From Verif Require Import Base.CInt Base.Lemmas GetBits.Model GetBits.AtPos
  Obu.SeqModel Obu.SeqRel Obu.FrameModel Obu.FrameRel Obu.FrameHist
  Dec.State Dec.Submit Dec.ObuModel Dec.Front Dec.Wf Dec.Inv Dec.Step.
From Verif Require Export Dec.OutSpec.
Import ListNotations.
Open Scope Z_scope.
Local Open Scope outcome_scope.

(** * Slots *)
Lemma refresh_slots_length : forall x m l i, length (refresh_slots i m x l) = length l.
Proof. induction l; intros; cbn; auto. Qed.
Lemma refresh_slots_nth : forall x m l i k, (k < length l)%nat ->
  nth k (refresh_slots i m x l) slot0 = if Z.testbit m (Z.of_nat (i + k)) then x (nth k l slot0) else nth k l slot0.
Proof.
  induction l as [|a l IH]; intros i k H; cbn in H; [lia|]. destruct k as [|k]; cbn [refresh_slots nth].
  - rewrite Nat.add_0_r. destruct (Z.testbit _ _); reflexivity.
  - rewrite IH by lia. replace (S i + k)%nat with (i + S k)%nat by lia. reflexivity.
Qed.
Lemma refresh_slots_hdrs : forall x v m l i, (forall a, slot_hdr (x a) = v) ->
  map slot_hdr (refresh_slots i m x l) = refresh (Z.of_nat i) m v (map slot_hdr l).
Proof.
  induction l as [|a l IH]; intros i H; cbn [refresh_slots map refresh]; [reflexivity|].
  rewrite IH by auto. replace (Z.of_nat (S i)) with (Z.of_nat i + 1) by lia. f_equal.
  destruct (Z.testbit _ _); auto.
Qed.
Lemma refresh_slots_Forall : forall (P : slot -> Prop) x m l i, Forall P l -> (forall a, P a -> P (x a)) ->
  Forall P (refresh_slots i m x l).
Proof.
  intros P x m l i H Hx. revert i. induction H; intros i; cbn [refresh_slots]; constructor; auto.
  destruct (Z.testbit _ _); auto.
Qed.
Lemma slot_at_nth : forall d i, length (d_refs d) = 8%nat -> 0 <= i <= 7 -> In (slot_at d i) (d_refs d).
Proof. intros d i L H. unfold slot_at. apply nth_In. lia. Qed.

(** A state without pending header. *)
Lemma inv_idle : forall s d d1, dec_inv s d -> d_fhdr d1 = None -> d_seq d1 = d_seq d ->
  length (d_fc d1) = length (d_fc d) -> d_next d1 = d_next d ->
  length (d_refs d1) = 8%nat -> reachable (slot_hdrs d1) -> Forall slot_good (d_refs d1) ->
  (forall p, d_out d1 = Some p -> has_data p = true) -> d_cache d1 = d_cache d -> Forall fc_data (d_fc d1) -> dec_inv s d1.
Proof.
  intros s d d1 I H1 H2 H3 H4 H5 H6 H7 H8 H9 H10. constructor; auto; try congruence.
  - apply (inv_nfc _ _ I).
  - rewrite H3. apply (inv_fc _ _ I).
  - rewrite H4, H3. apply (inv_next _ _ I).
  - rewrite H2. apply (inv_seq _ _ I).
  - apply all_data_parts. split; auto. split; auto. rewrite H9.
    pose proof (inv_pics _ _ I) as P. apply all_data_parts in P. apply P.
Qed.
Lemma inv_parts : forall s d, dec_inv s d ->
  (forall p, d_out d = Some p -> has_data p = true) /\ Forall fc_data (d_fc d).
Proof. intros s d I. pose proof (inv_pics _ _ I) as P. apply all_data_parts in P. tauto. Qed.

(** * References *)

(** 7.20 / 5.9.7 conformance: dimensions of a reference, and its format. *)
Definition ref_fits (q : seq_hdr) (h : frame_hdr) (p : tpic) : Prop :=
  let FrameWidth := width0 (fsz (f_refs h)) in
  let FrameHeight := fheight (fsz (f_refs h)) in
  let RefUpscaledWidth := width1 (fsz (f_refs (tp_hdr p))) in
  let RefFrameHeight := fheight (fsz (f_refs (tp_hdr p))) in
  2 * FrameWidth >= RefUpscaledWidth /\ 2 * FrameHeight >= RefFrameHeight /\
  FrameWidth <= 16 * RefUpscaledWidth /\ FrameHeight <= 16 * RefFrameHeight /\
  layout (sh_color q) = layout (sh_color (tp_seq p)) /\ hbd (sh_color q) = hbd (sh_color (tp_seq p)).
Lemma ref_usable_iff : forall q h p, ref_usable q h p = true <-> has_data p = true /\ ref_fits q h p.
Proof.
  intros. unfold ref_usable, ref_fits. cbv zeta. rewrite andb_true_iff, negb_true_iff, !orb_false_iff, !negb_false_iff, !Z.ltb_ge, !Z.eqb_eq.
  split; intros (H & X); (split; [exact H|]); [|repeat (apply conj)]; try lia; try apply X.
Qed.
Definition ref_at (d : dec) (q : seq_hdr) (h : frame_hdr) (i : Z) (p : tpic) : Prop :=
  r_pic (slot_at d i) = Some p /\ has_data p = true /\ ref_fits q h p.
Lemma take_refs_spec : forall d q h l, match take_refs d q h l with
  | Some r => Forall2 (ref_at d q h) l r
  | None => exists i, In i l /\ forall p, ~ ref_at d q h i p end.
Proof.
  induction l as [|i l IH]; cbn [take_refs]; [constructor|].
  destruct (r_pic (slot_at d i)) as [p|] eqn:EP.
  - destruct (ref_usable q h p) eqn:EU.
    + destruct (take_refs d q h l) as [r|].
      * constructor; auto. apply ref_usable_iff in EU. split; auto.
      * destruct IH as (j & J1 & J2). exists j. split; [right; auto|auto].
    + exists i. split; [left; auto|]. intros p' (X1 & X2). rewrite EP in X1. injection X1 as <-.
      apply ref_usable_iff in X2. congruence.
  - exists i. split; [left; auto|]. intros p (X & _). congruence.
Qed.

Lemma Forall2_impl : forall A B (P Q : A -> B -> Prop) l r, (forall a b, P a b -> Q a b) -> Forall2 P l r -> Forall2 Q l r.
Proof. intros A B P Q l r H F. induction F; constructor; auto. Qed.

Lemma Forall2_length : forall A B (P : A -> B -> Prop) l r, Forall2 P l r -> length l = length r.
Proof. intros A B P l r F. induction F; cbn; auto. Qed.

(** * What is handed to the decoder *)
Definition is_inter (h : frame_hdr) : bool := is_inter_or_switch (frame_type (f_pre h)).
Definition pri_ref (h : frame_hdr) : Z := primary_ref_frame (f_pre h).
(** Slot of the primary reference. *)
Definition pri_slot_idx (h : frame_hdr) : Z := nth (Z.to_nat (pri_ref h)) (refidx (f_refs h)) 0.

Record job_ok (d : dec) (q : seq_hdr) (h : frame_hdr) (j : job) : Prop := mkJobOk {
  jk_id : j_id j = d_jobs d;
  jk_seq : j_seq j = q;
  jk_hdr : j_hdr j = h;
  jk_tiles : j_tiles j = d_tiles d;
  jk_inter : is_inter h = true -> Forall2 (ref_at d q h) (refidx (f_refs h)) (j_refs j);
  jk_intra : is_inter h = false -> j_refs j = [];
  jk_cdf_default : pri_ref h = PRIMARY_REF_NONE -> j_cdf j = Some (static_cdf (yac (f_quant h)));
  jk_cdf_ref : pri_ref h <> PRIMARY_REF_NONE ->
    0 <= pri_ref h <= 6 /\ j_cdf j = r_cdf (slot_at d (pri_slot_idx h));
  jk_cdf : j_cdf j <> None;
  jk_mvs : forall k i p, nth_error (refidx (f_refs h)) k = Some i -> nth_error (j_refs j) k = Some p ->
    nth_error (j_mvs j) k = Some (if z2b (use_ref_frame_mvs (f_refs h)) && same_blocks h p
                                  then r_refmvs (slot_at d i) else None);
  jk_prev_segmap : j_prev_segmap j <> None -> sg_enabled (f_seg h) = 1 /\
    (sg_temporal (f_seg h) = 1 \/ sg_update_map (f_seg h) = 0) /\
    pri_ref h <> PRIMARY_REF_NONE /\ j_prev_segmap j = r_segmap (slot_at d (pri_slot_idx h)) /\
    exists p, nth_error (j_refs j) (Z.to_nat (pri_ref h)) = Some p /\ same_blocks h p = true;
  jk_segmap : j_segmap j = if z2b (sg_enabled (f_seg h)) then
                             if z2b (sg_update_map (f_seg h)) then Some (j_id j)
                             else match j_prev_segmap j with Some x => Some x | None => Some (j_id j) end
                           else None }.

Lemma outs_of_app : forall a b, outs_of (a ++ b) = outs_of a ++ outs_of b.
Proof. intros. apply flat_map_app. Qed.

(** The picture of a submitted frame. *)
Record pic_of (d : dec) (q : seq_hdr) (h : frame_hdr) (j : job) (p : tpic) : Prop := mkPicOf {
  pk_hdr : tp_hdr p = h;
  pk_seq : tp_seq p = q;
  pk_buf : tp_buf p = Some (j_id j);
  pk_visible : tp_visible p = show_frame (f_pre h);
  pk_showable : tp_showable p = showable_frame (f_pre h);
  pk_flags : tp_flags p = d_frame_flags d;
  pk_props : match d_tiles d with t :: _ => tp_props p = tg_props t | [] => False end;
  pk_meta : if z2b (show_frame (f_pre h)) then tp_cll p = d_cll d /\ tp_mdcv p = d_mdcv d /\ tp_itut p = d_itut d
            else tp_cll p = None /\ tp_mdcv p = None /\ tp_itut p = [] }.

(** The slot contents after a frame. *)
Definition new_slot (h : frame_hdr) (j : job) (p : tpic) : slot :=
  mkSlot (Some p) (if z2b (refresh_context h) then Some (j_id j) else j_cdf j) (j_segmap j)
    (if is_inter h then Some (j_id j) else None).

Definition submit_eff (o : oracle) (s : settings) (q : seq_hdr) (h : frame_hdr) (d : dec) (r : Z) (d' : dec) (e : list ev) : Prop :=
  exists e0 x e1, e = e0 ++ x :: e1 /\ outs e0 /\ outs e1 /\
  ((x = EvRefuse h r /\ e1 = [] /\ r < 0 /\ d_refs d' = d_refs d) \/
   exists j p, x = EvSubmit j r /\ job_ok d q h j /\ pic_of d q h j p /\
     d_jobs d' = d_jobs d + 1 /\
     let flags := refresh_frame_flags (f_refs h) in
     (s_n_fc s = 1 /\ r = dr_ret (o_decode o j) /\ r < 0 /\ d_refs d' = refresh_slots 0 flags (fun _ => slot0) (d_refs d) \/
      s_n_fc s = 1 /\ 0 <= dr_ret (o_decode o j) /\ r = 0 /\ tp_bad p = false /\
        d_refs d' = refresh_slots 0 flags (fun _ => new_slot h j p) (d_refs d) \/
      s_n_fc s <> 1 /\ r = 0 /\ tp_bad p = dr_bad (o_decode o j) /\
        d_refs d' = refresh_slots 0 flags (fun _ => new_slot h j p) (d_refs d) /\
        nth (d_next d) (d_fc d') fctx0 = mkFctx (dr_ret (o_decode o j)) (dr_err (o_decode o j)) (Some p))).

(** * The proof *)
Lemma ring_or_not : forall s d, dec_inv s d -> d_out d = None ->
  exists d1 e, (if s_n_fc s =? 1 then Ok (d, []) else ring_take s d) = Ok (d1, e) /\ dec_inv s d1 /\ core d d1 /\
    outs e /\ opt_list (d_out d1) = outs_of e /\ (s_n_fc s = 1 -> d1 = d /\ e = []) /\
    length (d_fc d1) = length (d_fc d).
Proof.
  intros s d I Ho. destruct (Z.eqb_spec (s_n_fc s) 1) as [E|E].
  - exists d, []. split; [reflexivity|]. split; [auto|]. split; [unfold core; tauto|]. split; [constructor|].
    rewrite Ho. auto.
  - destruct (ring_take_ok s d (inv_next _ _ I) Ho) as (d1 & e & X & R). exists d1, e. split; auto.
    split; [apply (ring_inv s d d1 e); auto|]. unfold ring_eff in R. cbv zeta in R.
    destruct R as (C & N & L & K & F & D). split; [auto|].
    assert (outs e /\ opt_list (d_out d1) = outs_of e) as (O1 & O2).
    { rewrite Ho in D. destruct D as [(_ & -> & -> & _)|(_ & _ & _ & D)]; [split; [constructor|reflexivity]|].
      destruct (fc_out _) as [p|]; [destruct (_ && _)|]; destruct D as (-> & -> & _);
        (split; [repeat constructor|reflexivity]). }
    split; auto. split; auto. split; auto. intros; contradiction.
Qed.

Lemma slot_at_core : forall d d1 i, core d d1 -> slot_at d1 i = slot_at d i.
Proof. intros d d1 i C. unfold slot_at. replace (d_refs d1) with (d_refs d); [reflexivity|]. symmetry. apply C. Qed.

Section Submit.
Variables (o : oracle) (s : settings) (q : seq_hdr) (h : frame_hdr) (m : props) (d : dec).
Hypothesis (I : dec_inv s d) (ES : d_seq d = Some q) (EH : d_fhdr d = Some h) (S0 : show_existing_frame h = 0)
  (ET : d_tiles d <> []) (EO : d_out d = None).

Lemma pending_facts : coded_wf q h /\ seg_coded h /\ under_limit s h /\ chain 0 (d_tiles d) (d_n_tiles d) /\
  reachable (refresh 0 (refresh_frame_flags (f_refs h)) (Some h) (slot_hdrs d)).
Proof.
  destruct (inv_hdr _ _ I h EH) as (q0 & Q1 & Q2 & Q3 & Q4). rewrite ES in Q1. injection Q1 as <-.
  destruct (parsed_facts _ _ _ _ Q2 (inv_hist _ _ I)) as [(a & b & i & x & y & -> & _)|(_ & W & G & R)]; [discriminate|auto].
Qed.

Lemma reach_none : forall d1 f, d_refs d1 = refresh_slots 0 f (fun _ => slot0) (d_refs d) -> reachable (slot_hdrs d1).
Proof.
  intros d1 f E. unfold slot_hdrs. rewrite E. rewrite (refresh_slots_hdrs _ None); [|reflexivity].
  apply reachable_drop. apply (inv_hist _ _ I).
Qed.
Lemma reach_new : forall d1 x, d_refs d1 = refresh_slots 0 (refresh_frame_flags (f_refs h)) x (d_refs d) ->
  (forall a, slot_hdr (x a) = Some h) -> reachable (slot_hdrs d1).
Proof.
  intros d1 x E Hx. unfold slot_hdrs. rewrite E, (refresh_slots_hdrs _ (Some h)) by auto. apply pending_facts.
Qed.

Lemma take_mvs_nth : forall d1 refp k i p, nth_error (refidx (f_refs h)) k = Some i -> nth_error refp k = Some p ->
  nth_error (take_mvs d1 h refp) k = Some (if z2b (use_ref_frame_mvs (f_refs h)) && same_blocks h p
                                  then r_refmvs (slot_at d1 i) else None).
Proof.
  intros d1 refp k i p H1 H2. unfold take_mvs. destruct (z2b (use_ref_frame_mvs (f_refs h))); cbn [andb].
  - assert (C : nth_error (combine (refidx (f_refs h)) refp) k = Some (i, p)).
    { revert H1 H2. generalize (refidx (f_refs h)). revert k. clear. induction refp as [|b t IH]; intros k l H1 H2; [destruct k; discriminate|].
      destruct l; [destruct k; discriminate|]. destruct k; cbn in *; [congruence|auto]. }
    rewrite (map_nth_error _ _ _ C). reflexivity.
  - assert (HL : (k < 7)%nat).
    { destruct pending_facts as ((_ & W & _) & _). destruct W as (_ & _ & _ & L & _). rewrite <- L. apply nth_error_Some. congruence. }
    do 7 (destruct k as [|k]; [reflexivity|]). lia.
Qed.

Lemma take_segmap_ok : forall d1 refp id, (is_inter h = true -> length refp = 7%nat) -> d_refs d1 = d_refs d ->
  exists prev cur, take_segmap d1 h refp id = Ok (prev, cur) /\
   (prev <> None -> sg_enabled (f_seg h) = 1 /\
    (sg_temporal (f_seg h) = 1 \/ sg_update_map (f_seg h) = 0) /\
    pri_ref h <> PRIMARY_REF_NONE /\ prev = r_segmap (slot_at d (pri_slot_idx h)) /\
    exists p, nth_error refp (Z.to_nat (pri_ref h)) = Some p /\ same_blocks h p = true) /\
   cur = if z2b (sg_enabled (f_seg h)) then
                             if z2b (sg_update_map (f_seg h)) then Some id
                             else match prev with Some x => Some x | None => Some id end
                           else None.
Proof.
  intros d1 refp id HL ER. destruct pending_facts as (W & G & _).
  destruct W as (P & RW & _ & _ & _ & SG & _). unfold take_segmap.
  assert (B : 0 <= sg_enabled (f_seg h) <= 1 /\ 0 <= sg_temporal (f_seg h) <= 1 /\ 0 <= sg_update_map (f_seg h) <= 1).
  { destruct SG as (A1 & A2 & A3 & A4). auto. }
  destruct B as (B1 & B2 & B3).
  destruct (z2b (sg_enabled (f_seg h))) eqn:EE.
  2:{ exists None, None. split; [reflexivity|]. split; [congruence|reflexivity]. }
  destruct (z2b (sg_temporal (f_seg h)) || negb (z2b (sg_update_map (f_seg h)))) eqn:EC.
  - destruct (Z.eqb_spec (primary_ref_frame (f_pre h)) PRIMARY_REF_NONE) as [E7|N7].
    { destruct (G EE E7) as (G1 & G2). rewrite G1, G2 in EC. discriminate. }
    cbn [negb]. assert (IT : is_inter h = true) by (apply P; auto).
    assert (PR : 0 <= pri_ref h <= 6). { assert (0 <= pri_ref h <= 7) by apply P. unfold PRIMARY_REF_NONE in N7. unfold pri_ref in *. lia. }
    destruct RW as (_ & _ & _ & RL & _). specialize (HL IT). unfold pri_ref in PR.
    assert (E1 : nth_error (refidx (f_refs h)) (Z.to_nat (primary_ref_frame (f_pre h))) = Some (pri_slot_idx h)).
    { unfold pri_slot_idx, pri_ref. apply nth_error_nth'. lia. }
    rewrite E1. destruct (nth_error refp (Z.to_nat (primary_ref_frame (f_pre h)))) as [p|] eqn:E2.
    2:{ apply nth_error_None in E2. lia. }
    cbn [obind]. eexists; eexists. split; [reflexivity|]. split.
    + destruct (same_blocks h p) eqn:SBL; [|congruence]. intros _. split; [unfold z2b in EE; lia|].
      split; [unfold z2b in EC; lia|]. split; [exact N7|]. split; [unfold slot_at; rewrite ER; reflexivity|eauto].
    + destruct (z2b (sg_update_map (f_seg h))); [reflexivity|]. destruct (if same_blocks h p then _ else _); reflexivity.
  - cbn [obind]. eexists; eexists. split; [reflexivity|]. split; [congruence|].
    destruct (z2b (sg_update_map (f_seg h))); reflexivity.
Qed.

Theorem submit_ok : exists r d' e, submit_frame o s q h m d = Ok (r, d', e) /\
  dec_inv s d' /\ d_fhdr d' = None /\ d_seq d' = d_seq d /\ (r < 0 \/ r = 0 /\ d_tiles d' = []) /\
  opt_list (d_out d') = outs_of e /\ d_cache d' = d_cache d /\ d_idc d' = d_idc d /\ d_max_sid d' = d_max_sid d /\
  d_drain d' = d_drain d /\ d_in d' = d_in d /\
  submit_eff o s q h d r d' e.
Proof.
  destruct (ring_or_not s d I EO) as (d1 & e0 & ER & I1 & C & O0 & O1 & N1 & L1).
  unfold submit_frame. cbv zeta. rewrite ER. cbn [obind]. clear ER.
  destruct pending_facts as (W & G & UL & CH & RN).
  assert (CR : d_refs d1 = d_refs d) by apply C.
  assert (CT : d_tiles d1 = d_tiles d) by apply C.
  assert (CJ : d_jobs d1 = d_jobs d) by apply C.
  assert (SA : forall i, slot_at (w_fhdr None d1) i = slot_at d i).
  { intros i. unfold slot_at. dsimp. rewrite CR. reflexivity. }
  assert (PW : prefix_wf (f_pre h)) by apply W. assert (RW : refs_wf (f_pre h) (f_refs h)) by apply W.
  assert (PR : 0 <= primary_ref_frame (f_pre h) <= 7) by apply PW.
  assert (PI : primary_ref_frame (f_pre h) <> PRIMARY_REF_NONE -> is_inter_or_switch (frame_type (f_pre h)) = true) by apply PW.
  destruct (inv_parts _ _ I1) as (D1 & D2).
  assert (FD0 : forall b c, fc_data (mkFctx b c None)) by (intros b c p X; discriminate).
  (* refusals *)
  assert (REF : forall r dx, r < 0 -> d_refs dx = d_refs d -> d_fhdr dx = None -> d_seq dx = d_seq d ->
     d_fc dx = d_fc d1 -> d_next dx = d_next d1 -> d_out dx = d_out d1 -> d_cache dx = d_cache d ->
     d_idc dx = d_idc d -> d_max_sid dx = d_max_sid d -> d_drain dx = d_drain d -> d_in dx = d_in d ->
     exists r' d' e, Ok (r, submit_fail s (d_next d) m dx, e0 ++ [EvRefuse h r]) = Ok (r', d', e) /\
       dec_inv s d' /\ d_fhdr d' = None /\ d_seq d' = d_seq d /\ (r' < 0 \/ r' = 0 /\ d_tiles d' = []) /\
       opt_list (d_out d') = outs_of e /\ d_cache d' = d_cache d /\ d_idc d' = d_idc d /\ d_max_sid d' = d_max_sid d /\
       d_drain d' = d_drain d /\ d_in d' = d_in d /\
       submit_eff o s q h d r' d' e).
  { intros r dx Hr X1 X2 X3 X4 X5 X6 X7 X8 X9 X10 X11. eexists; eexists; eexists. split; [reflexivity|].
    assert (OO : outs_of (e0 ++ [EvRefuse h r]) = outs_of e0) by (rewrite outs_of_app; apply app_nil_r).
    rewrite OO. unfold submit_fail. destruct (Z.eqb_spec (s_n_fc s) 1) as [E1|E1].
    - destruct (N1 E1) as (-> & ->). split.
      { apply (inv_idle s d _ I); dsimp; auto; try congruence.
        all: first [solve [rewrite X1; apply (inv_refs _ _ I)]
          | solve [unfold slot_hdrs; dsimp; rewrite X1; apply (inv_hist _ _ I)]
          | solve [rewrite X1; apply (inv_slots _ _ I)]
          | solve [rewrite X4; auto]]. }
      dsimp. split; [auto|]. split; [auto|]. split; [lia|]. split; [reflexivity|]. repeat (split; [solve [auto]|]).
      exists [], (EvRefuse h r), []. split; [reflexivity|]. split; [constructor|]. split; [constructor|]. left. dsimp. auto.
    - split.
      { apply (inv_idle s d1 _ I1); dsimp; auto; try congruence.
        all: first [solve [rewrite X3; symmetry; apply C]
          | solve [rewrite X4; apply upd_nth_length; rewrite L1; apply (inv_next _ _ I)]
          | solve [rewrite X1; apply (inv_refs _ _ I)]
          | solve [unfold slot_hdrs; dsimp; rewrite X1; apply (inv_hist _ _ I)]
          | solve [rewrite X1; apply (inv_slots _ _ I)]
          | solve [rewrite X6; auto]
          | solve [rewrite X7; symmetry; apply C]
          | solve [apply upd_nth_Forall; [rewrite X4; auto|auto]]]. }
      dsimp. split; [auto|]. split; [auto|]. split; [lia|]. split; [congruence|]. repeat (split; [solve [auto]|]).
      exists e0, (EvRefuse h r), []. split; [reflexivity|]. split; [auto|]. split; [constructor|]. left. dsimp. auto. }
  assert (CC : d_seq d1 = d_seq d /\ d_cache d1 = d_cache d /\ d_idc d1 = d_idc d /\ d_max_sid d1 = d_max_sid d /\
     d_drain d1 = d_drain d /\ d_in d1 = d_in d) by (repeat (apply conj); apply C).
  destruct CC as (CC1 & CC2 & CC3 & CC4 & CC5 & CC6).
  match goal with |- context [if ?b then _ else _] => destruct b eqn:E0 end.
  { apply REF; dsimp; auto; reflexivity. }
  pose proof (take_refs_spec (w_fhdr None d1) q h (refidx (f_refs h))) as TR.
  set (tr := if is_inter_or_switch (frame_type (f_pre h)) then take_refs (w_fhdr None d1) q h (refidx (f_refs h)) else Some []).
  assert (TR2 : match tr with
    | Some r => (is_inter h = true -> Forall2 (ref_at d q h) (refidx (f_refs h)) r) /\ (is_inter h = false -> r = [])
    | None => True end).
  { subst tr. unfold is_inter. destruct (is_inter_or_switch (frame_type (f_pre h))); [|split; [discriminate|auto]].
    destruct (take_refs _ _ _ _) as [r|]; auto. split; [intros _|discriminate].
    eapply Forall2_impl; [|exact TR]. intros i p (X1 & X2). split; auto. rewrite SA in X1. exact X1. }
  clearbody tr. clear TR. destruct tr as [refp|].
  2:{ apply REF; dsimp; auto; reflexivity. }
  destruct TR2 as (TR2 & TR3).
  (* the CDFs *)
  assert (CDF : exists in_cdf, (if primary_ref_frame (f_pre h) =? PRIMARY_REF_NONE
      then Ok (Some (static_cdf (yac (f_quant h))))
      else guard! (primary_ref_frame (f_pre h) <? 7) &&
            negb (is_none (r_cdf (slot_at (w_fhdr None d1) (nth (Z.to_nat (primary_ref_frame (f_pre h))) (refidx (f_refs h)) 0))))
           in Ok (r_cdf (slot_at (w_fhdr None d1) (nth (Z.to_nat (primary_ref_frame (f_pre h))) (refidx (f_refs h)) 0)))) = Ok in_cdf /\
      (pri_ref h = PRIMARY_REF_NONE -> in_cdf = Some (static_cdf (yac (f_quant h)))) /\
      (pri_ref h <> PRIMARY_REF_NONE -> 0 <= pri_ref h <= 6 /\ in_cdf = r_cdf (slot_at d (pri_slot_idx h))) /\
      in_cdf <> None).
  { destruct (Z.eqb_spec (primary_ref_frame (f_pre h)) PRIMARY_REF_NONE) as [E7|N7].
    - eexists. split; [reflexivity|]. split; [auto|]. split; [intros X; contradiction|discriminate].
    - rewrite (PI N7) in E0. cbn [negb andb] in E0. rewrite SA in *. fold (pri_ref h) in *. fold (pri_slot_idx h) in *.
      unfold PRIMARY_REF_NONE in N7. replace (pri_ref h <? 7) with true by lia.
      destruct (r_pic (slot_at d (pri_slot_idx h))) as [p|] eqn:EP; [|discriminate]. apply negb_false_iff in E0.
      assert (NN : r_cdf (slot_at d (pri_slot_idx h)) <> None).
      { assert (SG : slot_good (slot_at d (pri_slot_idx h))).
        { apply (proj1 (Forall_forall _ _) (inv_slots _ _ I)), slot_at_nth; [apply (inv_refs _ _ I)|].
          unfold pri_slot_idx. destruct RW as (_ & _ & _ & RL & RF & _). apply (proj1 (Forall_forall _ _) RF), nth_In. lia. }
        apply (SG p); auto. }
      destruct (r_cdf (slot_at d (pri_slot_idx h))) as [c|] eqn:EC; [|contradiction]. cbn [is_none negb andb].
      eexists. split; [reflexivity|]. split; [intros X; contradiction|]. split; [intros; split; [lia|auto]|discriminate]. }
  destruct CDF as (in_cdf & -> & CD1 & CD2 & CD3). cbn [obind]. dsimp.
  rewrite CT. destruct (d_tiles d) as [|t0 tl] eqn:ETl; [contradiction|].
  match goal with |- context [if ?b then _ else _] => destruct b eqn:E1 end.
  { apply REF; dsimp; auto. apply Z.ltb_lt in E1; auto. }
  assert (PA : forall dx, quiet dx (pic_alloc_ctx s h dx) /\ d_refs (pic_alloc_ctx s h dx) = d_refs dx /\
     d_fhdr (pic_alloc_ctx s h dx) = d_fhdr dx /\ d_seq (pic_alloc_ctx s h dx) = d_seq dx /\ d_tiles (pic_alloc_ctx s h dx) = d_tiles dx /\
     d_idc (pic_alloc_ctx s h dx) = d_idc dx /\ d_max_sid (pic_alloc_ctx s h dx) = d_max_sid dx).
  { intros dx. unfold pic_alloc_ctx. cbv zeta. destruct (z2b (show_frame (f_pre h))); (split; [quiet_tac|auto 10]). }
  set (d2 := w_jobs (d_jobs d1 + 1) (w_tiles [] (w_fhdr None d1))).
  assert (ND : forall bad, new_pic s q h (d_jobs d1) (tg_props t0) bad d2 = new_pic s q h (d_jobs d1) (tg_props t0) bad d).
  { intros bad. unfold new_pic, d2. dsimp. replace (d_frame_flags d1) with (d_frame_flags d) by (symmetry; apply C).
    replace (d_cll d1) with (d_cll d) by (symmetry; apply C).
    replace (d_mdcv d1) with (d_mdcv d) by (symmetry; apply C). replace (d_itut d1) with (d_itut d) by (symmetry; apply C). reflexivity. }
  destruct (PA d2) as (Q & R1 & R2 & R3 & R4 & R5 & R6). remember (pic_alloc_ctx s h d2) as d3 eqn:E3.
  destruct Q as (Q1 & Q2 & Q3 & Q4 & Q5 & Q6 & Q7 & Q8 & Q9 & Q10).
  subst d2; dsimp. clear E3 PA.
  match goal with |- context [if ?b then _ else _] => destruct b eqn:E2 end.
  { apply REF; auto; try congruence. apply andb_true_iff in E2. destruct E2 as (_ & E2). apply Z.ltb_lt in E2; auto. }
  assert (LR : is_inter h = true -> length refp = 7%nat).
  { intros X. specialize (TR2 X). apply Forall2_length in TR2. rewrite <- TR2. apply RW. }
  assert (RR : d_refs d3 = d_refs d) by congruence.
  destruct (take_segmap_ok d3 refp (d_jobs d1) LR RR) as (prev & cur & -> & SM1 & SM2). cbn [obind].
  set (j := mkJob (d_jobs d1) q h (t0 :: tl) refp in_cdf _ prev cur).
  assert (JK : job_ok d q h j).
  { constructor; subst j; cbn [j_id j_seq j_hdr j_tiles j_refs j_cdf j_mvs j_prev_segmap j_segmap]; auto.
    intros k i p K1 K2. destruct (is_inter h) eqn:EI.
    - unfold is_inter in EI. rewrite EI. rewrite (take_mvs_nth d3 refp k i p K1 K2).
      replace (slot_at d3 i) with (slot_at d i) by (unfold slot_at; rewrite RR; reflexivity). reflexivity.
    - rewrite (TR3 eq_refl) in K2. destruct k; discriminate. }
  assert (PK : forall bad, pic_of d q h j (new_pic s q h (d_jobs d1) (tg_props t0) bad d)).
  { intros bad. constructor; try reflexivity.
    - rewrite ETl. reflexivity.
    - unfold new_pic. cbn [tp_cll tp_mdcv tp_itut]. destruct (z2b (show_frame (f_pre h))); auto. }
  assert (IB : (if z2b (allow_intrabc (f_refs h)) then None
                else if is_inter_or_switch (frame_type (f_pre h)) || z2b (allow_intrabc (f_refs h)) then Some (d_jobs d1) else None) =
               if is_inter h then Some (j_id j) else None).
  { unfold is_inter. destruct (z2b (allow_intrabc (f_refs h))) eqn:EB.
    - destruct RW as (_ & _ & B1 & _ & _ & _ & _ & _ & _ & B2). unfold z2b in EB.
      assert (X : allow_intrabc (f_refs h) = 1) by lia. destruct (B2 X) as (B3 & _).
      unfold is_key_or_intra in B3. apply negb_true_iff in B3. rewrite B3. reflexivity.
    - rewrite orb_false_r. reflexivity. }
  rewrite IB. clear IB.
  assert (NS : forall bad, mkSlot (Some (new_pic s q h (d_jobs d1) (tg_props t0) bad d))
      (if z2b (refresh_context h) then Some (d_jobs d1) else in_cdf) cur (if is_inter h then Some (j_id j) else None)
      = new_slot h j (new_pic s q h (d_jobs d1) (tg_props t0) bad d)) by reflexivity.
  assert (NG : forall p, slot_good (new_slot h j p)).
  { intros p p' _ _. unfold new_slot. cbn [r_cdf]. destruct (z2b (refresh_context h)); [discriminate|exact CD3]. }
  assert (HP : forall bad, has_data (new_pic s q h (d_jobs d1) (tg_props t0) bad d) = true) by reflexivity.
  assert (D3 : d_fhdr d3 = None /\ d_seq d3 = d_seq d /\ d_tiles d3 = [] /\ d_cache d3 = d_cache d /\ d_idc d3 = d_idc d /\
    d_max_sid d3 = d_max_sid d /\ d_drain d3 = d_drain d /\ d_in d3 = d_in d /\ d_out d3 = d_out d1 /\ d_fc d3 = d_fc d1 /\
    d_next d3 = d_next d1 /\ d_jobs d3 = d_jobs d + 1) by (repeat (apply conj); congruence).
  clear Q1 Q2 Q3 Q4 Q5 Q6 Q7 Q8 Q9 Q10 R1 R2 R3 R4 R5 R6.
  destruct D3 as (Q1 & Q2 & Q3 & Q4 & Q5 & Q6 & Q7 & Q8 & Q9 & Q10 & Q11 & Q12).
  clearbody j. rewrite !ND. rewrite !NS. clear ND NS.
  destruct (Z.eqb_spec (s_n_fc s) 1) as [F1|F1].
  - destruct (N1 F1) as (-> & ->). cbn [app].
    set (p := new_pic s q h (d_jobs d) (tg_props t0) false d) in *.
    assert (PO : exists d4, (if z2b (show_frame (f_pre h)) || s_output_invisible s then put_out p d3 else Ok d3) = Ok d4 /\
       d_out d4 = (if z2b (show_frame (f_pre h)) || s_output_invisible s then Some p else None) /\
       d_fhdr d4 = None /\ d_seq d4 = d_seq d /\ d_tiles d4 = [] /\ d_cache d4 = d_cache d /\ d_idc d4 = d_idc d /\
       d_max_sid d4 = d_max_sid d /\ d_drain d4 = d_drain d /\ d_in d4 = d_in d /\ d_fc d4 = d_fc d /\ d_next d4 = d_next d /\
       d_jobs d4 = d_jobs d + 1 /\ d_refs d4 = d_refs d).
    { destruct (z2b (show_frame (f_pre h)) || s_output_invisible s).
      - unfold put_out. rewrite Q9, EO. cbn [is_none]. eexists. split; [reflexivity|]. dsimp. repeat (apply conj); auto.
      - eexists. split; [reflexivity|]. repeat (apply conj); auto. congruence. }
    destruct PO as (d4 & -> & T1 & T2 & T3 & T4 & T5 & T6 & T7 & T8 & T9 & T10 & T11 & T12 & T13). cbn [obind].
    destruct (Z.ltb_spec (dr_ret (o_decode o j)) 0) as [LT|GE].
    + eexists; eexists; eexists. split; [reflexivity|]. unfold submit_fail. rewrite (proj2 (Z.eqb_eq _ _) F1). split.
      { apply (inv_idle s d _ I); dsimp; auto; try congruence.
        all: first [solve [rewrite refresh_slots_length, T13; apply (inv_refs _ _ I)]
          | solve [eapply reach_none; dsimp; rewrite T13; reflexivity]
          | solve [apply refresh_slots_Forall; [rewrite T13; apply (inv_slots _ _ I)|]; intros a _ p' X; discriminate]
          | solve [rewrite T10; apply (inv_parts _ _ I)]]. }
      dsimp. split; [auto|]. split; [auto|]. split; [left; auto|]. split; [reflexivity|]. repeat (split; [solve [auto]|]).
      exists [], (EvSubmit j (dr_ret (o_decode o j))), []. split; [reflexivity|]. split; [constructor|]. split; [constructor|].
      right. exists j, p. split; [auto|]. split; [auto|]. split; [apply PK|]. dsimp. split; [auto|]. left. rewrite T13. auto.
    + eexists; eexists; eexists. split; [reflexivity|]. split.
      { apply (inv_idle s d _ I); dsimp; auto; try congruence.
        all: first [solve [rewrite refresh_slots_length, T13; apply (inv_refs _ _ I)]
          | solve [eapply reach_new; [dsimp; rewrite T13; reflexivity|reflexivity]]
          | solve [apply refresh_slots_Forall; [rewrite T13; apply (inv_slots _ _ I)|]; intros a _; apply NG]
          | solve [intros p'; rewrite T1; destruct (_ || _); [|discriminate]; intros X; injection X as <-; apply HP]
          | solve [rewrite T10; apply (inv_parts _ _ I)]]. }
      dsimp. split; [auto|]. split; [auto|]. split; [right; auto|].
      split; [rewrite T1; destruct (_ || _); reflexivity|]. repeat (split; [solve [auto]|]).
      exists [], (EvSubmit j 0), (if z2b (show_frame (f_pre h)) || s_output_invisible s then [EvOut p] else []).
      split; [reflexivity|]. split; [constructor|]. split; [destruct (_ || _); repeat constructor|].
      right. exists j, p. split; [auto|]. split; [auto|]. split; [apply PK|]. dsimp. split; [auto|]. right; left. rewrite T13.
      split; [auto|]. split; [auto|]. split; [auto|]. split; [reflexivity|]. reflexivity.
  - set (p := new_pic s q h (d_jobs d1) (tg_props t0) (dr_bad (o_decode o j)) d) in *.
    assert (NX : (d_next d < length (d_fc d1))%nat) by (rewrite L1; apply (inv_next _ _ I)).
    eexists; eexists; eexists. split; [reflexivity|]. dsimp. split.
    { apply (inv_idle s d1 _ I1); dsimp; auto; try congruence.
      all: first [solve [rewrite Q10; apply upd_nth_length; auto]
        | solve [rewrite refresh_slots_length, RR; apply (inv_refs _ _ I)]
        | solve [eapply reach_new; [dsimp; rewrite RR; reflexivity|reflexivity]]
        | solve [apply refresh_slots_Forall; [rewrite RR; apply (inv_slots _ _ I)|]; intros a _; apply NG]
        | solve [rewrite Q9; auto]
        | solve [apply upd_nth_Forall; [rewrite Q10; auto|]; intros p' X; injection X as <-; apply HP]]. }
    split; [auto|]. split; [auto|]. split; [right; auto|].
    split; [rewrite outs_of_app, Q9, O1; symmetry; apply app_nil_r|]. repeat (split; [solve [auto]|]).
    exists e0, (EvSubmit j 0), []. split; [reflexivity|]. split; [auto|]. split; [constructor|].
    right. exists j, p. split; [auto|]. split; [auto|]. split; [apply PK|]. dsimp. split; [auto|]. right; right.
    rewrite RR. split; [auto|]. split; [auto|]. split; [reflexivity|]. split; [reflexivity|].
    rewrite Q10. apply upd_nth_same; auto.
Qed.
End Submit.

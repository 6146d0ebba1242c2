(** Metadata is attached to one visible picture: the T.35 list is emptied when a visible
    frame is submitted, the HDR metadata stays. *)
From Coq Require Import ZArith List Bool Lia.
From Verif Require Import Base.CInt Base.Lemmas GetBits.Model GetBits.Spec GetBits.AtPos
  Obu.SeqModel Obu.SeqRel Obu.ObuSpec Obu.FrameModel Obu.FrameRel Obu.FrameHist
  Dec.State Dec.Submit Dec.ObuModel Dec.LibModel Dec.Front Dec.Wf Dec.Inv Dec.Meta Dec.Step Dec.SubmitProofs Dec.Parse Dec.Api Dec.Facts.
Import ListNotations.
Open Scope Z_scope.

Definition same_meta (d d1 : dec) : Prop := d_cll d1 = d_cll d /\ d_mdcv d1 = d_mdcv d /\ d_itut d1 = d_itut d.
Lemma same_meta_refl : forall d, same_meta d d.
Proof. unfold same_meta; auto. Qed.

Lemma tile_meta : forall h m buf pos d x, tile_eff h m buf pos d x -> same_meta d (sw_dec x).
Proof.
  intros h m buf pos d x [(-> & _)|(st & en & data & _ & _ & [(_ & ->)|(_ & _ & ->)])]; unfold same_meta; cbn [sw_dec]; dsimp; auto.
Qed.
Lemma switch_meta : forall s type tid sid m buf o d x, type <> OBU_METADATA ->
  switch_eff s type tid sid m buf o d x -> d_fhdr (sw_dec x) <> None -> same_meta d (sw_dec x).
Proof.
  intros s type tid sid m buf o d x NM HX NF.
  destruct HX as [(-> & [(-> & _)|(q & Q & ->)])|[(HT & HX)|[(-> & [(_ & ->)|(h & Hh & HX)])|[(-> & HX)|[(-> & ->)|(_ & _ & _ & _ & _ & ->)]]]]];
    cbn [sw_dec] in *; try contradiction; try (unfold same_meta; dsimp; auto; fail).
  - unfold new_seq_hdr in *. cbv zeta in *. dsimp. destruct (d_seq d) as [old|]; [ | exfalso; apply NF; dsimp; reflexivity ].
    destruct (same_sequence q old); cbn [negb] in *; [ | exfalso; apply NF; dsimp; reflexivity ].
    destruct (same_op_info q old); cbn [negb]; unfold same_meta; dsimp; auto.
  - destruct HX as [(-> & _)|(q & _ & [->|(h & c & c' & _ & _ & [->|[(-> & _)|(_ & [(_ & ->)|(_ & _ & p & _ & _ & HX)])]])])];
      try (unfold same_meta, new_hdr; cbn [sw_dec]; dsimp; auto; fail).
    apply tile_meta in HX. unfold same_meta, new_hdr in *. revert HX. dsimp. auto.
  - eapply tile_meta; eauto.
Qed.

Lemma ring_or_meta : forall s d d1 e, (if s_n_fc s =? 1 then Ok (d, []) else ring_take s d) = Ok (d1, e) ->
  (d_next d < length (d_fc d))%nat -> d_out d = None -> same_meta d d1.
Proof.
  intros s d d1 e. destruct (s_n_fc s =? 1).
  - intros E; injection E as <- <-. intros; apply same_meta_refl.
  - intros E Hn Ho. destruct (ring_take_ok s d Hn Ho) as (d2 & e2 & E2 & R). rewrite E in E2. injection E2 as <- <-.
    unfold ring_eff in R. cbv zeta in R. destruct R as ((_ & _ & _ & _ & _ & _ & _ & C1 & C2 & C3 & _) & _). unfold same_meta. auto.
Qed.

(** After an accepted frame. *)
Lemma submit_meta : forall o s q h m d d' e, submit_frame o s q h m d = Ok (0, d', e) ->
  (d_next d < length (d_fc d))%nat -> d_out d = None ->
  d_cll d' = d_cll d /\ d_mdcv d' = d_mdcv d /\ d_itut d' = (if z2b (show_frame (f_pre h)) then [] else d_itut d).
Proof.
  intros o s q h m d d' e H Hn Ho. unfold submit_frame in H. cbv zeta in H.
  destruct (if s_n_fc s =? 1 then Ok (d, []) else ring_take s d) as [[d1 e1]|] eqn:ER; [ | discriminate ].
  apply ring_or_meta in ER; auto. cbn [obind] in H. destruct ER as (M1 & M2 & M3).
  match type of H with (if ?b then _ else _) = _ => destruct b; [ discriminate | ] end.
  match type of H with match ?b with None => _ | Some _ => _ end = _ => destruct b as [refp|]; [ | discriminate ] end.
  match type of H with obind ?b _ = _ => destruct b as [in_cdf|]; [ | discriminate ] end. cbn [obind] in H.
  dsimp. revert H. dsimp. destruct (d_tiles d1) as [|t0 tl]; [ discriminate | ].
  match goal with |- (if ?b then _ else _) = _ -> _ => destruct b eqn:E1 end.
  { intros H. injection H as H _ _. apply Z.ltb_lt in E1. lia. }
  match goal with |- (if ?b then _ else _) = _ -> _ => destruct b eqn:E2 end.
  { intros H. injection H as H _ _. apply andb_true_iff in E2. destruct E2 as (_ & E2). apply Z.ltb_lt in E2. lia. }
  match goal with |- obind ?b _ = _ -> _ => destruct b as [[prev cur]|]; [ | discriminate ] end. cbn [obind].
  set (d3 := pic_alloc_ctx s h _).
  assert (P : d_cll d3 = d_cll d /\ d_mdcv d3 = d_mdcv d /\ d_itut d3 = (if z2b (show_frame (f_pre h)) then [] else d_itut d)).
  { unfold d3, pic_alloc_ctx. cbv zeta. destruct (z2b (show_frame (f_pre h))); dsimp; auto. }
  clearbody d3. destruct (s_n_fc s =? 1).
  - match goal with |- obind ?b _ = _ -> _ => assert (PO : forall d4, b = Ok d4 -> d_cll d4 = d_cll d3 /\ d_mdcv d4 = d_mdcv d3 /\ d_itut d4 = d_itut d3) end.
    { intros d4. match goal with |- (if ?b then _ else _) = _ -> _ => destruct b end.
      - unfold put_out. destruct (is_none (d_out d3)); [ | discriminate ]. intros X; injection X as <-. dsimp. auto.
      - intros X; injection X as <-. auto. }
    match goal with |- obind ?b _ = _ -> _ => destruct b as [d4|]; [ | discriminate ] end. cbn [obind].
    destruct (PO d4 eq_refl) as (A1 & A2 & A3).
    match goal with |- (if ?b <? 0 then _ else _) = _ -> _ => destruct (Z.ltb_spec b 0) end.
    + intros X. assert (K := f_equal (fun x => match x with Ok (a, _, _) => a | Undef => 0 end) X). cbn beta iota in K. lia.
    + intros X. injection X as <- _. dsimp. rewrite A1, A2, A3. auto.
  - intros X. injection X as <- _. dsimp. auto.
Qed.

Section Once.
Variables (o : oracle) (s : settings) (buf : list Z) (m : props) (d d' : dec) (r : Z) (e : list ev).
Hypothesis (HN : 1 <= s_n_fc s) (HL : live o s d) (HO : d_out d = None) (HB : Forall is_byte buf) (HZ : 0 < zlen buf)
  (HP : parse_obus o s buf m d = Ok (r, d', e)).

(** A frame submitted by an OBU other than a metadata OBU. *)
Theorem submit_once : forall j oh start stop, next_obu buf 0 = Some (oh, start, stop) -> obu_type oh <> OBU_METADATA ->
  In (EvSubmit j 0) e ->
  d_cll d' = d_cll d /\ d_mdcv d' = d_mdcv d /\ d_itut d' = (if z2b (show_frame (f_pre (j_hdr j))) then [] else d_itut d) /\
  exists d1 p, same_meta d d1 /\ d_fhdr d1 = Some (j_hdr j) /\ pic_of d1 (j_seq j) (j_hdr j) j p /\
    d_refs d' = refresh_slots 0 (refresh_frame_flags (f_refs (j_hdr j))) (fun _ => new_slot (j_hdr j) j p) (d_refs d).
Proof.
  intros j oh start stop NX NM HI.
  destruct (the_step o s buf m d d' r e HN HL HO HB HZ HP) as (S & R & O & I1 & I).
  destruct S as [(_ & _ & E0 & _)|(h & start' & stop' & N & SF & B1 & B2 & [(_ & _ & _ & E0)|(_ & x & X & Y)])];
    [ rewrite E0 in HI; destruct HI | rewrite E0 in HI; destruct HI | ].
  rewrite NX in N. injection N as <- <- <-.
  assert (ZS : zlen (firstn (Z.to_nat stop) buf) = stop) by (apply zlen_firstn; lia).
  assert (TS : 0 <= temporal_id oh /\ 0 <= spatial_id oh).
  { destruct (obu_open_ok (s_strict s) buf HB HZ) as (x0 & E0 & X0). destruct x0 as [[[[[ty ex] ti] si] c]|].
    - destruct X0 as (h0 & a & b & N0 & _ & _ & _ & -> & -> & _ & _ & T1 & T2 & _). rewrite NX in N0. injection N0 as <- <- <-. lia.
    - destruct X0 as [X0|X0]; congruence. }
  destruct TS as (T1 & T2).
  destruct (switch_inv s (obu_type oh) (temporal_id oh) (spatial_id oh) m (firstn (Z.to_nat stop) buf) start d x I ltac:(lia) T1 T2 X) as (J1 & J2 & J3 & J4).
  pose proof (switch_meta _ _ _ _ _ _ _ _ _ NM X) as SM.
  destruct x as [d1|d1|r1 d1]; cbn [sw_dec] in *.
  2: { destruct Y as (_ & _ & ->). destruct HI. }
  2: { destruct Y as (_ & _ & ->). destruct HI. }
  destruct Y as [(_ & _ & -> & _)|[(q & h1 & Y1 & Y2 & Y3 & SH)|(q & h1 & Y1 & Y2 & Y3 & Y4 & Y5)]].
  { destruct HI. }
  { exfalso. destruct SH as (_ & [(_ & _ & E0 & _)|(p & _ & _ & _ & _ & [(_ & E0 & _)|(_ & _ & _ & _ & _ & _ & _ & x & _ & _ & _ & _ & _ & _ & _ & [(_ & E0 & _)|(_ & _ & _ & e0 & E0 & O0)])])]).
    + rewrite E0 in HI. destruct HI.
    + rewrite E0 in HI. destruct HI as [HI|[]]. discriminate.
    + rewrite E0 in HI. destruct HI as [HI|[HI|[]]]; discriminate.
    + rewrite E0 in HI. apply in_app_or in HI. destruct HI as [HI|[HI|[]]]; [|discriminate].
      destruct (outs_not _ _ O0 HI) as (? & K). discriminate. }
  destruct Y5 as [(_ & _ & _ & E0)|(_ & r0 & d2 & SF2 & SB & RR)].
  { rewrite E0 in HI. destruct HI as [HI|[]]. discriminate. }
  assert (SMM : same_meta d d1) by (apply SM; congruence).
  assert (J3' : d_refs d1 = d_refs d) by (destruct J3 as [J3|(? & ? & _ & _ & _ & _ & _ & J3)]; congruence).
  destruct SB as (e0 & x & e1 & E0 & O0 & O1 & SB). rewrite E0 in HI. apply in_mid in HI; auto; [ | intros ? ?; discriminate ]. subst x.
  destruct SB as [(K & _)|(j' & p & K & JK & PK & DJ & SB)]; [ discriminate | ]. injection K as <- <-.
  destruct RR as [(K & _)|(_ & _ & ->)]; [ lia | ].
  rewrite (jk_hdr _ _ _ _ JK), (jk_seq _ _ _ _ JK) in *.
  destruct SMM as (M1 & M2 & M3).
  destruct (submit_meta o s q h1 m d1 d2 e) as (A1 & A2 & A3); auto.
  { apply (inv_next _ _ J1). }
  { destruct J2 as (_ & _ & _ & J2 & _). congruence. }
  dsimp. split; [ congruence | ]. split; [ congruence | ]. split; [ rewrite A3, M3; reflexivity | ].
  exists d1, p. split; [ unfold same_meta; auto | ]. split; [ auto | ]. split; [ auto | ].
  rewrite <- J3'. destruct SB as [(_ & _ & B3 & _)|[(_ & _ & _ & _ & B5)|(_ & _ & _ & B4 & _)]]; [ lia | auto | auto ].
Qed.
End Once.

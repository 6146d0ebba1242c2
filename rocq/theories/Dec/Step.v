(** One step of dav1d_parse_obus: it is always defined, keeps the invariant, and
    its effect on the decoder state. *)
From Coq Require Import ZArith List Bool Lia.
From Verif Require Import Base.CInt Base.Lemmas GetBits.Model GetBits.Spec GetBits.Abstract
  GetBits.Proofs GetBits.SpecProg GetBits.Sim GetBits.VarLen GetBits.AtPos Obu.SimTac
  Obu.SeqModel Obu.SeqRel Obu.SeqProofs Obu.ObuSpec Obu.SeqTop
  Obu.FrameModel Obu.FrameRel Obu.FrameHist Dec.State Dec.Submit Dec.ObuModel Dec.Front Dec.Wf Dec.Inv Dec.Meta.
Import ListNotations.
Open Scope Z_scope.
Local Open Scope outcome_scope.

(** * The switch *)
Definition seq_accepted (strict : bool) (buf : list Z) (pos : Z) (q : seq_hdr) : Prop :=
  exists sq p, srun (S.sequence_header_obu strict) (stream_bit buf (zlen buf)) pos = (Some sq, p) /\
    S.trailing_ok strict (stream_bit buf (zlen buf)) p (8 * zlen buf) /\ seq_rel q sq /\ seq_wf q.
Definition is_hdr_type (type : Z) (d : dec) : Prop :=
  type = OBU_FRAME_HDR \/ type = OBU_FRAME \/ (type = OBU_REDUNDANT_FRAME_HDR /\ d_fhdr d = None).
Definition switch_eff (s : settings) (type tid sid : Z) (m : props) (buf : list Z) (o : Z) (d : dec) (x : sw) : Prop :=
  (type = OBU_SEQ_HDR /\ (x = SwErr d /\ (forall q, ~ seq_accepted (s_strict s) buf (8 * o) q) \/
     exists q, seq_accepted (s_strict s) buf (8 * o) q /\ x = SwGo (new_seq_hdr s q d))) \/
  (is_hdr_type type d /\ frame_eff s type tid sid m buf (8 * o) d x) \/
  (type = OBU_TILE_GRP /\ (d_fhdr d = None /\ x = SwErr d \/
     exists h, d_fhdr d = Some h /\ tile_eff h m buf (8 * o) d x)) \/
  (type = OBU_METADATA /\ metadata_eff s buf o d x) \/
  (type = OBU_TD /\ x = SwGo (w_frame_flags (Z.lor (d_frame_flags d) PF_NEW_TEMPORAL_UNIT) d)) \/
  (type <> OBU_SEQ_HDR /\ type <> OBU_TILE_GRP /\ type <> OBU_METADATA /\ type <> OBU_TD /\ ~ is_hdr_type type d /\ x = SwGo d).

Theorem obu_switch_ok : forall s type tid sid m buf o c d, dec_inv s d -> at_pos buf (8 * o) c -> 0 <= o <= zlen buf ->
  0 <= tid -> 0 <= sid ->
  exists x, obu_switch s type tid sid m c d = Ok x /\ switch_eff s type tid sid m buf o d x.
Proof.
  intros s type tid sid m buf o c d I At Ho Ht Hs. unfold obu_switch, switch_eff.
  destruct (Z.eqb_spec type OBU_SEQ_HDR) as [->|N1].
  { destruct (seq_hdr_ok (s_strict s) buf (8 * o) c At ltac:(lia)) as (r & c' & E & M). rewrite E. cbn [obind].
    cbv zeta in M. eexists. split; [reflexivity|]. left. split; auto. destruct r as [q|e].
    - right. exists q. split; auto. destruct M as (sq & (p & M1 & M2) & M3 & M4). exists sq, p. auto.
    - left. split; auto. destruct M as (_ & M). intros q (sq & p & Q1 & Q2 & _). apply (M sq). exists p. auto. }
  destruct ((type =? OBU_REDUNDANT_FRAME_HDR) && negb (is_none (d_fhdr d))) eqn:ER.
  { apply andb_true_iff in ER. destruct ER as (E1 & E2). apply Z.eqb_eq in E1. subst type.
    eexists. split; [reflexivity|]. right; right; right; right; right. unfold is_hdr_type.
    repeat (split; [discriminate|]). split; [|reflexivity]. intros [X|[X|(_ & X)]]; try discriminate. rewrite X in E2. discriminate. }
  destruct ((type =? OBU_REDUNDANT_FRAME_HDR) || (type =? OBU_FRAME) || (type =? OBU_FRAME_HDR)) eqn:EH.
  { destruct (frame_header_eff s type tid sid m buf (8 * o) c d I At Ht Hs ltac:(lia)) as (x & X1 & X2).
    exists x. split; auto. right; left. split; auto. unfold is_hdr_type.
    apply orb_true_iff in EH. rewrite orb_true_iff in EH. destruct EH as [[EH|EH]|EH]; apply Z.eqb_eq in EH; auto.
    right; right. split; auto. subst type. destruct (d_fhdr d); [discriminate|auto]. }
  assert (NH : ~ is_hdr_type type d).
  { apply orb_false_elim in EH. destruct EH as (EH & E3). apply orb_false_elim in EH. destruct EH as (E1 & E2).
    unfold is_hdr_type. intros [X|[X|(X & _)]]; subst type; discriminate. }
  destruct (Z.eqb_spec type OBU_TILE_GRP) as [->|N2].
  { destruct (d_fhdr d) as [h|] eqn:Eh.
    - destruct (tile_group_eff s h m c d buf (8 * o) I Eh At ltac:(lia)) as (x & X1 & X2).
      exists x. split; auto. right; right; left. split; auto. right. eauto.
    - eexists. split; [unfold tile_group; rewrite Eh; reflexivity|]. right; right; left. auto. }
  destruct (Z.eqb_spec type OBU_METADATA) as [->|N3].
  { destruct (metadata_ok s buf o c d At Ho) as (x & X1 & X2). exists x. split; auto. right; right; right; left. auto. }
  destruct (Z.eqb_spec type OBU_TD) as [->|N4].
  { eexists. split; [reflexivity|]. right; right; right; right; left. auto. }
  eexists. split; [reflexivity|]. right; right; right; right; right. auto 10.
Qed.

Lemma switch_inv : forall s type tid sid m buf o d x, dec_inv s d -> 0 <= o <= zlen buf -> 0 <= tid -> 0 <= sid ->
  switch_eff s type tid sid m buf o d x ->
  dec_inv s (sw_dec x) /\ quiet d (sw_dec x) /\
  (d_refs (sw_dec x) = d_refs d \/
   exists q old, type = OBU_SEQ_HDR /\ seq_accepted (s_strict s) buf (8 * o) q /\ d_seq d = Some old /\
     same_sequence q old = false /\ d_refs (sw_dec x) = repeat slot0 8 /\ d_fhdr (sw_dec x) = None) /\
  (forall r d', x = SwRet r d' -> r = ERANGE_).
Proof.
  intros s type tid sid m buf o d x I Ho Ht Hs HX.
  destruct HX as [(-> & [(-> & _)|(q & Q & ->)])|[(HT & HX)|[(-> & [(_ & ->)|(h & Hh & HX)])|[(-> & HX)|[(-> & ->)|(_ & _ & _ & _ & _ & ->)]]]]];
    cbn [sw_dec].
  - repeat (apply conj); auto; discriminate.
  - assert (G : seq_good q). { destruct Q as (sq & p & _ & _ & Q1 & Q2). split; eauto. }
    destruct (inv_new_seq s q d I G) as (J1 & J2 & J3 & _). split; [auto|]. split; [auto|]. split; [|discriminate].
    destruct J3 as [J3|(old & O1 & O2 & O3 & O4)]; [left; auto|right]. exists q, old. repeat (apply conj); auto.
  - destruct (frame_eff_inv s type tid sid m buf (8 * o) d x I Ht Hs ltac:(lia) HX) as (J1 & J2 & J3 & J4 & J5).
    repeat (apply conj); auto; apply J2.
  - repeat (apply conj); auto; discriminate.
  - destruct (tile_eff_inv s h m _ _ _ _ I Hh HX) as (J1 & J2 & J3 & J4 & J5 & J6).
    split; [auto|]. split; [auto|]. split; [auto|]. intros r d' X. destruct (J6 _ _ X).
  - assert (MQ : forall d1, quiet d d1 -> d_refs d1 = d_refs d -> d_seq d1 = d_seq d -> d_fhdr d1 = d_fhdr d ->
        d_tiles d1 = d_tiles d -> d_n_tiles d1 = d_n_tiles d -> dec_inv s d1).
    { intros d1 K1 K2 K3 K4 K5 K6. apply (inv_quiet s d); auto.
      - rewrite K3. apply (inv_seq _ _ I).
      - intros h Hh. rewrite K4 in Hh. destruct (inv_hdr _ _ I h Hh) as (q & Q1 & Q2 & Q3 & Q4).
        exists q. unfold slot_hdrs in *. rewrite K2, K3, K5, K6. auto. }
    destruct HX as [(-> & _)|(t & p & _ & _ & [(_ & v & _ & ->)|[(_ & v & _ & ->)|[(_ & v & _ & ->)|(-> & _)]]])];
      cbn [sw_dec]; (split; [first [exact I | apply MQ; solve [quiet_tac|reflexivity]]|split; [quiet_tac|split; [left; reflexivity|discriminate]]]).
  - split; [|split; [quiet_tac|split; [left; reflexivity|discriminate]]].
    apply (inv_quiet s d _ I); [quiet_tac|reflexivity|apply (inv_seq _ _ I)|].
    intros h Hh. destruct (inv_hdr _ _ I h Hh) as (q & Q). exists q. exact Q.
  - repeat (apply conj); auto; discriminate.
Qed.

(** * The ring of frame contexts *)
Lemma upd_nth_length : forall A (l : list A) i x, (i < length l)%nat -> length (upd_nth l i x) = length l.
Proof. intros A l i x H. unfold upd_nth. rewrite app_length, firstn_length. cbn [length]. rewrite skipn_length. lia. Qed.
Lemma upd_nth_Forall : forall A (P : A -> Prop) l i x, Forall P l -> P x -> Forall P (upd_nth l i x).
Proof.
  intros A P l i x H Hx. unfold upd_nth. apply Forall_app. split; [apply Forall_firstn; auto|].
  constructor; auto. apply Forall_skipn. auto.
Qed.
Lemma upd_nth_same : forall A (l : list A) i x d, (i < length l)%nat -> nth i (upd_nth l i x) d = x.
Proof.
  intros A l i x d H. unfold upd_nth. rewrite app_nth2; rewrite firstn_length_le by lia; [|lia].
  rewrite Nat.sub_diag. reflexivity.
Qed.
Definition fc_data (f : fctx) : Prop := forall p, fc_out f = Some p -> has_data p = true.
Lemma all_data_parts : forall d, all_data (queued d) <->
  (forall p, d_out d = Some p -> has_data p = true) /\ (forall p, d_cache d = Some p -> has_data p = true) /\
  Forall fc_data (d_fc d).
Proof.
  intros d. unfold all_data, queued. rewrite !Forall_app.
  assert (O : forall o, Forall (fun p => has_data p = true) (opt_list o) <-> forall p, o = Some p -> has_data p = true).
  { intros [p|]; cbn [opt_list]; split; intros H.
    - intros p' X. injection X as <-. inversion H; auto.
    - constructor; auto.
    - discriminate.
    - constructor. }
  rewrite !O.
  assert (R : Forall (fun p => has_data p = true) (ring_pics (d_fc d)) <-> Forall fc_data (d_fc d)).
  { unfold ring_pics. induction (d_fc d) as [|f l IH]; cbn [flat_map]; [split; constructor|].
    rewrite Forall_app, O, IH. split; [intros (H1 & H2); constructor; auto|intros H; inversion H; subst; auto]. }
  rewrite R. reflexivity.
Qed.

Definition core (d d1 : dec) : Prop :=
  d_idc d1 = d_idc d /\ d_max_sid d1 = d_max_sid d /\ d_seq d1 = d_seq d /\ d_fhdr d1 = d_fhdr d /\
  d_tiles d1 = d_tiles d /\ d_n_tiles d1 = d_n_tiles d /\ d_refs d1 = d_refs d /\ d_cll d1 = d_cll d /\
  d_mdcv d1 = d_mdcv d /\ d_itut d1 = d_itut d /\ d_frame_flags d1 = d_frame_flags d /\ d_drain d1 = d_drain d /\
  d_in d1 = d_in d /\ d_jobs d1 = d_jobs d /\ d_cache d1 = d_cache d.
Definition outs (e : list ev) : Prop := Forall (fun x => match x with EvOut _ => True | _ => False end) e.

(** What taking the next frame context does. *)
Definition ring_eff (s : settings) (d d1 : dec) (e : list ev) : Prop :=
  let f := nth (d_next d) (d_fc d) fctx0 in
  core d d1 /\ d_next d1 = ring_next s d /\
  length (d_fc d1) = length (d_fc d) /\
  (forall k, k <> d_next d -> nth k (d_fc d1) fctx0 = nth k (d_fc d) fctx0) /\
  nth (d_next d) (d_fc d1) fctx0 = mkFctx 0 (fc_err f) None /\
  ((fc_ret f <> 0 /\ e = [] /\ d_out d1 = d_out d /\ d_event_flags d1 = d_event_flags d /\
    d_cached_error d1 = fc_ret f /\ d_err_props d1 = match fc_out f with Some p => tp_props p | None => props0 end) \/
   (fc_ret f = 0 /\ d_cached_error d1 = d_cached_error d /\ d_err_props d1 = d_err_props d /\
    match fc_out f with
    | Some p => if shown s p && negb (tp_bad p)
                then e = [EvOut p] /\ d_out d1 = Some p /\
                     d_event_flags d1 = Z.lor (d_event_flags d) (event_flags_of p)
                else e = [] /\ d_out d1 = d_out d /\ d_event_flags d1 = d_event_flags d
    | None => e = [] /\ d_out d1 = d_out d /\ d_event_flags d1 = d_event_flags d
    end)).
Lemma upd_nth_other : forall A (l : list A) i k x d, (i < length l)%nat -> k <> i -> nth k (upd_nth l i x) d = nth k l d.
Proof.
  intros A l i k x d H Hk. unfold upd_nth. rewrite <- (firstn_skipn i l) at 3.
  destruct (Nat.lt_ge_cases k i).
  - rewrite !app_nth1; auto; rewrite firstn_length_le; lia.
  - rewrite !app_nth2; rewrite firstn_length_le; try lia.
    destruct (k - i)%nat as [|n] eqn:E; [lia|]. cbn [nth].
    replace (skipn (S i) l) with (skipn 1 (skipn i l)) by (rewrite skipn_add; f_equal; lia).
    destruct (skipn i l); [destruct n; reflexivity|reflexivity].
Qed.
Theorem ring_take_ok : forall s d, (d_next d < length (d_fc d))%nat -> d_out d = None ->
  exists d1 e, ring_take s d = Ok (d1, e) /\ ring_eff s d d1 e.
Proof.
  intros s d Hn Ho. unfold ring_take, ring_eff. cbv zeta.
  replace (d_next d <? length (d_fc d))%nat with true by (symmetry; apply Nat.ltb_lt; auto).
  set (f := nth (d_next d) (d_fc d) fctx0).
  destruct (Z.eqb_spec (fc_ret f) 0) as [E0|N0]; cbn [negb].
  - destruct (fc_out f) as [p|] eqn:EO.
    + destruct (shown s p && negb (tp_bad p)) eqn:ES.
      * unfold put_out. dsimp. rewrite Ho. cbn [is_none obind]. eexists; eexists. split; [reflexivity|]. dsimp.
        split; [repeat (apply conj); reflexivity|]. split; [reflexivity|].
        split; [apply upd_nth_length; auto|]. split; [intros; apply upd_nth_other; auto|].
        split; [apply upd_nth_same; auto|]. right. auto 10.
      * eexists; eexists. split; [reflexivity|]. dsimp.
        split; [repeat (apply conj); reflexivity|]. split; [reflexivity|].
        split; [apply upd_nth_length; auto|]. split; [intros; apply upd_nth_other; auto|].
        split; [apply upd_nth_same; auto|]. right. auto 10.
    + eexists; eexists. split; [reflexivity|]. dsimp.
      split; [repeat (apply conj); reflexivity|]. split; [reflexivity|]. split; [reflexivity|]. split; [auto|].
      split. { fold f. destruct f as [a b c]. cbn in *. subst. reflexivity. }
      right. auto 10.
  - eexists; eexists. split; [reflexivity|]. dsimp.
    split; [repeat (apply conj); reflexivity|]. split; [reflexivity|].
    split; [apply upd_nth_length; auto|]. split; [intros; apply upd_nth_other; auto|].
    split; [apply upd_nth_same; auto|]. left. auto 10.
Qed.
Lemma ring_next_lt : forall s d, Z.of_nat (length (d_fc d)) = s_n_fc s -> (d_next d < length (d_fc d))%nat ->
  (ring_next s d < length (d_fc d))%nat.
Proof. intros s d E H. unfold ring_next. destruct (Z.eqb_spec (Z.of_nat (S (d_next d))) (s_n_fc s)); lia. Qed.
Lemma ring_inv : forall s d d1 e, dec_inv s d -> ring_eff s d d1 e -> dec_inv s d1.
Proof.
  intros s d d1 e I R. unfold ring_eff in R. cbv zeta in R.
  destruct R as (C & N & L & K & F & D). destruct C as (_ & _ & C3 & C4 & C5 & C6 & C7 & C8).
  pose proof (inv_pics _ _ I) as P. apply all_data_parts in P. destruct P as (P1 & P2 & P3).
  assert (FD : fc_data (nth (d_next d) (d_fc d) fctx0)).
  { apply Forall_forall with (x := nth (d_next d) (d_fc d) fctx0) in P3; auto. apply nth_In, (inv_next _ _ I). }
  constructor.
  - apply (inv_nfc _ _ I).
  - rewrite L. apply (inv_fc _ _ I).
  - rewrite N, L. apply ring_next_lt; [apply (inv_fc _ _ I)|apply (inv_next _ _ I)].
  - rewrite C7. apply (inv_refs _ _ I).
  - unfold slot_hdrs. rewrite C7. apply (inv_hist _ _ I).
  - rewrite C7. apply (inv_slots _ _ I).
  - rewrite C3. apply (inv_seq _ _ I).
  - rewrite C4. intros h Hh. destruct (inv_hdr _ _ I h Hh) as (q & Q). exists q. unfold slot_hdrs in *.
    rewrite C3, C5, C6, C7. exact Q.
  - apply all_data_parts. split; [|split].
    + intros p Hp. destruct D as [(_ & _ & D & _)|(_ & _ & _ & D)]; [rewrite D in Hp; auto|].
      destruct (fc_out (nth (d_next d) (d_fc d) fctx0)) as [p'|] eqn:EO.
      * destruct (shown s p' && negb (tp_bad p')); destruct D as (_ & D & _); rewrite D in Hp; auto.
        injection Hp as <-. apply (FD p'); auto.
      * destruct D as (_ & D & _). rewrite D in Hp. auto.
    + intros p Hp. apply P2. rewrite <- Hp. symmetry. apply C8.
    + apply Forall_forall. intros f Hf. apply (In_nth _ _ fctx0) in Hf. destruct Hf as (k & Hk & <-).
      destruct (Nat.eq_dec k (d_next d)) as [->|Nk].
      * rewrite F. intros p X. discriminate.
      * rewrite K by auto. rewrite L in Hk. apply Forall_forall with (x := nth k (d_fc d) fctx0) in P3; auto. apply nth_In; auto.
Qed.

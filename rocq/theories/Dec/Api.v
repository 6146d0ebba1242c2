(** The calls of the decoding API, the states they reach, and that no call is ever
    undefined. *)
From Coq Require Import ZArith List Bool Lia.
From Verif Require Import Base.CInt Base.Lemmas GetBits.Model GetBits.Spec GetBits.AtPos
  Obu.SeqModel Obu.SeqRel Obu.ObuSpec Obu.FrameModel Obu.FrameRel Obu.FrameHist
  Dec.State Dec.Submit Dec.ObuModel Dec.LibModel Dec.Front Dec.Wf Dec.Inv Dec.Meta Dec.Step Dec.SubmitProofs Dec.Parse Dec.Micro.
Import ListNotations.
Open Scope Z_scope.
Local Open Scope outcome_scope.

Inductive call : Type :=
| Send (pkt : option (list Z * props))   (* dav1d_send_data *)
| Get                                    (* dav1d_get_picture *)
| Flush                                  (* dav1d_flush *)
| EventFlags                             (* dav1d_get_event_flags *)
| ErrorProps.                            (* dav1d_get_decode_error_data_props *)

(** What the caller sees: return value (or flags, or properties), whether the
    packet was taken, the picture. *)
Record reply : Type := mkReply { rp_ret : Z; rp_taken : bool; rp_pic : option opic }.

Definition api (o : oracle) (s : settings) (c : call) (d : dec) : outcome (reply * dec * list ev) :=
  match c with
  | Send pkt => let! (r, t, d, e) := send_data o s pkt d in Ok (mkReply r t None, d, e)
  | Get => let! (r, p, d, e) := get_picture o s d in Ok (mkReply r false p, d, e)
  | Flush => Ok (mkReply 0 false None, flush s d, [EvFlush])
  | EventFlags => let (f, d) := get_event_flags d in Ok (mkReply f false None, d, [])
  | ErrorProps => let (m, d) := get_decode_error_data_props d in Ok (mkReply m false None, d, [])
  end.
(** The caller passes bytes. *)
Definition call_ok (c : call) : Prop :=
  match c with Send (Some (buf, _)) => Forall is_byte buf | _ => True end.

(** States reached by API calls, and by the parsing steps inside them. *)
Inductive live (o : oracle) (s : settings) : dec -> Prop :=
| live_start : live o s (dec0 s)
| live_api : forall c d r d' e, live o s d -> call_ok c -> api o s c d = Ok (r, d', e) -> live o s d'
| live_step : forall buf m d r d' e, live o s d -> d_out d = None -> Forall is_byte buf -> 0 < zlen buf ->
    parse_obus o s buf m d = Ok (r, d', e) -> live o s d'.

(** * Safety *)
Definition in_ok (d : dec) : Prop :=
  forall buf m, d_in d = Some (buf, m) -> Forall is_byte buf /\ 0 < zlen buf.
Definition live_inv (s : settings) (d : dec) : Prop := dec_inv s d /\ in_ok d.

(** Fields that matter to the invariant. *)
Lemma inv_eq : forall s d d1, dec_inv s d -> d_fc d1 = d_fc d -> d_next d1 = d_next d -> d_refs d1 = d_refs d ->
  d_seq d1 = d_seq d -> d_fhdr d1 = d_fhdr d -> d_tiles d1 = d_tiles d -> d_n_tiles d1 = d_n_tiles d ->
  (forall p, d_out d1 = Some p -> has_data p = true) -> (forall p, d_cache d1 = Some p -> has_data p = true) -> dec_inv s d1.
Proof.
  intros s d d1 I E1 E2 E3 E4 E5 E6 E7 E8 E9. destruct I as [I1 I2 I3 I4 I5 I6 I7 I8 I9].
  constructor; unfold slot_hdrs in *; rewrite ?E1, ?E2, ?E3, ?E4, ?E5; auto.
  - intros h Hh. destruct (I8 h Hh) as (q & Q). exists q. unfold slot_hdrs in *. rewrite E3, E4, E6, E7. exact Q.
  - apply all_data_parts. apply all_data_parts in I9. rewrite E1. split; [auto|]. split; [auto|]. apply I9.
Qed.
Lemma inv_pending : forall s d, dec_inv s d ->
  (forall p, d_out d = Some p -> has_data p = true) /\ (forall p, d_cache d = Some p -> has_data p = true).
Proof. intros s d I. pose proof (inv_pics _ _ I) as P. apply all_data_parts in P. tauto. Qed.

(** output_picture_ready: it may move the picture to the cache. *)
Definition opr_eff (s : settings) (drain : bool) (d : dec) (rdy : bool) (d1 : dec) : Prop :=
  (d1 = d \/ exists p, one_layer s d = true /\ d_out d = Some p /\ rdy = false /\ d1 = w_out None (w_cache (Some p) d)) /\
  (rdy = true -> d1 = d /\ (d_cached_error d <> 0 \/
     if one_layer s d then d_cache d <> None /\ (drain = false -> d_out d <> None) else d_out d <> None)) /\
  (rdy = false -> d_cached_error d = 0 /\ d_out d1 = None /\ (one_layer s d = true -> drain = true -> d_out d = None -> d_cache d = None)).
Lemma opr_ok : forall s b d rdy d1, output_picture_ready s b d = (rdy, d1) -> opr_eff s b d rdy d1.
Proof.
  intros s b d rdy d1 E. unfold output_picture_ready in E. unfold opr_eff.
  destruct (Z.eqb_spec (d_cached_error d) 0) as [CE|CE]; cbn [negb] in E.
  2:{ injection E as <- <-. split; [auto|]. split; [auto|discriminate]. }
  destruct (one_layer s d) eqn:OL.
  - destruct (d_out d) as [p|] eqn:EO; destruct (d_cache d) as [q|] eqn:EC.
    + destruct (_ || _); injection E as <- <-.
      * split; [auto|]. split; [|discriminate]. intros _. split; [auto|]. right. split; [discriminate|]. intros _. congruence.
      * split; [right; eauto 10|]. split; [discriminate|]. intros _. dsimp. split; [auto|]. split; [auto|]. congruence.
    + injection E as <- <-. split; [right; eauto 10|]. split; [discriminate|]. intros _. dsimp. split; [auto|]. split; [auto|]. congruence.
    + injection E as <- <-. split; [auto|]. split.
      * intros ->. split; [auto|]. right. split; [discriminate|]. discriminate.
      * intros ->. rewrite EO. split; [auto|]. split; [auto|]. discriminate.
    + injection E as <- <-. split; [auto|]. split; [discriminate|]. intros _. rewrite EO. auto.
  - injection E as <- <-. split; [auto|]. split.
    + destruct (d_out d); [|discriminate]. intros _. split; [auto|]. right. discriminate.
    + destruct (d_out d); [discriminate|]. intros _. split; [auto|]. split; [auto|]. discriminate.
Qed.
Lemma opr_inv : forall s b d rdy d1, output_picture_ready s b d = (rdy, d1) -> live_inv s d -> live_inv s d1.
Proof.
  intros s b d rdy d1 E (I & J). destruct (opr_ok _ _ _ _ _ E) as ([->|(p & _ & EO & _ & ->)] & _); [split; auto|].
  destruct (inv_pending _ _ I) as (P1 & P2).
  split; [|exact J]. apply (inv_eq s d _ I); try reflexivity; dsimp; [discriminate|]. intros p' X. injection X as <-. auto.
Qed.
Lemma image_ok : forall o s d, live_inv s d -> (if one_layer s d then d_cache d <> None else d_out d <> None) ->
  exists r p d1, output_image o s d = Ok (r, p, d1) /\ live_inv s d1 /\
    (p = None -> r < 0) /\ (forall x, p = Some x -> r = 0 /\ (if one_layer s d then d_cache d else d_out d) = Some (op_pic x)) /\
    d_out d1 = None /\ d_cache d1 = (if one_layer s d then d_out d else d_cache d) /\ d_in d1 = d_in d /\
    d_fc d1 = d_fc d /\ d_cached_error d1 = d_cached_error d /\ d_refs d1 = d_refs d.
Proof.
  intros o s d (I & J) H. unfold output_image, source. destruct (inv_pending _ _ I) as (P1 & P2).
  assert (K : forall p, exists r x, (if negb (s_apply_grain s) || negb (has_grain p) then (0, Some (mkOpic p false))
      else if o_grain o p <? 0 then (o_grain o p, None) else (0, Some (mkOpic p true))) = (r, x) /\
      (x = None -> r < 0) /\ (forall y, x = Some y -> r = 0 /\ op_pic y = p)).
  { intros p. destruct (_ || _).
    - eexists; eexists. split; [reflexivity|]. split; [discriminate|]. intros y X. injection X as <-. auto.
    - destruct (Z.ltb_spec (o_grain o p) 0).
      + eexists; eexists. split; [reflexivity|]. split; [auto|discriminate].
      + eexists; eexists. split; [reflexivity|]. split; [discriminate|]. intros y X. injection X as <-. auto. }
  destruct (one_layer s d) eqn:OL.
  - destruct (d_cache d) as [p|] eqn:EC; [|contradiction]. destruct (K p) as (r & x & -> & K1 & K2).
    eexists; eexists; eexists. split; [reflexivity|]. split.
    { split; [|exact J]. apply (inv_eq s d _ I); try reflexivity; dsimp; [discriminate|auto]. }
    split; [auto|]. split; [|dsimp; auto 10]. intros y X. destruct (K2 y X) as (-> & ->). auto.
  - destruct (d_out d) as [p|] eqn:EC; [|contradiction]. destruct (K p) as (r & x & -> & K1 & K2).
    eexists; eexists; eexists. split; [reflexivity|]. split.
    { split; [|exact J]. apply (inv_eq s d _ I); try reflexivity; dsimp; [discriminate|auto]. }
    split; [auto|]. split; [|dsimp; auto 10]. intros y X. destruct (K2 y X) as (-> & ->). auto.
Qed.

(** parse_obus leaves the pending packet alone. *)
Definition keeps_in (d d1 : dec) : Prop := d_in d1 = d_in d /\ d_drain d1 = d_drain d.
Lemma ring_take_core : forall s d d1 e, ring_take s d = Ok (d1, e) -> core d d1 /\ d_out d = None \/ core d d1 /\ d_out d1 = d_out d.
Proof.
  intros s d d1 e E. unfold ring_take in E. destruct (_ <? _)%nat; [|discriminate].
  destruct (negb _).
  - injection E as <- <-. right. split; [repeat (apply conj); reflexivity|reflexivity].
  - destruct (fc_out _) as [p|].
    + destruct (_ && _).
      * unfold put_out in E. dsimp. destruct (d_out d); [discriminate|]. cbn [is_none obind] in E. injection E as <- <-.
        left. split; [repeat (apply conj); reflexivity|reflexivity].
      * injection E as <- <-. right. split; [repeat (apply conj); reflexivity|reflexivity].
    + injection E as <- <-. right. split; [repeat (apply conj); reflexivity|reflexivity].
Qed.

(** The fields that only a sequence header, or nothing in dav1d_parse_obus, changes. *)
Definition same_op (d d1 : dec) : Prop :=
  d_seq d1 = d_seq d /\ d_idc d1 = d_idc d /\ d_max_sid d1 = d_max_sid d /\ d_in d1 = d_in d /\ d_drain d1 = d_drain d /\ d_cache d1 = d_cache d.
Lemma same_op_refl : forall d, same_op d d.
Proof. intros; unfold same_op; auto 10. Qed.
Lemma same_op_trans : forall a b c, same_op a b -> same_op b c -> same_op a c.
Proof. unfold same_op. intros a b c H1 H2. intuition congruence. Qed.
Ltac so := unfold same_op; dsimp; repeat (apply conj); reflexivity.
Lemma show_same_op : forall s n q h m d r d1 e, show_existing s n q h m d = Ok (r, d1, e) -> same_op d d1.
Proof.
  intros s n q h m d r d1 e E. unfold show_existing in E. cbv zeta in E.
  destruct (r_pic _) as [p|]; [|injection E as <- <- <-; so].
  destruct (dft_drops_shown _ _); [injection E as <- <- <-; unfold skip_frame; so|].
  destruct (negb _); [injection E as <- <- <-; so|].
  destruct (_ && _); [injection E as <- <- <-; so|].
  destruct (_ =? 1).
  - unfold put_out in E. destruct (is_none _); [|discriminate]. cbn [obind] in E. injection E as <- <- <-.
    destruct (_ =? FT_KEY); unfold key_refresh; so.
  - destruct (ring_take s d) as [[d2 e2]|] eqn:ER; [|discriminate]. cbn [obind] in E. injection E as <- <- <-.
    assert (SO : same_op d d2).
    { destruct (ring_take_core _ _ _ _ ER) as [(C & _)|(C & _)]; unfold same_op; repeat (apply conj); apply C. }
    eapply same_op_trans; [exact SO|]. destruct (_ =? FT_KEY); unfold key_refresh; so.
Qed.
Lemma after_same_op : forall o s n m d r d1 e, dec_inv s d -> d_out d = None -> after_switch o s n m d = Ok (r, d1, e) -> same_op d d1.
Proof.
  intros o s n m d r d1 e I EO E. unfold after_switch in E.
  destruct (d_seq d) as [q|] eqn:ES; [|injection E as <- <- <-; apply same_op_refl].
  destruct (d_fhdr d) as [h|] eqn:EH; [|injection E as <- <- <-; apply same_op_refl].
  destruct (show_hdr s d q h I ES EH) as [S0|(S1 & _)].
  - rewrite S0 in E. cbn [z2b Z.eqb negb] in E.
    destruct (_ =? _); [|injection E as <- <- <-; apply same_op_refl].
    unfold frame_complete in E. destruct (dft_drops s h); [injection E as <- <- <-; unfold skip_frame; so|].
    destruct (is_none (hd_error (d_tiles d))) eqn:ET; [injection E as <- <- <-; so|].
    assert (NT : d_tiles d <> []) by (destruct (d_tiles d); [discriminate|discriminate]).
    destruct (submit_ok o s q h m d I ES EH S0 NT EO) as (r2 & d2 & e2 & X & _ & _ & Q1 & _ & _ & Q2 & Q3 & Q4 & Q5 & Q6 & _).
    rewrite X in E. cbn [obind] in E. assert (SO : same_op d d2) by (unfold same_op; auto 10).
    destruct (r2 <? 0); [injection E as <- <- <-; exact SO|]. destruct (is_none (hd_error (d_tiles d2))); [|discriminate]. injection E as <- <- <-.
    eapply same_op_trans; [exact SO|so].
  - rewrite S1 in E. cbn [z2b Z.eqb negb] in E. exact (show_same_op _ _ _ _ _ _ _ _ _ E).
Qed.
(** The sequence header in force determines the operating point. *)
Definition selected (s : settings) (q : seq_hdr) : Z :=
  op_idc (nth (Z.to_nat (if s_operating_point s <? num_operating_points q then s_operating_point s else 0))
    (operating_points q) op_point0).
Definition op_ok (s : settings) (d : dec) : Prop :=
  forall q, d_seq d = Some q -> d_idc d = selected s q /\
    d_max_sid d = if z2b (Z.shiftr (selected s q) 8) then ulog2 (Z.shiftr (selected s q) 8) else 0.
Lemma new_seq_keeps : forall s q d, op_ok s (new_seq_hdr s q d) /\ d_in (new_seq_hdr s q d) = d_in d /\
  d_drain (new_seq_hdr s q d) = d_drain d /\ d_cache (new_seq_hdr s q d) = d_cache d.
Proof.
  intros s q d. unfold new_seq_hdr, op_ok, selected. cbv zeta. destruct (d_seq d) as [old|] eqn:ES; dsimp; rewrite ES; dsimp.
  - destruct (same_sequence q old); cbn [negb]; [destruct (same_op_info q old); cbn [negb]|]; dsimp;
      (split; [intros q' X; injection X as <-; auto|auto]).
  - split; [intros q' X; injection X as <-; auto|auto].
Qed.
Lemma switch_keeps : forall s type tid sid m buf o d x, switch_eff s type tid sid m buf o d x ->
  (op_ok s d -> op_ok s (sw_dec x)) /\ d_in (sw_dec x) = d_in d /\ d_drain (sw_dec x) = d_drain d /\ d_cache (sw_dec x) = d_cache d.
Proof.
  intros s type tid sid m buf o d x HX.
  assert (SO : forall d1, same_op d d1 -> (op_ok s d -> op_ok s d1) /\ d_in d1 = d_in d /\ d_drain d1 = d_drain d /\ d_cache d1 = d_cache d).
  { intros d1 (A1 & A2 & A3 & A4 & A5 & A6). unfold op_ok. rewrite A1, A2, A3. auto. }
  assert (TE : forall h pos d0, same_op d d0 -> tile_eff h m buf pos d0 x -> same_op d (sw_dec x)).
  { intros h pos d0 S0 [(-> & _)|(st & en & data & _ & _ & [(_ & ->)|(_ & _ & ->)])]; cbn [sw_dec]; auto;
      (eapply same_op_trans; [exact S0|so]). }
  destruct HX as [(-> & [(-> & _)|(q & Q & ->)])|[(HT & HX)|[(-> & [(_ & ->)|(h & Hh & HX)])|[(-> & HX)|[(-> & ->)|(_ & _ & _ & _ & _ & ->)]]]]];
    cbn [sw_dec]; try solve [apply SO; apply same_op_refl].
  - destruct (new_seq_keeps s q d) as (A & B & C & D). auto.
  - apply SO. destruct HX as [(-> & _)|(q & ES & [->|(h & c & c' & At & E & [->|[(-> & _)|(UL & [(_ & ->)|(_ & _ & p & _ & _ & HX)])]])])];
      cbn [sw_dec]; try solve [so]. eapply (TE h _ (new_hdr h d)); [unfold new_hdr; so|exact HX].
  - apply SO. exact (TE h _ d (same_op_refl d) HX).
  - apply SO. destruct HX as [(-> & _)|(t & p & _ & _ & [(_ & v & _ & ->)|[(_ & v & _ & ->)|[(_ & v & _ & ->)|(-> & _)]]])];
      cbn [sw_dec]; so.
  - apply SO. so.
Qed.
Lemma parse_keeps : forall o s buf m d r d1 e, dec_inv s d -> d_out d = None -> Forall is_byte buf -> 0 < zlen buf ->
  parse_obus o s buf m d = Ok (r, d1, e) ->
  (op_ok s d -> op_ok s d1) /\ d_in d1 = d_in d /\ d_drain d1 = d_drain d /\ d_cache d1 = d_cache d.
Proof.
  intros o s buf m d r d1 e I EO HB HL E. unfold parse_obus in E.
  destruct (obu_open_ok (s_strict s) buf HB HL) as (x & EX & X). rewrite EX in E. cbn [obind] in E.
  destruct x as [[[[[type ext] tid] sid] c]|]; [|injection E as <- <- <-; auto].
  destruct X as (h & start & stop & N & ST & -> & -> & -> & -> & R1 & R2 & R3 & R4 & R5 & R6 & GE & AP).
  destruct (layer_dropped _ _ _ _ _); [injection E as <- <- <-; auto|].
  assert (ZS : zlen (firstn (Z.to_nat stop) buf) = stop) by (apply zlen_firstn; lia).
  destruct (obu_switch_ok s (obu_type h) (temporal_id h) (spatial_id h) m (firstn (Z.to_nat stop) buf) start c d I AP ltac:(lia) ltac:(lia) ltac:(lia))
    as (x & X1 & X2). rewrite X1 in E. cbn [obind] in E.
  destruct (switch_inv s (obu_type h) (temporal_id h) (spatial_id h) m (firstn (Z.to_nat stop) buf) start d x I ltac:(lia) ltac:(lia) ltac:(lia) X2)
    as (I1 & Q & _ & _).
  assert (O1 : d_out (sw_dec x) = None) by (rewrite <- EO; apply Q).
  destruct (switch_keeps _ _ _ _ _ _ _ _ _ X2) as (K1 & K2 & K3 & K4).
  destruct x as [d2|d2|r2 d2]; cbn [sw_dec] in *.
  - destruct (after_same_op _ _ _ _ _ _ _ _ I1 O1 E) as (A1 & A2 & A3 & A4 & A5 & A6).
    split; [|split; [|split]]; try congruence. intros H q Hq. rewrite A1 in Hq. rewrite A2, A3. apply (K1 H); auto.
  - injection E as <- <- <-. auto.
  - injection E as <- <- <-. auto.
Qed.

(** ** gen_picture *)
Lemma firstn_skipn_bytes : forall buf r, Forall is_byte buf -> 0 <= r < zlen buf ->
  Forall is_byte (skipn (Z.to_nat r) buf) /\ 0 < zlen (skipn (Z.to_nat r) buf) /\ zlen (skipn (Z.to_nat r) buf) = zlen buf - r.
Proof.
  intros buf r H Hr. split; [apply Forall_skipn; auto|]. unfold zlen in *. rewrite skipn_length. lia.
Qed.

Section Gen.
Variables (o : oracle) (s : settings).
Local Notation steps := (steps o s).
(** Safety of the loop, its steps, and what holds when it ends. *)
Definition gen_post (r : Z) (d1 : dec) : Prop :=
  live_inv s d1 /\ op_ok s d1 /\ (r < 0 \/ r = 0) /\
  (r < 0 -> d_in d1 = None /\ d_out d1 = None /\ d_cached_error d1 = 0) /\
  (d_in d1 <> None -> output_picture_ready s false d1 = (true, d1)) /\
  (output_picture_ready s false d1 = (true, d1) \/ d_out d1 = None).
(** A negative result is the one of the last step of dav1d_parse_obus. *)
Definition last_parse (r : Z) (e : list ev) : Prop :=
  r < 0 -> exists pre buf m sid post, e = pre ++ EvParse buf m r sid :: post /\ Forall plain post.
Definition parse_ev (x : ev) : Prop := match x with EvParse _ _ _ _ => True | _ => plain x end.
Lemma gen_loop_ok : forall fuel d evs, live_inv s d -> op_ok s d -> d_out d = None -> d_cached_error d = 0 ->
  (match d_in d with Some (buf, _) => (length buf <= fuel)%nat | None => True end) ->
  exists r d1 evs1, gen_loop fuel o s d evs = Ok (r, d1, evs ++ evs1) /\ steps d evs1 d1 /\ Forall parse_ev evs1 /\ last_parse r evs1 /\ gen_post r d1.
Proof.
  unfold gen_post.
  induction fuel as [|fuel IH]; intros d evs (I & J) OP EO EC HF; cbn [gen_loop].
  - destruct (d_in d) as [[buf m]|] eqn:EI.
    + destruct (J buf m EI) as (_ & X). unfold zlen in X. lia.
    + exists 0, d, []. rewrite app_nil_r. split; [reflexivity|]. split; [constructor|]. split; [constructor|]. split; [intro; lia|].
      split; [split; auto|]. split; [auto|]. split; [auto|]. split; [lia|]. split; [congruence|auto].
  - destruct (d_in d) as [[buf m]|] eqn:EI.
    2:{ exists 0, d, []. rewrite app_nil_r. split; [reflexivity|]. split; [constructor|]. split; [constructor|]. split; [intro; lia|].
        split; [split; auto|]. split; [auto|]. split; [auto|]. split; [lia|]. split; [congruence|auto]. }
    destruct (J buf m EI) as (HB & HL).
    destruct (parse_obus_ok o s buf m d I EO HB HL) as (r & d1 & e & X & I1 & _ & RR & OO).
    destruct (parse_keeps o s buf m d r d1 e I EO HB HL X) as (K1 & K2 & K3 & K4). specialize (K1 OP).
    pose proof (parse_plain _ _ _ _ _ _ _ _ X) as PL.
    pose proof (m_parse o s d buf m r d1 e I HB HL EI EO EC X) as MP.
    rewrite X. cbn [obind].
    assert (STEP : (if r <? 0 then Ok (w_in None d1)
         else guard! r <=? zlen buf in
              Ok (w_in (if r =? zlen buf then None else Some (skipn (Z.to_nat r) buf, m)) d1)) = Ok (w_in (rest r buf m) d1) /\
         live_inv s (w_in (rest r buf m) d1) /\ (r < 0 -> rest r buf m = None) /\
         (match rest r buf m with Some (b, _) => (length b <= fuel)%nat | None => True end)).
    { destruct (inv_pending _ _ I1) as (P1 & P2). unfold rest.
      assert (IW : forall nin, dec_inv s (w_in nin d1)) by (intros nin; apply (inv_eq s d1 _ I1); auto).
      destruct (Z.ltb_spec r 0) as [LT|GE]; cbn [orb].
      - split; [reflexivity|]. split; [split; [apply IW|intros b m' Y; discriminate]|auto].
      - destruct RR as [RR|RR]; [lia|]. replace (r <=? zlen buf) with true by lia.
        destruct (Z.eqb_spec r (zlen buf)) as [E|NE].
        + split; [reflexivity|]. split; [split; [apply IW|intros b m' Y; discriminate]|]. split; [lia|auto].
        + destruct (firstn_skipn_bytes buf r HB ltac:(lia)) as (S1 & S2 & S3).
          split; [reflexivity|]. split; [split; [apply IW|intros b m' Y; dsimp; injection Y as <- <-; auto]|].
          split; [lia|]. unfold zlen in *. lia. }
    destruct STEP as (-> & LI & N1 & N2). cbn [obind]. set (nin := rest r buf m) in *. clearbody nin.
    destruct (output_picture_ready s false (w_in nin d1)) as [rdy d2] eqn:ER.
    pose proof (opr_inv _ _ _ _ _ ER LI) as LI2. destruct (opr_ok _ _ _ _ _ ER) as (Q1 & Q2 & Q3).
    assert (OP2 : op_ok s d2 /\ d_in d2 = nin).
    { destruct Q1 as [->|(p & _ & _ & _ & ->)]; (split; [exact K1|reflexivity]). }
    destruct OP2 as (OP2 & IN2). set (pe := EvParse buf m r (d_max_sid d1) :: e) in *.
    assert (PE : Forall parse_ev pe).
    { constructor; [exact Logic.I|]. eapply Forall_impl; [|exact PL]. intros x Hx. destruct x; try contradiction; exact Logic.I. }
    destruct rdy.
    + destruct (Q2 eq_refl) as (-> & Y).
      exists 0, (w_in nin d1), pe. split; [reflexivity|]. split; [apply steps_one; exact MP|]. split; [auto|]. split; [intro; lia|].
      split; [auto|]. split; [auto|]. split; [auto|]. split; [lia|].
      split; [intros _; exact ER|auto].
    + destruct (Q3 eq_refl) as (Q4 & Q5 & _).
      assert (S2 : steps d pe d2).
      { rewrite <- (app_nil_r pe). eapply steps_two; [exact MP|]. apply keep_step; exact ER. }
      assert (CE2 : d_cached_error d2 = 0) by (destruct Q1 as [->|(p & _ & _ & _ & ->)]; exact Q4).
      destruct (Z.ltb_spec r 0) as [LT|GE].
      * exists r, d2, pe. split; [reflexivity|]. split; [auto|]. split; [auto|].
        split; [intros _; exists [], buf, m, (d_max_sid d1), e; auto|]. split; [auto|]. split; [auto|]. split; [auto|]. split.
        { intros _. rewrite IN2. auto. }
        split; [|auto]. intros Y. rewrite IN2, (N1 LT) in Y. congruence.
      * destruct (IH d2 (evs ++ pe) LI2 OP2 Q5 CE2) as (r3 & d3 & e3 & Y1 & Y2 & Y3 & Y5 & Y4).
        { rewrite IN2. exact N2. }
        exists r3, d3, (pe ++ e3). rewrite app_assoc. split; [auto|]. split; [eapply steps_app; eauto|]. split; [apply Forall_app; auto|].
        split; [|exact Y4]. intros L3. destruct (Y5 L3) as (pre & b' & m' & sid & post & -> & PP). exists (pe ++ pre), b', m', sid, post.
        rewrite app_assoc. auto.
Qed.
Lemma gen_ok : forall d, live_inv s d -> op_ok s d ->
  exists r d1 e, gen_picture o s d = Ok (r, d1, e) /\ steps d e d1 /\ Forall parse_ev e /\ last_parse r e /\ gen_post r d1.
Proof.
  intros d LI OP. unfold gen_picture. destruct (output_picture_ready s false d) as [rdy d1] eqn:ER.
  pose proof (opr_inv _ _ _ _ _ ER LI) as LI1. destruct (opr_ok _ _ _ _ _ ER) as (Q1 & Q2 & Q3).
  assert (OP1 : op_ok s d1) by (destruct Q1 as [->|(p & _ & _ & _ & ->)]; exact OP).
  destruct rdy.
  - destruct (Q2 eq_refl) as (-> & Y). exists 0, d, []. split; [reflexivity|]. split; [constructor|]. split; [constructor|]. split; [intro; lia|].
    split; [auto|]. split; [auto|]. split; [auto|]. split; [lia|].
    split; [intros _; exact ER|auto].
  - destruct (Q3 eq_refl) as (Q4 & Q5 & _).
    assert (CE1 : d_cached_error d1 = 0) by (destruct Q1 as [->|(p & _ & _ & _ & ->)]; exact Q4).
    destruct (gen_loop_ok (match d_in d1 with Some (buf, _) => length buf | None => O end) d1 [] LI1 OP1 Q5 CE1) as (r & d2 & e & X & Y & Z & V & W).
    { destruct (d_in d1) as [[b m]|]; auto. }
    exists r, d2, e. split; [exact X|]. split; [|auto]. change e with ([] ++ e). eapply st_cons; [|exact Y]. apply keep_step; exact ER.
Qed.

(** What a call of output_image, or an error, delivers. *)
Definition lost (q : tpic) : bool := s_apply_grain s && has_grain q && (o_grain o q <? 0).
Definition delivers (r : Z) (p : option opic) (e : list ev) : Prop :=
  match p with
  | Some x => r = 0 /\ takes e = [op_pic x] /\ errs e = [] /\ lost (op_pic x) = false
  | None =>
    takes e = [] /\ errs e = [r] /\ r <> 0 \/
    takes e = [] /\ errs e = [] /\ r = EAGAIN_ \/
    (exists q, takes e = [q] /\ errs e = [] /\ o_grain o q = r /\ lost q = true)
  end.
Lemma takes_app : forall a b, takes (a ++ b) = takes a ++ takes b.
Proof. intros. apply flat_map_app. Qed.
Lemma errs_app : forall a b, errs (a ++ b) = errs a ++ errs b.
Proof. intros. apply flat_map_app. Qed.
Lemma parse_ev_none : forall e, Forall parse_ev e -> takes e = [] /\ errs e = [].
Proof. intros e H. induction H as [|x e H1 H2 (IH1 & IH2)]; [auto|]. destruct x; cbn in *; try contradiction; auto. Qed.
Lemma delivers_app : forall r p a b, takes a = [] -> errs a = [] -> delivers r p b -> delivers r p (a ++ b).
Proof.
  intros r p a b H1 H2 H. unfold delivers in *. rewrite takes_app, errs_app, H1, H2. exact H.
Qed.
Lemma image_steps : forall b d, (cut_ev b d <> [] -> d_in d = None) -> live_inv s d -> op_ok s d -> d_cached_error d = 0 -> output_picture_ready s b d = (true, d) ->
  exists r p d1, output_image o s d = Ok (r, p, d1) /\ steps d (cut_ev b d ++ take_ev s d) d1 /\ delivers r p (take_ev s d) /\
    live_inv s d1 /\ op_ok s d1 /\ d_in d1 = d_in d /\ d_out d1 = None /\ d_cached_error d1 = 0.
Proof.
  intros b d CI LI OP CE ER. destruct (opr_ok _ _ _ _ _ ER) as (_ & Q2 & _). destruct (Q2 eq_refl) as (_ & Y).
  destruct (image_ok o s d LI) as (r & p & d2 & X1 & X2 & X3 & X4 & X5 & X6 & X7 & X8 & X9 & X10).
  { destruct Y as [Y|Y]; [contradiction|]. destruct (one_layer s d); [apply Y|exact Y]. }
  exists r, p, d2. split; [auto|]. split; [apply steps_one; econstructor; eauto|].
  assert (T : delivers r p (take_ev s d) /\ op_ok s d2).
  { revert X1. unfold output_image, take_ev, delivers. destruct (source s d) as [q|]; [|discriminate].
    assert (OQ : op_ok s (if one_layer s d then w_out None (w_cache (d_out d) d) else w_out None d)) by (destruct (one_layer s d); exact OP).
    assert (L : lost q = s_apply_grain s && has_grain q && (o_grain o q <? 0)) by reflexivity.
    destruct (s_apply_grain s); destruct (has_grain q); cbn [negb orb andb] in *;
      try (intros X1; injection X1 as <- <- <-; cbn [op_pic takes errs flat_map app]; auto).
    destruct (Z.ltb_spec (o_grain o q) 0) as [LT|GE]; intros X1; injection X1 as <- <- <-; cbn [op_pic takes errs flat_map app]; auto.
    split; [|auto]. right; right. exists q. auto. }
  destruct T as (T1 & T2). split; [auto|]. split; [auto|]. split; [auto|]. split; [auto|]. split; [auto|]. congruence.
Qed.

(** ** drain_picture *)
Lemma clear_error : forall d x y r, d_cached_error d = 0 ->
  w_cached_error 0 (w_fc x (w_err_props y (w_cached_error r d))) = w_fc x (w_err_props y d).
Proof. intros d x y r H. destruct d. cbn in H. subst. reflexivity. Qed.
Lemma pop_pic : forall d p f, live_inv s d -> d_out d = None -> f = nth (d_next d) (d_fc d) fctx0 -> fc_ret f = 0 -> fc_out f = Some p ->
  forall evs, exists d3 e3,
  (let d := w_fc (upd_nth (d_fc (w_next (ring_next s d) d)) (d_next d) (mkFctx 0 (fc_err f) None)) (w_next (ring_next s d) d) in
   if shown s p && negb (tp_bad p) then let! d := put_out p d in Ok (d, evs ++ [EvOut p]) else Ok (d, evs)) = Ok (d3, evs ++ e3) /\
  ring_take s d = Ok (d3, e3).
Proof.
  intros d p f (I & _) EO Ef E0 EP evs. unfold ring_take.
  replace (d_next d <? length (d_fc d))%nat with true by (symmetry; apply Nat.ltb_lt, (inv_next _ _ I)).
  cbv zeta. rewrite <- Ef, E0, EP. cbn [Z.eqb negb].
  destruct (_ && _).
  - unfold put_out. dsimp. rewrite EO. cbn [is_none obind]. eexists; eexists. split; reflexivity.
  - eexists; exists []. rewrite app_nil_r. split; reflexivity.
Qed.
Lemma ring_facts : forall d d3 e3, live_inv s d -> op_ok s d -> d_out d = None -> d_cached_error d = 0 -> ring_take s d = Ok (d3, e3) ->
  live_inv s d3 /\ op_ok s d3 /\ d_in d3 = d_in d /\ takes e3 = [] /\ errs e3 = [] /\
  d_cached_error d3 = fc_ret (nth (d_next d) (d_fc d) fctx0).
Proof.
  intros d d3 e3 (I & J) OP EO EC X. destruct (ring_take_ok s d (inv_next _ _ I) EO) as (d1 & e & Y & R). rewrite X in Y. injection Y as <- <-.
  pose proof (ring_inv _ _ _ _ I R) as I1. unfold ring_eff in R. cbv zeta in R. destruct R as (C & _ & _ & _ & _ & D).
  assert (IN : d_in d3 = d_in d) by apply C.
  split; [split; [auto|unfold in_ok in *; rewrite IN; auto]|]. split.
  { intros q Hq. assert (SQ : d_seq d3 = d_seq d) by apply C. rewrite SQ in Hq. assert (A : d_idc d3 = d_idc d) by apply C.
    assert (B : d_max_sid d3 = d_max_sid d) by apply C. rewrite A, B. auto. }
  split; [auto|].
  assert (PL : takes e3 = [] /\ errs e3 = []).
  { apply parse_ev_none. eapply Forall_impl; [|exact (ring_plain _ _ _ _ X)]. intros x Hx. destruct x; try contradiction; exact Logic.I. }
  split; [apply PL|]. split; [apply PL|]. destruct D as [(_ & _ & _ & _ & D & _)|(D0 & D1 & _)]; congruence.
Qed.
Lemma drain_ok : forall n dr d evs, s_n_fc s <> 1 -> d_in d = None -> live_inv s d -> op_ok s d -> d_out d = None -> d_cached_error d = 0 ->
  exists r p d1 evs1, drain_loop n o s dr d evs = Ok (r, p, d1, evs ++ evs1) /\ steps d evs1 d1 /\ delivers r p evs1 /\
    live_inv s d1 /\ op_ok s d1 /\ d_in d1 = d_in d /\ d_out d1 = None /\ d_cached_error d1 = 0.
Proof.
  intros n dr d evs NF. revert n dr d evs.
  assert (END : forall d evs, d_in d = None -> live_inv s d -> op_ok s d -> d_out d = None -> d_cached_error d = 0 ->
    exists r p d1 evs1, drain_end o s d evs = Ok (r, p, d1, evs ++ evs1) /\ steps d evs1 d1 /\ delivers r p evs1 /\
      live_inv s d1 /\ op_ok s d1 /\ d_in d1 = d_in d /\ d_out d1 = None /\ d_cached_error d1 = 0).
  { intros d evs IN LI OP EO EC. unfold drain_end. destruct (output_picture_ready s true d) as [rdy d1] eqn:ER.
    pose proof (opr_inv _ _ _ _ _ ER LI) as LI1. destruct (opr_ok _ _ _ _ _ ER) as (Q1 & Q2 & Q3).
    assert (CU : cut_ev true d = [EvCut]) by (unfold cut_ev; rewrite EO; reflexivity).
    destruct rdy.
    - destruct (Q2 eq_refl) as (-> & Y).
      destruct (image_steps true d (fun _ => IN) LI OP EC ER) as (r & p & d2 & X1 & X2 & X3 & X4 & X5 & X6 & X7 & X8).
      rewrite X1. cbn [obind]. exists r, p, d2, ([EvCut] ++ take_ev s d). rewrite <- app_assoc, <- CU. split; [reflexivity|]. split; [auto|].
      split; [|auto 10]. rewrite CU. apply delivers_app; auto.
    - exists EAGAIN_, None, d1, [EvCut]. split; [reflexivity|]. split; [rewrite <- CU; apply steps_one; econstructor; [auto|exact ER]|].
      split; [right; left; auto|]. split; [auto|].
      destruct (Q3 eq_refl) as (Q4 & Q5 & _).
      destruct Q1 as [->|(p & _ & _ & _ & ->)]; auto 10. }
  induction n as [|n IH]; intros dr d evs IN LI OP EO EC; cbn [drain_loop]; [apply END; auto|].
  pose proof LI as (I & J).
  replace (d_next d <? length (d_fc d))%nat with true by (symmetry; apply Nat.ltb_lt, (inv_next _ _ I)).
  cbv zeta. remember (nth (d_next d) (d_fc d) fctx0) as f eqn:Ef.
  destruct (_ && dr); [apply END; auto|]. generalize (dr || (negb (is_none (fc_out f)) || fc_err f)). clear dr. intros dr.
  destruct (Z.eqb_spec (fc_ret f) 0) as [E0|N0]; cbn [negb].
  2:{ assert (RT : exists d3, ring_take s d = Ok (d3, []) /\ w_cached_error 0 d3 =
        w_fc (upd_nth (d_fc (w_err_props (match fc_out f with Some p => tp_props p | None => props0 end) (w_next (ring_next s d) d))) (d_next d)
           (mkFctx 0 (fc_err f) None)) (w_err_props (match fc_out f with Some p => tp_props p | None => props0 end) (w_next (ring_next s d) d)) /\ d_out d3 = None).
      { unfold ring_take. replace (d_next d <? length (d_fc d))%nat with true by (symmetry; apply Nat.ltb_lt, (inv_next _ _ I)).
        cbv zeta. rewrite <- Ef. destruct (Z.eqb_spec (fc_ret f) 0); [contradiction|]. cbn [negb]. eexists. split; [reflexivity|].
        split; [|exact EO]. apply clear_error. exact EC. }
      destruct RT as (d3 & RT & WE & O3). rewrite <- WE.
      destruct (ring_facts d d3 [] LI OP EO EC RT) as ((I3 & J3) & OP3 & IN3 & _ & _ & CE3). rewrite <- Ef in CE3.
      eexists; eexists; eexists; exists [EvErr (fc_ret f)]. split; [reflexivity|]. split.
      { change [EvErr (fc_ret f)] with ([] ++ [EvErr (fc_ret f)]). eapply steps_two; [apply (m_pop o s d d3 []); auto|].
        rewrite <- CE3. constructor. congruence. }
      split; [left; auto|]. destruct (inv_pending _ _ I3) as (P3 & P4).
      split; [split; [apply (inv_eq s d3 _ I3); auto|exact J3]|]. split; [exact OP3|]. auto. }
  destruct (fc_out f) as [p|] eqn:EP.
  2:{ assert (RT : ring_take s d = Ok (w_next (ring_next s d) d, [])).
      { unfold ring_take. replace (d_next d <? length (d_fc d))%nat with true by (symmetry; apply Nat.ltb_lt, (inv_next _ _ I)).
        cbv zeta. rewrite <- Ef, E0, EP. reflexivity. }
      destruct (ring_facts d _ [] LI OP EO EC RT) as (LI3 & OP3 & IN3 & _ & _ & CE3).
      destruct (IH dr (w_next (ring_next s d) d) evs) as (r & p & d1 & e1 & X1 & X2 & X3); auto.
      exists r, p, d1, e1. split; [auto|]. split; [|auto]. change e1 with ([] ++ e1). eapply st_cons; [|exact X2]. constructor; auto. }
  destruct (pop_pic d p f LI EO Ef E0 EP evs) as (d3 & e3 & PP & RT). cbv zeta in PP. rewrite PP. cbn [obind].
  destruct (ring_facts d d3 e3 LI OP EO EC RT) as (LI3 & OP3 & IN3 & T3 & R3 & CE3). rewrite <- Ef, E0 in CE3.
  assert (MP : steps d e3 d3) by (apply steps_one; constructor; auto).
  destruct (output_picture_ready s false d3) as [rdy d4] eqn:ER.
  pose proof (opr_inv _ _ _ _ _ ER LI3) as LI4. destruct (opr_ok _ _ _ _ _ ER) as (Q1 & Q2 & Q3).
  destruct rdy.
  - destruct (Q2 eq_refl) as (-> & Y).
    destruct (image_steps false d3 ltac:(intros K; contradiction K; reflexivity) LI3 OP3 CE3 ER) as (r & x & d5 & X1 & X2 & X3 & X4 & X5 & X6 & X7 & X8).
    rewrite X1. cbn [obind]. exists r, x, d5, (e3 ++ take_ev s d3). rewrite app_assoc. split; [reflexivity|].
    split; [eapply steps_app; [exact MP|exact X2]|]. split; [apply delivers_app; auto|]. rewrite <- IN3. auto.
  - destruct (Q3 eq_refl) as (Q4 & Q5 & _).
    assert (IN4 : d_in d4 = None) by (destruct Q1 as [->|(p' & _ & _ & _ & ->)]; dsimp; congruence).
    destruct (IH dr d4 (evs ++ e3) IN4 LI4) as (r & x & d5 & e5 & X1 & X2 & X3 & X4 & X5 & X6 & X7).
    + destruct Q1 as [->|(p' & _ & _ & _ & ->)]; exact OP3.
    + exact Q5.
    + destruct Q1 as [->|(p' & _ & _ & _ & ->)]; exact Q4.
    + exists r, x, d5, (e3 ++ e5). rewrite app_assoc. split; [auto|]. split.
      { eapply steps_app; [exact MP|]. change e5 with ([] ++ e5). eapply st_cons; [|exact X2]. apply keep_step; exact ER. }
      split; [apply delivers_app; auto|]. split; [auto|]. split; [auto|]. split; [|exact X7].
      rewrite X6, <- IN3. destruct Q1 as [->|(p' & _ & _ & _ & ->)]; reflexivity.
Qed.

(** ** The calls *)
Definition accepted (pkt : option (list Z * props)) : Prop := match pkt with Some (buf, _) => 0 < zlen buf | None => True end.
Lemma send_ok : forall pkt d, live_inv s d -> op_ok s d -> call_ok (Send pkt) ->
  exists r t d1 e, send_data o s pkt d = Ok (r, t, d1, e) /\ live_inv s d1 /\ op_ok s d1 /\ steps d e d1 /\
    takes e = [] /\ errs e = [] /\ t = (r =? 0).
Proof.
  intros pkt d (I & J) OP HC. unfold send_data.
  destruct (match pkt with Some (buf, _) => zlen buf =? 0 | None => false end) eqn:EZ.
  { eexists; eexists; eexists; eexists. split; [reflexivity|]. split; [split; auto|]. split; [auto|]. split; [constructor|auto]. }
  destruct (inv_pending _ _ I) as (P1 & P2).
  set (d1 := match pkt with Some _ => w_drain false d | None => d end).
  assert (L1 : live_inv s d1 /\ op_ok s d1 /\ steps d [] d1).
  { subst d1. destruct pkt; [|split; [split|split; [|constructor]]; auto]. split; [|split; [exact OP|apply quiet_step; reflexivity]].
    split; [|exact J]. apply (inv_eq s d _ I); auto. }
  destruct L1 as ((I1 & J1) & OP1 & S1). destruct (d_in d1) as [x|] eqn:EI.
  { eexists; eexists; eexists; eexists. split; [reflexivity|]. split; [split; auto|]. auto 10. }
  assert (L2 : live_inv s (w_in pkt d1) /\ steps d1 (match pkt with Some (buf, m) => [EvIn buf m] | None => [] end) (w_in pkt d1)).
  { split; [split|].
    + destruct (inv_pending _ _ I1) as (P3 & P4). apply (inv_eq s d1 _ I1); auto.
    + intros buf m Y. dsimp. subst pkt. split; [exact HC|]. assert (0 <= zlen buf) by (unfold zlen; lia). lia.
    + destruct pkt as [[buf m]|].
      * apply steps_one. constructor; auto. assert (0 <= zlen buf) by (unfold zlen; lia). lia.
      * replace (w_in None d1) with d1; [constructor|]. destruct d1. cbn in EI. subst. reflexivity. }
  destruct L2 as (L2 & S2).
  destruct (gen_ok (w_in pkt d1)) as (r & d2 & e & X1 & X2 & X3 & XL & X4); [auto|exact OP1|].
  rewrite X1. cbn [obind]. eexists; eexists; eexists; eexists. split; [reflexivity|]. split; [apply X4|]. split; [apply X4|].
  destruct (parse_ev_none e X3) as (T1 & T2).
  split; [|destruct pkt as [[? ?]|]; cbn [takes errs app flat_map]; auto].
  change (steps d ([] ++ (match pkt with Some (buf, m) => [EvIn buf m] | None => [] end ++ e)) d2).
  eapply steps_app; [exact S1|]. eapply steps_app; [exact S2|exact X2].
Qed.
(** The error of dav1d_parse_obus may be returned directly. *)
Definition get_post (r : Z) (p : option opic) (e : list ev) : Prop :=
  delivers r p e \/
  (p = None /\ r < 0 /\ takes e = [] /\ errs e = [] /\ last_parse r e).
Lemma get_ok : forall d, live_inv s d -> op_ok s d ->
  exists r p d1 e, get_picture o s d = Ok (r, p, d1, e) /\ live_inv s d1 /\ op_ok s d1 /\ steps d e d1 /\ get_post r p e.
Proof.
  intros d (I & J) OP. unfold get_picture. cbv zeta. destruct (inv_pending _ _ I) as (P1 & P2).
  destruct (gen_ok (w_drain true d)) as (r & d1 & e & X1 & XS & XP & XL & X2 & X3 & X4 & X5 & X6 & X7).
  { split; [|exact J]. apply (inv_eq s d _ I); auto. }
  { exact OP. }
  assert (S1 : steps d e d1).
  { change e with ([] ++ e). eapply steps_app; [|exact XS]. apply quiet_step. reflexivity. }
  destruct (parse_ev_none e XP) as (T1 & T2).
  rewrite X1. cbn [obind]. destruct (Z.ltb_spec r 0) as [LT|GE].
  { eexists; eexists; eexists; eexists. split; [reflexivity|]. split; [auto|]. split; [auto|]. split; [auto|]. right. auto. }
  destruct (Z.eqb_spec (d_cached_error d1) 0) as [CE|CE]; cbn [negb].
  2:{ eexists; eexists; eexists; eexists. split; [reflexivity|]. split.
      { destruct X2 as (I1 & J1). destruct (inv_pending _ _ I1) as (P3 & P4). split; [apply (inv_eq s d1 _ I1); auto|exact J1]. }
      split; [exact X3|]. split; [eapply steps_app; [exact S1|apply steps_one; constructor; auto]|].
      left. apply delivers_app; auto. left. auto. }
  assert (RM : forall b, d_in d1 <> None -> output_picture_ready s b d1 = (true, d1)).
  { intros b N. specialize (X6 N). destruct b; auto. revert X6. unfold output_picture_ready.
    destruct (negb _); auto. destruct (one_layer s d1); auto. destruct (d_out d1); destruct (d_cache d1); auto. }
  assert (CI : forall b, cut_ev b d1 <> [] -> d_in d1 = None).
  { intros b N. destruct (d_in d1) eqn:EI; auto. exfalso. assert (N2 : Some p <> None) by discriminate. specialize (X6 N2).
    unfold cut_ev in N. destruct b; [|contradiction N; reflexivity]. destruct (d_out d1) eqn:EO; [contradiction N; reflexivity|].
    revert X6. unfold output_picture_ready. rewrite CE, EO. cbn. destruct (one_layer s d1); [destruct (d_cache d1)|]; discriminate. }
  destruct (output_picture_ready s (s_n_fc s =? 1) d1) as [rdy d2] eqn:ER.
  pose proof (opr_inv _ _ _ _ _ ER X2) as LI2. destruct (opr_ok _ _ _ _ _ ER) as (Q1 & Q2 & Q3).
  set (e1 := if (s_n_fc s =? 1) && is_none (d_out d1) then e ++ [EvCut] else e).
  assert (E1 : e1 = e ++ cut_ev (s_n_fc s =? 1) d1) by (subst e1; unfold cut_ev; destruct (_ && _); [auto|rewrite app_nil_r; auto]).
  rewrite E1. clear e1 E1.
  assert (TC : takes (e ++ cut_ev (s_n_fc s =? 1) d1) = [] /\ errs (e ++ cut_ev (s_n_fc s =? 1) d1) = []).
  { rewrite takes_app, errs_app, T1, T2. unfold cut_ev. destruct (_ && _); auto. }
  destruct rdy.
  - destruct (Q2 eq_refl) as (-> & Y).
    destruct (image_steps _ d1 (CI _) X2 X3 CE ER) as (r2 & p & d3 & Z1 & Z2 & Z3 & Z4 & Z5 & _).
    rewrite Z1. cbn [obind]. eexists; eexists; eexists; eexists. split; [reflexivity|]. split; [auto|]. split; [auto|].
    split; [rewrite <- app_assoc; eapply steps_app; [exact S1|exact Z2]|]. left. apply delivers_app; [apply TC|apply TC|auto].
  - destruct (Q3 eq_refl) as (Q4 & Q5 & _).
    assert (OP2 : op_ok s d2 /\ d_cached_error d2 = 0) by (destruct Q1 as [->|(p & _ & _ & _ & ->)]; auto).
    destruct OP2 as (OP2 & CE2).
    assert (S2 : steps d (e ++ cut_ev (s_n_fc s =? 1) d1) d2).
    { eapply steps_app; [exact S1|]. apply steps_one. econstructor; [apply CI|exact ER]. }
    assert (IN2 : d_in d2 = None).
    { destruct (d_in d1) eqn:EI; [assert (N2 : Some p <> None) by discriminate; rewrite (RM _ N2) in ER; discriminate|].
      destruct Q1 as [->|(p' & _ & _ & _ & ->)]; auto. }
    destruct (Z.eqb_spec (s_n_fc s) 1) as [NF|NF]; cbn [negb andb].
    + eexists; eexists; eexists; eexists. split; [reflexivity|]. split; [auto|]. split; [auto|]. split; [auto|].
      left. right; left. destruct TC. auto.
    + destruct (d_drain d).
      * unfold drain_picture. destruct (drain_ok (Z.to_nat (s_n_fc s)) false d2 [] NF IN2 LI2 OP2 Q5 CE2) as (r2 & p & d3 & e3 & Z1 & Z2 & Z3 & Z4 & Z5 & _).
        rewrite Z1. cbn [obind app]. eexists; eexists; eexists; eexists. split; [reflexivity|]. split; [auto|]. split; [auto|].
        split; [eapply steps_app; [exact S2|exact Z2]|]. left. apply delivers_app; [apply TC|apply TC|auto].
      * eexists; eexists; eexists; eexists. split; [reflexivity|]. split; [auto|]. split; [auto|]. split; [auto|].
        left. right; left. destruct TC. auto.
Qed.
Lemma flush_inv : forall d, live_inv s d -> live_inv s (flush s d) /\ op_ok s (flush s d).
Proof.
  intros d (I & J). unfold flush. set (d1 := w_mdcv None _).
  assert (X : live_inv s d1 /\ d_seq d1 = None /\ d_fhdr d1 = None).
  { subst d1. split; [|split; reflexivity]. split; [|intros b m X; discriminate].
    destruct (inv_parts _ _ I) as (P1 & P2). destruct I as [I1 I2 I3 I4 I5 I6 I7 I8 I9]. constructor; dsimp; auto; try discriminate.
    - apply reachable_start.
    - apply Forall_forall. intros x Hx. apply repeat_spec in Hx. subst x. intros p E. discriminate.
    - apply all_data_parts. dsimp. split; [discriminate|]. split; [discriminate|]. exact P2. }
  destruct X as (L1 & S1 & H1). clearbody d1. destruct (s_n_fc s =? 1).
  - split; auto. intros q X. congruence.
  - split; [|intros q X; dsimp; congruence]. destruct L1 as ([I1 I2 I3 I4 I5 I6 I7 I8 I9] & J1). split; [|exact J1].
    constructor; dsimp; auto.
    + rewrite repeat_length. auto.
    + rewrite repeat_length. lia.
    + apply all_data_parts. dsimp. apply all_data_parts in I9. destruct I9 as (Z1 & Z2 & Z3). split; [auto|]. split; [auto|].
      apply Forall_forall. intros x Hx. apply repeat_spec in Hx. subst x. intros p E. discriminate.
Qed.
Definition reply_ok (c : call) (rp : reply) (e : list ev) : Prop :=
  match c with
  | Send _ => rp_pic rp = None /\ rp_taken rp = (rp_ret rp =? 0) /\ takes e = [] /\ errs e = []
  | Get => get_post (rp_ret rp) (rp_pic rp) e
  | Flush => rp_pic rp = None /\ e = [EvFlush]
  | _ => rp_pic rp = None /\ e = []
  end.
Theorem api_steps : forall c d, live_inv s d -> op_ok s d -> call_ok c ->
  exists r d1 e, api o s c d = Ok (r, d1, e) /\ live_inv s d1 /\ op_ok s d1 /\ steps d e d1 /\ reply_ok c r e.
Proof.
  intros c d LI OP HC. destruct c as [pkt| | | |]; cbn [api].
  - destruct (send_ok pkt d LI OP HC) as (r & t & d1 & e & -> & X1 & X2 & X3 & X4 & X5 & X6). cbn [obind].
    eexists; eexists; eexists. split; [reflexivity|]. split; [auto|]. split; [auto|]. split; [auto|]. cbn. auto.
  - destruct (get_ok d LI OP) as (r & p & d1 & e & -> & X1 & X2 & X3 & X4). cbn [obind].
    eexists; eexists; eexists. split; [reflexivity|]. auto.
  - destruct (flush_inv d LI) as (F1 & F2). eexists; eexists; eexists. split; [reflexivity|]. split; [auto|]. split; [auto|].
    split; [apply steps_one; apply m_flush|cbn; auto].
  - unfold get_event_flags. eexists; eexists; eexists. split; [reflexivity|]. split.
    { destruct LI as (I & J). destruct (inv_pending _ _ I) as (P1 & P2). split; [apply (inv_eq s d _ I); auto|exact J]. }
    split; [exact OP|]. split; [apply quiet_step; reflexivity|cbn; auto].
  - unfold get_decode_error_data_props. eexists; eexists; eexists. split; [reflexivity|]. split.
    { destruct LI as (I & J). destruct (inv_pending _ _ I) as (P1 & P2). split; [apply (inv_eq s d _ I); auto|exact J]. }
    split; [exact OP|]. split; [apply quiet_step; reflexivity|cbn; auto].
Qed.
Theorem api_ok : forall c d, live_inv s d -> op_ok s d -> call_ok c ->
  exists r d1 e, api o s c d = Ok (r, d1, e) /\ live_inv s d1 /\ op_ok s d1.
Proof. intros c d LI OP HC. destruct (api_steps c d LI OP HC) as (r & d1 & e & X & Y & Z & _). eauto 10. Qed.
Theorem live_ok : forall d, 1 <= s_n_fc s -> live o s d -> live_inv s d /\ op_ok s d.
Proof.
  intros d HN L. induction L as [|c d r d' e L IH HC E|buf m d r d' e L IH EO HB HL E].
  - split; [split; [apply inv_start; auto|intros b m X; discriminate]|]. intros q X. discriminate.
  - destruct IH as (A & B). destruct (api_ok c d A B HC) as (r1 & d1 & e1 & X & Y). rewrite E in X. injection X as <- <- <-. exact Y.
  - destruct IH as ((I & J) & B). destruct (parse_obus_ok o s buf m d I EO HB HL) as (r1 & d1 & e1 & X & I1 & _).
    rewrite E in X. injection X as <- <- <-. destruct (parse_keeps o s buf m d r d' e I EO HB HL E) as (K1 & K2 & _).
    split; [split; [auto|]|auto]. unfold in_ok in *. rewrite K2. exact J.
Qed.
End Gen.

(** The decoder invariant and the switch over OBU types. *)
From Coq Require Import ZArith List Bool Lia.
From Verif Require Import Base.CInt Base.Lemmas GetBits.Model GetBits.Spec GetBits.Abstract
  GetBits.Proofs GetBits.SpecProg GetBits.Sim GetBits.VarLen GetBits.AtPos Obu.SimTac
  Obu.SeqModel Obu.SeqRel Obu.SeqProofs Obu.ObuSpec Obu.SeqTop
  Obu.FrameModel Obu.FrameRel Obu.FrameHist Dec.State Dec.Submit Dec.ObuModel Dec.Front Dec.Wf.
Import ListNotations.
Open Scope Z_scope.
Local Open Scope outcome_scope.

Ltac dsimp := cbn [d_idc d_max_sid d_seq d_fhdr d_tiles d_n_tiles d_refs d_cll d_mdcv d_itut d_frame_flags
  d_event_flags d_cached_error d_err_props d_out d_cache d_drain d_in d_jobs d_fc d_next
  w_idc w_max_sid w_seq w_fhdr w_tiles w_n_tiles w_refs w_cll w_mdcv w_itut w_frame_flags
  w_event_flags w_cached_error w_err_props w_out w_cache w_drain w_in w_jobs w_fc w_next] in *.

(** A slot with a picture buffer has a CDF context. *)
Definition slot_good (x : slot) : Prop :=
  forall p, r_pic x = Some p -> has_data p = true -> r_cdf x <> None.
Definition seq_good (q : seq_hdr) : Prop := (exists ss, seq_rel q ss) /\ seq_wf q.
Definition under_limit (s : settings) (h : frame_hdr) : Prop :=
  s_frame_size_limit s = 0 \/ width1 (fsz (f_refs h)) * fheight (fsz (f_refs h)) <= s_frame_size_limit s.
Definition pending_ok (s : settings) (d : dec) (h : frame_hdr) : Prop :=
  exists q, d_seq d = Some q /\ parsed (s_strict s) (slot_hdrs d) q h /\ under_limit s h /\
    chain 0 (d_tiles d) (d_n_tiles d).
(** Pictures on their way to the caller. *)
Definition opt_list {A} (o : option A) : list A := match o with Some x => [x] | None => [] end.
Definition ring_pics (l : list fctx) : list tpic := flat_map (fun f => opt_list (fc_out f)) l.
Definition queued (d : dec) : list tpic := opt_list (d_out d) ++ opt_list (d_cache d) ++ ring_pics (d_fc d).
Definition all_data (l : list tpic) : Prop := Forall (fun p => has_data p = true) l.

Record dec_inv (s : settings) (d : dec) : Prop := mkInv {
  inv_nfc : 1 <= s_n_fc s;
  inv_fc : Z.of_nat (length (d_fc d)) = s_n_fc s;
  inv_next : (d_next d < length (d_fc d))%nat;
  inv_refs : length (d_refs d) = 8%nat;
  inv_hist : reachable (slot_hdrs d);
  inv_slots : Forall slot_good (d_refs d);
  inv_seq : forall q, d_seq d = Some q -> seq_good q;
  inv_hdr : forall h, d_fhdr d = Some h -> pending_ok s d h;
  inv_pics : all_data (queued d) }.

Lemma inv_start : forall s, 1 <= s_n_fc s -> dec_inv s (dec0 s).
Proof.
  intros s H. constructor; unfold dec0; dsimp; auto; try discriminate.
  - rewrite repeat_length. lia.
  - rewrite repeat_length. lia.
  - apply reachable_start.
  - apply Forall_forall. intros x Hx. apply repeat_spec in Hx. subst x. intros p E. discriminate.
  - unfold queued, all_data. cbn [opt_list d_out d_cache d_fc app].
    induction (Z.to_nat (s_n_fc s)); cbn; auto.
Qed.

(** Fields that the switch over OBU types leaves alone. *)
Definition quiet (d d1 : dec) : Prop :=
  d_event_flags d1 = d_event_flags d /\ d_cached_error d1 = d_cached_error d /\ d_err_props d1 = d_err_props d /\
  d_out d1 = d_out d /\ d_cache d1 = d_cache d /\ d_drain d1 = d_drain d /\ d_in d1 = d_in d /\
  d_jobs d1 = d_jobs d /\ d_fc d1 = d_fc d /\ d_next d1 = d_next d.
Lemma quiet_refl : forall d, quiet d d.
Proof. intros; unfold quiet; tauto. Qed.
(** The invariant after an update of header-related fields. *)
Lemma inv_quiet : forall s d d1, dec_inv s d -> quiet d d1 -> d_refs d1 = d_refs d ->
  (forall q, d_seq d1 = Some q -> seq_good q) -> (forall h, d_fhdr d1 = Some h -> pending_ok s d1 h) ->
  dec_inv s d1.
Proof.
  intros s d d1 [I1 I2 I3 I4 I5 I6 I7 I8 I9] (Q1 & Q2 & Q3 & Q4 & Q5 & Q6 & Q7 & Q8 & Q9 & Q10) R S H.
  constructor; auto; try congruence.
  - unfold slot_hdrs in *. congruence.
  - unfold queued in *. congruence.
Qed.
Ltac quiet_tac := unfold quiet; dsimp; repeat (apply conj); reflexivity.

Lemma parsed_seq : forall strict refs q q' h, without_op_info q = without_op_info q' ->
  parsed strict refs q h -> parsed strict refs q' h.
Proof.
  intros strict refs q q' h E (sh & ss & tid & sid & buf & pos & c & c' & P1 & P2 & P3 & P4).
  exists sh, ss, tid, sid, buf, pos, c, c'. rewrite <- E. auto.
Qed.

(** ** Sequence headers *)
Lemma inv_new_seq : forall s q d, dec_inv s d -> seq_good q ->
  dec_inv s (new_seq_hdr s q d) /\ quiet d (new_seq_hdr s q d) /\
  (d_refs (new_seq_hdr s q d) = d_refs d \/
   exists old, d_seq d = Some old /\ same_sequence q old = false /\
     d_refs (new_seq_hdr s q d) = repeat slot0 8 /\ d_fhdr (new_seq_hdr s q d) = None) /\
  d_seq (new_seq_hdr s q d) = Some q /\
  (d_fhdr (new_seq_hdr s q d) = None \/ d_fhdr (new_seq_hdr s q d) = d_fhdr d).
Proof.
  intros s q d I G. unfold new_seq_hdr. cbv zeta.
  destruct (d_seq d) as [old|] eqn:ES; dsimp; rewrite ES.
  - destruct (same_sequence q old) eqn:EQ; cbn [negb].
    + assert (WO : without_op_info old = without_op_info q).
      { unfold same_sequence in EQ. destruct (seq_hdr_dec _ _); congruence. }
      assert (PK : forall d1, d_fhdr d1 = d_fhdr d -> d_seq d1 = Some q -> d_refs d1 = d_refs d ->
                d_tiles d1 = d_tiles d -> d_n_tiles d1 = d_n_tiles d -> forall h, d_fhdr d1 = Some h -> pending_ok s d1 h).
      { intros d1 H1 H2 H3 H4 H5 h Hh. rewrite H1 in Hh. destruct (inv_hdr _ _ I h Hh) as (q0 & Q1 & Q2 & Q3 & Q4).
        rewrite ES in Q1. injection Q1 as <-. exists q. split; [exact H2|]. unfold slot_hdrs in *. rewrite H3, H4, H5.
        split; [|split; assumption]. exact (parsed_seq _ _ old q h WO Q2). }
      destruct (same_op_info q old) eqn:EO; cbn [negb].
      * split; [|split; [quiet_tac|split; [left; dsimp; reflexivity|split; [reflexivity|dsimp; auto]]]].
        apply (inv_quiet s d _ I); [quiet_tac|reflexivity|dsimp; congruence|apply PK; reflexivity].
      * split; [|split; [quiet_tac|split; [left; dsimp; reflexivity|split; [reflexivity|dsimp; auto]]]].
        apply (inv_quiet s d _ I); [quiet_tac|reflexivity|dsimp; congruence|apply PK; reflexivity].
    + split; [|split; [quiet_tac|split; [right; exists old; dsimp; auto|split; [reflexivity|dsimp; auto]]]].
      destruct I as [I1 I2 I3 I4 I5 I6 I7 I8 I9]. constructor; dsimp; auto.
      * apply reachable_start.
      * apply Forall_forall. intros x Hx. apply repeat_spec in Hx. subst x. intros p E. discriminate.
      * intros q0 E. congruence.
      * discriminate.
  - split; [|split; [quiet_tac|split; [left; dsimp; reflexivity|split; [reflexivity|dsimp; auto]]]].
    apply (inv_quiet s d _ I); [quiet_tac|reflexivity|dsimp; congruence|dsimp; discriminate].
Qed.

(** ** Tile groups *)
Lemma pending_tile_bits : forall s d h, pending_ok s d h -> reachable (slot_hdrs d) -> tile_bits_ok h.
Proof.
  intros s d h (q & _ & P & _) R. destruct (parsed_facts _ _ _ _ P R) as [(a & b & i & x & y & -> & _)|(_ & W & _)].
  - intros X. cbn in X. lia.
  - apply (coded_tile_bits q); auto.
Qed.
(** Effect on the state of the tile group at bit [pos] of [buf]. *)
Definition tile_eff (h : frame_hdr) (m : props) (buf : list Z) (pos : Z) (d : dec) (x : sw) : Prop :=
  (x = SwErr d /\ forall st en data, ~ tile_group_at h buf pos st en data) \/
  exists st en data, tile_group_at h buf pos st en data /\ 0 <= st /\
   ((en < st \/ st <> d_n_tiles d) /\ x = SwErr (w_n_tiles 0 (w_tiles [] d)) \/
    st <= en /\ st = d_n_tiles d /\
    x = SwGo (w_n_tiles (en + 1) (w_tiles (d_tiles d ++ [mkTgrp st en data m]) d))).
Definition sw_dec (x : sw) : dec := match x with SwGo d | SwErr d | SwRet _ d => d end.

Lemma inv_tiles : forall s d t n, dec_inv s d -> chain 0 t n -> dec_inv s (w_n_tiles n (w_tiles t d)).
Proof.
  intros s d t n I C. apply (inv_quiet s d _ I); [quiet_tac|reflexivity|apply (inv_seq _ _ I)|].
  intros h Hh. destruct (inv_hdr _ _ I h Hh) as (q & Q1 & Q2 & Q3 & Q4). exists q. dsimp. auto.
Qed.
Lemma tile_eff_inv : forall s h m buf pos d x, dec_inv s d -> d_fhdr d = Some h -> tile_eff h m buf pos d x ->
  dec_inv s (sw_dec x) /\ quiet d (sw_dec x) /\ d_refs (sw_dec x) = d_refs d /\ d_seq (sw_dec x) = d_seq d /\
  d_fhdr (sw_dec x) = d_fhdr d /\ (forall r d', x <> SwRet r d').
Proof.
  intros s h m buf pos d x I Hh [(-> & _)|(st & en & data & TG & H0 & [(_ & ->)|(Hle & E & ->)])]; cbn [sw_dec].
  - repeat (apply conj); auto; discriminate.
  - repeat (apply conj); auto; try discriminate. apply inv_tiles; auto. reflexivity.
  - repeat (apply conj); auto; try discriminate. apply inv_tiles; auto.
    destruct (inv_hdr _ _ I h Hh) as (q & _ & _ & _ & C).
    apply (chain_app _ _ _ (mkTgrp st en data m) C); cbn; lia.
Qed.
Lemma tile_group_eff : forall s h m c d buf pos, dec_inv s d -> d_fhdr d = Some h -> at_pos buf pos c -> pos <= 8 * zlen buf ->
  exists x, tile_group m c d = Ok x /\ tile_eff h m buf pos d x.
Proof.
  intros s h m c d buf pos I EH At Hp. pose proof At as (W & E1 & E2 & E3).
  assert (EP : a_pos (apos_of c) = pos) by (rewrite E3; reflexivity).
  destruct (tile_group_ok m c d h buf EH (pending_tile_bits _ _ _ (inv_hdr _ _ I h EH) (inv_hist _ _ I)) W E1 E2 ltac:(lia)
    (or_intror (eq_ind_r (fun p => at_pos buf p c) At EP)))
      as (x & X1 & X2). exists x. split; auto. rewrite EP in X2. unfold tile_eff.
  destruct X2 as [(-> & X)|(_ & X)]; [left; split; [auto|intros; apply X; auto]|right; exact X].
Qed.
(** The reader is past the end already. *)
Lemma tile_group_err : forall s h m c d buf, dec_inv s d -> d_fhdr d = Some h -> gb_wf c -> gb_buf c = buf ->
  gb_end c = zlen buf -> gb_err c = true -> a_pos (apos_of c) <= 8 * zlen buf -> tile_group m c d = Ok (SwErr d).
Proof.
  intros s h m c d buf I EH W E1 E2 Er Hp.
  destruct (tile_group_ok m c d h buf EH (pending_tile_bits _ _ _ (inv_hdr _ _ I h EH) (inv_hist _ _ I)) W E1 E2 ltac:(lia)
    (or_introl Er)) as (x & X1 & [(-> & _)|((_ & _ & _ & X) & _)]); auto.
  apply (f_equal a_err) in X. cbn [a_err] in X. change (a_err (apos_of c)) with (gb_err c) in X. rewrite Er in X. symmetry in X. apply Z.ltb_lt in X. lia.
Qed.
Lemma tile_head_pos : forall h b p x p', tile_bits_ok h -> srun (tile_group_head h) b p = (Some x, p') -> p <= p'.
Proof.
  intros h b p x p' HB E. unfold tile_group_head in E. cbv zeta in E.
  destruct (Z.ltb_spec 1 (t_cols (f_tiling h) * t_rows (f_tiling h))) as [L|L]; cbn [sbind f srun] in E.
  - specialize (HB L). destruct (_ =? 0); cbn [sbind f srun] in E; injection E as _ E; lia.
  - change (0 =? 0) with true in E. cbn in E. injection E as _ E. lia.
Qed.

(** ** Frame headers *)

(** The reader after a frame header, aligned: regular, or past the end with error. *)
Lemma align_any : forall buf pos c, at_pos buf pos c -> exists c', gb_align c = Ok c' /\ gb_wf c' /\
  gb_buf c' = buf /\ gb_end c' = zlen buf /\ a_pos (apos_of c') <= 8 * zlen buf /\
  (gb_err c' = true \/ (at_pos buf (a_pos (apos_of c')) c' /\ pos <= 8 * zlen buf /\ a_pos (apos_of c') = 8 * ((pos + 7) / 8))).
Proof.
  intros buf pos c At. pose proof At as (W & E1 & E2 & E3).
  destruct (Z.le_gt_cases pos (8 * zlen buf)) as [L|G].
  - destruct (gb_align_at buf pos c At L) as (c' & A1 & A2 & _ & _ & _ & _). exists c'.
    assert (EA : a_pos (apos_of c') = 8 * ((pos + 7) / 8)). { destruct A2 as (_ & _ & _ & X). rewrite X. reflexivity. }
    split; [auto|]. split; [apply A2|]. split; [apply A2|]. split; [apply A2|].
    assert (0 <= pos). { assert (0 <= a_pos (apos_of c)) by (apply gb_wf_pos; auto). rewrite E3 in H. exact H. }
    assert ((pos + 7) / 8 < zlen buf + 1) by (apply Z.div_lt_upper_bound; lia).
    split; [lia|]. right. rewrite EA. auto.
  - destruct (align_ok c W) as (c' & A1 & A2 & (A3 & A4) & A5). exists c'. rewrite E3 in A5. unfold a_align in A5.
    cbn [a_pos a_err] in A5. assert (SL : st_len (stream_of c) = 8 * zlen buf) by (unfold stream_of; cbn; congruence).
    rewrite SL in A5. replace (8 * zlen buf <? pos) with true in A5 by lia.
    split; [auto|]. split; [auto|]. split; [congruence|]. split; [congruence|].
    split; [rewrite A5; cbn; lia|]. left. change (a_err (apos_of c') = true). rewrite A5. reflexivity.
Qed.

(** Effect of a frame header (or frame) OBU: either an error that leaves no pending
    header, or the parsed header is pending, with the tile group of a frame OBU. *)
Definition new_hdr (h : frame_hdr) (d : dec) : dec := w_n_tiles 0 (w_tiles [] (w_fhdr (Some h) d)).
Definition frame_eff (s : settings) (type tid sid : Z) (m : props) (buf : list Z) (pos : Z) (d : dec) (x : sw) : Prop :=
  x = SwErr d /\ d_seq d = None \/
  exists q, d_seq d = Some q /\
  (x = SwErr (w_fhdr None d) \/
   exists h c c', at_pos buf pos c /\ exec (parse_frame_hdr q (slot_hdrs d) (s_strict s) tid sid) c = Ok (inl h, c') /\
   (x = SwErr (w_fhdr None (new_hdr h d)) \/
    (x = SwRet ERANGE_ (w_fhdr None (new_hdr h d)) /\ ~ under_limit s h) \/
    (under_limit s h /\
     (type <> OBU_FRAME /\ x = SwGo (new_hdr h d) \/
      type = OBU_FRAME /\ show_existing_frame h = 0 /\
        exists p, at_pos buf p c' /\ pos <= p <= pos + 15200 /\ tile_eff h m buf (8 * ((p + 7) / 8)) (new_hdr h d) x)))).

Lemma trailing_exec : forall strict buf pos c, at_pos buf pos c -> pos + 1 <= 8 * zlen buf + 2 ^ 31 ->
  exists r c', exec (check_trailing_bits strict) c = Ok (r, c').
Proof.
  intros strict buf pos c At Hp. pose proof At as (W & E1 & E2 & E3).
  destruct (trailing_aexec strict (stream_of c) (apos_of c) (stream_of_ok c) (gb_wf_pos c W)) as (r & E & _).
  { rewrite E3, (at_pos_stream _ _ _ At). cbn. lia. }
  destruct (exec_refines _ _ c _ _ W E) as (c' & X & _). eauto.
Qed.

Lemma frame_header_eff : forall s type tid sid m buf pos c d, dec_inv s d -> at_pos buf pos c ->
  0 <= tid -> 0 <= sid -> pos <= 8 * zlen buf ->
  exists x, frame_header s type tid sid m c d = Ok x /\ frame_eff s type tid sid m buf pos d x.
Proof.
  intros s type tid sid m buf pos c d I At Ht Hs Hp. unfold frame_header, frame_eff.
  destruct (d_seq d) as [q|] eqn:ES; [|eexists; split; [reflexivity|]; auto].
  destruct (inv_seq _ _ I q ES) as ((ss & R) & W). destruct (inv_hist _ _ I) as (srefs & HH).
  destruct (frame_hdr_exec q ss _ srefs (s_strict s) tid sid buf pos c R W (history_slots _ _ HH) Ht Hs At ltac:(lia))
    as (r & c1 & p1 & E & At1 & P1 & M). rewrite E. cbn [obind].
  destruct r as [h|e].
  2:{ eexists. split; [reflexivity|]. right. exists q. auto. }
  fold (new_hdr h d).
  assert (PP : parsed (s_strict s) (slot_hdrs d) q h).
  { exists q, ss, tid, sid, buf, pos, c, c1. repeat (split; [solve [auto]|]). split; [lia|]. exact E. }
  assert (TE : exists ok c2, (if type =? OBU_FRAME then Ok (true, c1)
     else let! (r, c) := exec (check_trailing_bits (s_strict s)) c1 in
          Ok (match r with inl _ => true | inr _ => false end, c)) = Ok (ok, c2) /\ (type = OBU_FRAME -> c2 = c1 /\ ok = true)).
  { destruct (Z.eqb_spec type OBU_FRAME); [eauto|].
    destruct (trailing_exec (s_strict s) buf p1 c1 At1 ltac:(lia)) as (r & c2 & ->). cbn [obind].
    destruct r; eexists; eexists; (split; [reflexivity|]); intros; contradiction. }
  destruct TE as (ok & c2 & TE1 & TE2). rewrite TE1. cbn [obind].
  destruct ok; cbn [negb]; [|eexists; split; [reflexivity|]; right; exists q; split; [auto|]; right; exists h, c, c1; auto].
  destruct (negb (s_frame_size_limit s =? 0) && (s_frame_size_limit s <? width1 (fsz (f_refs h)) * fheight (fsz (f_refs h)))) eqn:EL.
  { eexists; split; [reflexivity|]; right; exists q; split; [auto|]; right; exists h, c, c1. split; [auto|]. split; [auto|].
    right; left. split; auto. intros [X|X]; lia. }
  assert (UL : under_limit s h) by (unfold under_limit; lia).
  destruct (Z.eqb_spec type OBU_FRAME) as [->|NF]; cbn [negb].
  2:{ eexists; split; [reflexivity|]; right; exists q; split; [auto|]; right; exists h, c, c1. auto 10. }
  destruct (TE2 eq_refl) as (-> & _).
  assert (SE : show_existing_frame h = 0 \/ show_existing_frame h = 1).
  { destruct (parsed_facts _ _ _ _ PP (inv_hist _ _ I)) as [(a & b & i & x & y & -> & _)|(X & _)]; auto. }
  destruct (z2b (show_existing_frame h)) eqn:EZ.
  { eexists; split; [reflexivity|]; right; exists q; split; [auto|]; right; exists h, c, c1. auto. }
  destruct (align_any buf p1 c1 At1) as (c3 & G1 & G2 & G3 & G4 & G5 & G6). rewrite G1. cbn [obind].
  assert (I2 : dec_inv s (new_hdr h d)).
  { unfold new_hdr. apply (inv_quiet s d _ I); [quiet_tac|reflexivity| |].
    - dsimp. intros q0 X. apply (inv_seq _ _ I); auto.
    - intros h0 X. dsimp. injection X as <-. exists q. dsimp. split; auto. split; [exact PP|]. split; [auto|reflexivity]. }
  assert (X : exists x, tile_group m c3 (new_hdr h d) = Ok x /\ tile_eff h m buf (8 * ((p1 + 7) / 8)) (new_hdr h d) x).
  { destruct (Z.le_gt_cases p1 (8 * zlen buf)) as [L|G].
    - destruct G6 as [G6|(G6 & G7 & G8)].
      + exfalso. destruct (gb_align_at buf p1 c1 At1 L) as (c' & A1 & A2 & _). rewrite A1 in G1. injection G1 as ->.
        destruct A2 as (_ & _ & _ & X). pose proof (f_equal a_err X) as Y. cbn [a_err] in Y. change (a_err (apos_of c3)) with (gb_err c3) in Y. rewrite G6 in Y.
        apply (f_equal a_pos) in X. cbn [a_pos] in X. symmetry in Y. apply Z.ltb_lt in Y. lia.
      + rewrite <- G8. apply (tile_group_eff s); auto.
    - destruct G6 as [G6|(G6 & G7 & G8)]; [|lia].
      exists (SwErr (new_hdr h d)). split; [apply (tile_group_err s h m c3 _ buf); auto|].
      left. split; auto. intros st en data (p' & T1 & T2 & _).
      apply tile_head_pos in T1; [|exact (pending_tile_bits s (new_hdr h d) h (inv_hdr _ _ I2 h eq_refl) (inv_hist _ _ I2))].
      pose proof (Z.div_mod (p1 + 7) 8 ltac:(lia)). pose proof (Z.mod_pos_bound (p1 + 7) 8 ltac:(lia)). lia. }
  destruct X as (x & X1 & X2).
  exists x. split; auto. right. exists q. split; auto. right. exists h, c, c1. split; [auto|]. split; [auto|]. right; right.
  split; auto. right. split; auto. split; [destruct SE as [SE|SE]; [auto|rewrite SE in EZ; discriminate]|].
  exists p1. auto.
Qed.

Lemma frame_eff_inv : forall s type tid sid m buf pos d x, dec_inv s d -> 0 <= tid -> 0 <= sid -> pos <= 8 * zlen buf ->
  frame_eff s type tid sid m buf pos d x ->
  dec_inv s (sw_dec x) /\ quiet d (sw_dec x) /\ d_refs (sw_dec x) = d_refs d /\ d_seq (sw_dec x) = d_seq d /\
  (forall r d', x = SwRet r d' -> r = ERANGE_).
Proof.
  intros s type tid sid m buf pos d x I Ht Hs Hp [(-> & _)|(q & ES & HX)].
  { cbn [sw_dec]. repeat (apply conj); auto; discriminate. }
  assert (IN : dec_inv s (w_fhdr None d)).
  { apply (inv_quiet s d _ I); [quiet_tac|reflexivity|apply (inv_seq _ _ I)|dsimp; discriminate]. }
  destruct HX as [->|(h & c & c' & At & E & HX)].
  { cbn [sw_dec]. repeat (apply conj); auto; discriminate. }
  assert (IN2 : dec_inv s (w_fhdr None (new_hdr h d))).
  { unfold new_hdr. apply (inv_quiet s d _ I); [quiet_tac|reflexivity|apply (inv_seq _ _ I)|dsimp; discriminate]. }
  destruct HX as [->|[(-> & _)|(UL & HX)]].
  { cbn [sw_dec]. repeat (apply conj); auto; discriminate. }
  { cbn [sw_dec]. repeat (apply conj); auto. congruence. }
  assert (I2 : dec_inv s (new_hdr h d)).
  { unfold new_hdr. apply (inv_quiet s d _ I); [quiet_tac|reflexivity|apply (inv_seq _ _ I)|].
    intros h0 X. dsimp. injection X as <-. exists q. dsimp. split; auto. split; [|split; [auto|reflexivity]].
    destruct (inv_seq _ _ I q ES) as ((ss & R) & W). exists q, ss, tid, sid, buf, pos, c, c'.
    repeat (split; [solve [auto]|]). split; [lia|]. exact E. }
  destruct HX as [(_ & ->)|(_ & _ & p & _ & _ & HX)].
  { cbn [sw_dec]. repeat (apply conj); auto; discriminate. }
  destruct (tile_eff_inv s h m _ _ _ _ I2 eq_refl HX) as (J1 & J2 & J3 & J4 & J5 & J6).
  split; [auto|]. split; [exact J2|]. split; [exact J3|]. split; [exact J4|]. intros r d' X. exfalso. eapply J6; eauto.
Qed.

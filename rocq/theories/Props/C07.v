(** C07: only OBUs of the selected operating point are processed. *)
From Coq Require Import ZArith List Bool Lia.
From Verif Require Import Base.CInt GetBits.Model GetBits.Spec GetBits.SpecProg
  Obu.SeqModel Obu.SeqRel Obu.ObuSpec Obu.FrameModel
  Dec.State Dec.Submit Dec.ObuModel Dec.LibModel Dec.Front Dec.Wf Dec.Inv Dec.Meta Dec.Step Dec.SubmitProofs
  Dec.Parse Dec.Api Dec.Facts Dec.TileSteps Dec.Samples.
Import ListNotations.
Open Scope Z_scope.

(** Section 5.9.2 / 7.17.5: an OBU with an extension header is dropped when the
    operating point has layers and lacks the temporal or the spatial layer of the
    OBU; sequence headers (1) and temporal delimiters (2) never are. *)
Definition dropped (OperatingPointIdc : Z) (h : obu_hdr) : Prop :=
  obu_type h <> 1 /\ obu_type h <> 2 /\ OperatingPointIdc <> 0 /\ obu_extension_flag h = 1 /\
  (Z.testbit OperatingPointIdc (temporal_id h) = false \/ Z.testbit OperatingPointIdc (spatial_id h + 8) = false).

Lemma bit_test : forall x n, 0 <= n -> z2b (Z.land (Z.shiftr x n) 1) = Z.testbit x n.
Proof.
  intros x n Hn. replace 1 with (Z.ones 1) by reflexivity. rewrite Z.land_ones by lia. change (2 ^ 1) with 2.
  rewrite <- Z.bit0_mod, Z.shiftr_spec, Z.add_0_l by lia. destruct (Z.testbit x n); reflexivity.
Qed.
Lemma dropped_iff : forall idc h, 0 <= temporal_id h -> 0 <= spatial_id h -> 0 <= obu_extension_flag h <= 1 ->
  (layer_dropped idc (obu_type h) (obu_extension_flag h) (temporal_id h) (spatial_id h) = true <-> dropped idc h).
Proof.
  intros idc h Ht Hs He. unfold layer_dropped, dropped, OBU_SEQ_HDR, OBU_TD. rewrite !bit_test by lia.
  rewrite !andb_true_iff, orb_true_iff, !negb_true_iff, !Z.eqb_neq.
  assert (z2b (obu_extension_flag h) = true <-> obu_extension_flag h = 1) by (unfold z2b; rewrite negb_true_iff, Z.eqb_neq; lia).
  tauto.
Qed.
Lemma fields_range : forall strict buf h start stop, Forall is_byte buf -> 0 < zlen buf -> next_obu buf 0 = Some (h, start, stop) ->
  strict && (stream_bit buf (zlen buf) 0 =? 1) = false ->
  0 <= temporal_id h /\ 0 <= spatial_id h /\ 0 <= obu_extension_flag h <= 1.
Proof.
  intros strict buf h start stop HB HZ N HS. destruct (obu_open_ok strict buf HB HZ) as (x0 & E0 & X0). destruct x0 as [[[[[ty ex] ti] si] c]|].
  - destruct X0 as (h0 & a & b & N0 & _ & _ & -> & -> & -> & _ & T0 & T1 & T2 & _). rewrite N in N0. injection N0 as <- <- <-. lia.
  - destruct X0; congruence.
Qed.

Section C07.
Variables (o : oracle) (s : settings) (buf : list Z) (m : props) (d d' : dec) (r : Z) (e : list ev).
Hypothesis (HN : 1 <= s_n_fc s) (HL : live o s d) (HO : d_out d = None) (HB : Forall is_byte buf) (HZ : 0 < zlen buf)
  (HP : parse_obus o s buf m d = Ok (r, d', e)).
Variables (h : obu_hdr) (start stop : Z).
Hypothesis (HX : next_obu buf 0 = Some (h, start, stop)) (HS : s_strict s && (stream_bit buf (zlen buf) 0 =? 1) = false).

(** A dropped OBU is consumed and changes nothing. *)
Theorem C07_dropped : dropped (d_idc d) h -> r = stop /\ d' = d /\ e = [].
Proof.
  intros HD. destruct (fields_range _ _ _ _ _ HB HZ HX HS) as (F1 & F2 & F3). apply dropped_iff in HD; auto.
  destruct (the_step o s buf m d d' r e HN HL HO HB HZ HP) as (S & _).
  destruct S as [(_ & _ & _ & [S|S])|(h' & a & b & N & _ & _ & _ & [(_ & -> & -> & ->)|(S & _)])]; try congruence.
  rewrite HX in N. injection N as <- <- <-. auto.
Qed.
(** Any other OBU is processed according to its type ([switch_eff]: sequence header,
    frame header, tile group, metadata, temporal delimiter), then a completed frame
    is decoded or shown ([after_eff]). *)
Theorem C07_processed : ~ dropped (d_idc d) h ->
  exists x, switch_eff s (obu_type h) (temporal_id h) (spatial_id h) m (firstn (Z.to_nat stop) buf) start d x /\
    match x with
    | SwErr d1 => r = EINVAL_ /\ d' = w_err_props m d1 /\ e = []
    | SwRet r1 d1 => r = r1 /\ d' = d1 /\ e = []
    | SwGo d1 => after_eff o s stop m d1 r d' e
    end.
Proof.
  intros HD. destruct (fields_range _ _ _ _ _ HB HZ HX HS) as (F1 & F2 & F3).
  destruct (the_step o s buf m d d' r e HN HL HO HB HZ HP) as (S & _).
  destruct S as [(_ & _ & _ & [S|S])|(h' & a & b & N & _ & _ & _ & [(S & _)|(_ & x & X & Y)])]; try congruence.
  - exfalso. apply HD. rewrite HX in N. injection N as <- <- <-. apply dropped_iff; auto.
  - rewrite HX in N. injection N as <- <- <-. eauto.
Qed.
End C07.

(** The operating point in force is the one selected by the settings, from the
    sequence header in force: point 0 if the requested one does not exist.  The
    highest spatial layer is the highest set bit of its spatial mask. *)
Definition operating_point_idc_of (s : settings) (q : seq_hdr) : Z :=
  op_idc (nth (Z.to_nat (if s_operating_point s <? num_operating_points q then s_operating_point s else 0))
            (operating_points q) op_point0).
Theorem C07_selected : forall o s d q, 1 <= s_n_fc s -> live o s d -> d_seq d = Some q ->
  d_idc d = operating_point_idc_of s q.
Proof. intros o s d q HN HL HQ. exact (proj1 (proj2 (live_ok o s d HN HL) q HQ)). Qed.

(** Two operating points, the first (0x101: temporal layer 0, spatial layer 0) is
    selected; a key frame of temporal layer 1 is ignored, one of layer 0 is decoded. *)
Definition C07_seq : list Z := [10; 12; 0; 17; 1; 40; 129; 149; 87; 255; 192; 166; 192; 12].
Definition C07_frame (ext : Z) : list Z := [54; ext; 8; 16; 5; 144; 0; 0; 8; 170; 187].
Definition C07_d : dec := after_calls o_fine s_one [send C07_seq].
Example C07_example : live o_fine s_one C07_d /\ d_out C07_d = None /\ d_idc C07_d = 0x101 /\
  (exists h a b, next_obu (C07_frame 32) 0 = Some (h, a, b) /\ dropped 0x101 h) /\
  (exists h a b, next_obu (C07_frame 0) 0 = Some (h, a, b) /\ ~ dropped 0x101 h) /\
  step_kind o_fine s_one (C07_frame 32) C07_d = Some (11, []) /\
  step_kind o_fine s_one (C07_frame 0) C07_d = Some (11, [(1, 0); (5, 0)]).
Proof.
  split; [apply after_live; reflexivity|]. split; [vm_compute; reflexivity|]. split; [vm_compute; reflexivity|]. split; [|split; [|split]].
  - eexists; eexists; eexists. split; [vm_compute; reflexivity|]. unfold dropped. cbn. repeat split; try discriminate. left. reflexivity.
  - eexists; eexists; eexists. split; [vm_compute; reflexivity|]. unfold dropped. cbn. intros (A & B & C & D & [E|E]); discriminate.
  - vm_compute. reflexivity.
  - vm_compute. reflexivity.
Qed.

Print Assumptions C07_dropped.
Print Assumptions C07_processed.
Print Assumptions C07_selected.

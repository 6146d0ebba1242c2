(** C36: HDR and ITU-T T.35 metadata reach the pictures they belong to. *)
From Coq Require Import ZArith List Bool Lia.
From Verif Require Import Base.CInt Base.Lemmas GetBits.Model GetBits.Spec GetBits.SpecProg GetBits.AtPos
  Obu.SeqModel Obu.SeqRel Obu.SeqSpec Obu.SeqTop Obu.ObuSpec Obu.FrameModel
  Dec.State Dec.Submit Dec.ObuModel Dec.LibModel Dec.Front Dec.Wf Dec.Inv Dec.Meta Dec.Step Dec.SubmitProofs
  Dec.Parse Dec.Api Dec.Facts Dec.TileSteps Dec.MetaOnce Dec.Samples.
Import ListNotations.
Open Scope Z_scope.

Section C36.
Variables (o : oracle) (s : settings) (buf : list Z) (m : props) (d d' : dec) (r : Z) (e : list ev).
Hypothesis (HN : 1 <= s_n_fc s) (HL : live o s d) (HO : d_out d = None) (HB : Forall is_byte buf) (HZ : 0 < zlen buf)
  (HP : parse_obus o s buf m d = Ok (r, d', e)).

(** A metadata OBU (type 5) of the operating point, no frame pending.  [b] are the
    bits of the OBU; [metadata_hdr_cll], [metadata_hdr_mdcv] and [t35_message] are the
    syntax tables 5.8.3, 5.8.4 and 5.8.2, and in strict mode the trailing bits must be
    right.  The message becomes the current one (T.35 messages accumulate); a malformed HDR
    message is an error, a malformed T.35 message and an unknown type are ignored. *)
Section Obu.
Variables (oh : obu_hdr) (start stop t p : Z).
Let pay := firstn (Z.to_nat stop) buf.
Let b := stream_bit pay (zlen pay).
Hypothesis (HX : next_obu buf 0 = Some (oh, start, stop)) (HT : obu_type oh = OBU_METADATA)
  (HS : s_strict s && (stream_bit buf (zlen buf) 0 =? 1) = false)
  (HD : layer_dropped (d_idc d) (obu_type oh) (obu_extension_flag oh) (temporal_id oh) (spatial_id oh) = false)
  (HH : d_fhdr d = None)
  (TY : srun leb128 b (8 * start) = (Some t, p)) (HP1 : p <= 8 * stop).
Definition well_formed {A} (strict : bool) (bits : Z -> Z) (pos len : Z) (q : sp A) (v : A) : Prop :=
  exists p2, srun q bits pos = (Some v, p2) /\ S.trailing_ok strict bits p2 (8 * len).

Lemma meta_case : exists x, metadata_eff s pay start d x /\
  match x with SwErr d1 => r = EINVAL_ /\ d' = w_err_props m d1 | SwRet _ _ => False | SwGo d1 => r = stop /\ d' = d1 end /\ e = [].
Proof.
  destruct (the_step o s buf m d d' r e HN HL HO HB HZ HP) as (SE & _).
  destruct SE as [(_ & _ & _ & [SE|SE])|(oh' & start' & stop' & N & _ & B1 & B2 & [(LD & _)|(_ & x & X & Y)])]; try congruence.
  rewrite HX in N. injection N as <- <- <-. cbn zeta in X. rewrite HT in X.
  destruct X as [(A & _)|[([A|[A|(A & _)]] & _)|[(A & _)|[(_ & ME)|[(A & _)|(_ & _ & A & _)]]]]]; try discriminate; try congruence.
  exists x. split; [exact ME|]. destruct x as [d1|d1|r1 d1].
  - destruct ME as [(A & _)|(t1 & p1 & _ & _ & A)]; [discriminate|].
    assert (FN : d_fhdr d1 = None).
    { destruct A as [(_ & v & _ & A)|[(_ & v & _ & A)|[(_ & v & _ & A)|(A & _)]]]; injection A as ->; dsimp; auto. }
    destruct Y as [(-> & -> & -> & _)|[(q & h1 & _ & Y1 & _)|(q & h1 & _ & Y1 & _)]]; auto; congruence.
  - destruct Y as (-> & -> & ->). auto.
  - exfalso. destruct ME as [(A & _)|(t1 & p1 & _ & _ & A)]; [discriminate|].
    destruct A as [(_ & v & _ & A)|[(_ & v & _ & A)|[(_ & v & _ & A)|(A & _)]]]; discriminate.
Qed.
Lemma stop_len : zlen pay = stop.
Proof.
  destruct (the_step o s buf m d d' r e HN HL HO HB HZ HP) as (SE & _).
  destruct SE as [(_ & _ & _ & [SE|SE])|(oh' & start' & stop' & N & _ & B1 & B2 & _)]; try congruence.
  rewrite HX in N. injection N as <- <- <-. apply zlen_firstn. lia.
Qed.
Theorem C36_content_light : t = META_HDR_CLL ->
  (exists v, well_formed (s_strict s) b p stop metadata_hdr_cll v /\ r = stop /\ e = [] /\ d' = w_cll (Some v) d) \/
  (forall v, ~ well_formed (s_strict s) b p stop metadata_hdr_cll v) /\ r = EINVAL_ /\ e = [] /\ d' = w_err_props m d.
Proof.
  intros ->. destruct meta_case as (x & ME & Y & E0). unfold metadata_eff in ME. cbv zeta in ME. fold b in ME. rewrite TY in ME. rewrite stop_len in ME.
  unfold well_formed. destruct ME as [(-> & ME)|(t1 & p1 & T1 & _ & ME)].
  - right. destruct Y as (Y1 & Y2). destruct (ME _ _ eq_refl HP1) as [(_ & A)|(A & _)]; [auto|discriminate].
  - injection T1 as <- <-. left. destruct ME as [(_ & v & A & ->)|[(A & _)|[(A & _)|(_ & A & _)]]]; try discriminate; try congruence.
    destruct Y as (Y1 & Y2). eauto 10.
Qed.
Theorem C36_mastering_display : t = META_HDR_MDCV ->
  (exists v, well_formed (s_strict s) b p stop metadata_hdr_mdcv v /\ r = stop /\ e = [] /\ d' = w_mdcv (Some v) d) \/
  (forall v, ~ well_formed (s_strict s) b p stop metadata_hdr_mdcv v) /\ r = EINVAL_ /\ e = [] /\ d' = w_err_props m d.
Proof.
  intros ->. destruct meta_case as (x & ME & Y & E0). unfold metadata_eff in ME. cbv zeta in ME. fold b in ME. rewrite TY in ME. rewrite stop_len in ME.
  unfold well_formed. destruct ME as [(-> & ME)|(t1 & p1 & T1 & _ & ME)].
  - right. destruct Y as (Y1 & Y2). destruct (ME _ _ eq_refl HP1) as [(A & _)|(_ & A)]; [discriminate|auto].
  - injection T1 as <- <-. left. destruct ME as [(A & _)|[(_ & v & A & ->)|[(A & _)|(_ & _ & A & _)]]]; try discriminate; try congruence.
    destruct Y as (Y1 & Y2). eauto 10.
Qed.
Theorem C36_itut_t35 : t = META_ITUT_T35 ->
  (exists v, t35_message (skipn (Z.to_nat (p / 8)) pay) v /\ r = stop /\ e = [] /\ d' = w_itut (d_itut d ++ [v]) d) \/
  (forall v, ~ t35_message (skipn (Z.to_nat (p / 8)) pay) v) /\ r = stop /\ e = [] /\ d' = d.
Proof.
  intros ->. destruct meta_case as (x & ME & Y & E0). unfold metadata_eff in ME. cbv zeta in ME. fold b in ME. rewrite TY in ME. rewrite stop_len in ME.
  destruct ME as [(-> & ME)|(t1 & p1 & T1 & _ & ME)].
  - destruct (ME _ _ eq_refl HP1) as [(A & _)|(A & _)]; discriminate.
  - injection T1 as <- <-. destruct ME as [(A & _)|[(A & _)|[(_ & v & A & ->)|(-> & _ & _ & A)]]]; try discriminate.
    + left. destruct Y as (Y1 & Y2). eauto 10.
    + right. destruct Y as (Y1 & Y2). auto 10.
Qed.
Theorem C36_other : t <> META_HDR_CLL -> t <> META_HDR_MDCV -> t <> META_ITUT_T35 -> r = stop /\ e = [] /\ d' = d.
Proof.
  intros N1 N2 N3. destruct meta_case as (x & ME & Y & E0). unfold metadata_eff in ME. cbv zeta in ME. fold b in ME. rewrite TY in ME. rewrite stop_len in ME.
  destruct ME as [(-> & ME)|(t1 & p1 & T1 & _ & ME)].
  - destruct (ME _ _ eq_refl HP1) as [(A & _)|(A & _)]; congruence.
  - injection T1 as <- <-. destruct ME as [(A & _)|[(A & _)|[(A & _)|(-> & _)]]]; try congruence. destruct Y as (Y1 & Y2). auto 10.
Qed.
End Obu.

(** The picture of a shown frame carries the metadata current when it is submitted;
    that of a hidden frame none. *)
Theorem C36_new_picture : forall j, In (EvSubmit j 0) e -> forall k, 0 <= k <= 7 ->
  Z.testbit (refresh_frame_flags (f_refs (j_hdr j))) k = true ->
  exists p d1, r_pic (slot_at d' k) = Some p /\ d_fhdr d1 = Some (j_hdr j) /\ d_tiles d1 = j_tiles j /\
    if z2b (show_frame (f_pre (j_hdr j))) then tp_cll p = d_cll d1 /\ tp_mdcv p = d_mdcv d1 /\ tp_itut p = d_itut d1
    else tp_cll p = None /\ tp_mdcv p = None /\ tp_itut p = [].
Proof.
  intros j HI k Hk B. destruct (submitted o s buf m d d' r e HN HL HO HB HZ HP j 0 HI)
    as (n & q & h & d1 & d2 & p & I1 & Q1 & R1 & S1 & H1 & SE & NT & JK & PK & R2 & DJ & DJ' & [(X & _)|(_ & _ & _ & _ & RF)]); [lia|].
  rewrite (jk_hdr _ _ _ _ JK) in *. rewrite (jk_tiles _ _ _ _ JK). exists p, d1.
  destruct (live_ok o s d HN HL) as ((I & _) & _).
  rewrite (slot_nth s d k Hk I (refresh_frame_flags (f_refs h)) (fun _ => new_slot h j p) d') by congruence.
  rewrite B. split; [reflexivity|]. split; [auto|]. split; [auto|]. apply (pk_meta _ _ _ _ _ PK).
Qed.

(** A frame submitted by an OBU other than a metadata OBU: its picture carries the metadata
    current before that OBU if the frame is shown; the T.35 messages are then used up, so
    they are attached to exactly one shown frame; the HDR metadata stays in force. *)
Theorem C36_used_once : forall j oh start stop, next_obu buf 0 = Some (oh, start, stop) -> obu_type oh <> OBU_METADATA ->
  In (EvSubmit j 0) e ->
  d_cll d' = d_cll d /\ d_mdcv d' = d_mdcv d /\
  d_itut d' = (if z2b (show_frame (f_pre (j_hdr j))) then [] else d_itut d) /\
  forall k, 0 <= k <= 7 -> Z.testbit (refresh_frame_flags (f_refs (j_hdr j))) k = true ->
  exists p, r_pic (slot_at d' k) = Some p /\ tp_hdr p = j_hdr j /\
    if z2b (show_frame (f_pre (j_hdr j))) then tp_cll p = d_cll d /\ tp_mdcv p = d_mdcv d /\ tp_itut p = d_itut d
    else tp_cll p = None /\ tp_mdcv p = None /\ tp_itut p = [].
Proof.
  intros j oh start stop NX NM HI.
  destruct (submit_once o s buf m d d' r e HN HL HO HB HZ HP j oh start stop NX NM HI) as (A1 & A2 & A3 & d1 & p & (M1 & M2 & M3) & F & PK & RF).
  split; [auto|]. split; [auto|]. split; [auto|]. intros k Hk B. exists p.
  destruct (live_ok o s d HN HL) as ((I & _) & _).
  rewrite (slot_nth s d k Hk I (refresh_frame_flags (f_refs (j_hdr j))) (fun _ => new_slot (j_hdr j) j p) d') by auto.
  rewrite B. split; [reflexivity|]. split; [apply (pk_hdr _ _ _ _ _ PK)|].
  pose proof (pk_meta _ _ _ _ _ PK) as PM. rewrite M1, M2, M3 in PM. exact PM.
Qed.
End C36.

(** Content light level 1000/400, then a T.35 message; both arrive with the picture. *)
Definition C36_cll : list Z := [42; 6; 1; 3; 232; 1; 144; 128].
Definition C36_t35 : list Z := [42; 5; 4; 181; 1; 2; 128].
Example C36_example :
  match calls o_fine s_one [send (p_seq ++ C36_cll ++ C36_t35 ++ p_key); Get] (dec0 s_one) with
  | Ok ([_; rp], _, _) => match rp_pic rp with
      | Some p => tp_cll (op_pic p) = Some (1000, 400) /\ tp_itut (op_pic p) = [mkItut 181 0 [1; 2]]
      | None => False end
  | _ => False end.
Proof. vm_compute. auto. Qed.

Print Assumptions C36_content_light.
Print Assumptions C36_mastering_display.
Print Assumptions C36_itut_t35.
Print Assumptions C36_other.
Print Assumptions C36_new_picture.
Print Assumptions C36_used_once.

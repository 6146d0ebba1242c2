(** C19: reference slots are updated exactly as the refresh flags dictate.

    The theorems are about one call of dav1d_parse_obus in any reachable state; [e]
    lists what happened: a frame was submitted, refused, skipped, an existing frame
    was shown.  Slots are numbered 0..7. *)
From Coq Require Import ZArith List Bool Lia.
From Verif Require Import Base.CInt Base.Lemmas GetBits.Model GetBits.Spec GetBits.SpecProg
  Obu.SeqModel Obu.SeqRel Obu.ObuSpec Obu.FrameModel
  Dec.State Dec.Submit Dec.ObuModel Dec.LibModel Dec.Front Dec.Wf Dec.Inv Dec.Meta Dec.Step Dec.SubmitProofs
  Dec.Parse Dec.Api Dec.Facts Dec.TileSteps Dec.Samples.
Import ListNotations.
Open Scope Z_scope.

Section C19.
Variables (o : oracle) (s : settings) (buf : list Z) (m : props) (d d' : dec) (r : Z) (e : list ev).
Hypothesis (HN : 1 <= s_n_fc s) (HL : live o s d) (HO : d_out d = None) (HB : Forall is_byte buf) (HZ : 0 < zlen buf)
  (HP : parse_obus o s buf m d = Ok (r, d', e)).

Lemma inv_d : dec_inv s d.
Proof. apply (live_ok o s d HN HL). Qed.

(** A frame that was decoded (or queued for decoding): the slots selected by its
    refresh flags hold its picture and the contexts saved with it, the others are
    unchanged. *)
Theorem C19_decoded : forall j, In (EvSubmit j 0) e -> exists p,
  tp_buf p = Some (j_id j) /\ tp_hdr p = j_hdr j /\ tp_seq p = j_seq j /\
  forall k, 0 <= k <= 7 -> slot_at d' k =
    if Z.testbit (refresh_frame_flags (f_refs (j_hdr j))) k
    then mkSlot (Some p) (if z2b (refresh_context (j_hdr j)) then Some (j_id j) else j_cdf j) (j_segmap j)
           (if is_inter (j_hdr j) then Some (j_id j) else None)
    else slot_at d k.
Proof.
  intros j HI. destruct (submitted o s buf m d d' r e HN HL HO HB HZ HP j 0 HI)
    as (n & q & h & d1 & d2 & p & I1 & Q1 & R1 & S1 & H1 & SE & NT & JK & PK & R2 & DJ & DJ' & [(X & _)|(_ & _ & _ & _ & RF)]); [lia|].
  rewrite (jk_hdr _ _ _ _ JK), (jk_seq _ _ _ _ JK). exists p.
  split; [apply (pk_buf _ _ _ _ _ PK)|]. split; [apply (pk_hdr _ _ _ _ _ PK)|]. split; [apply (pk_seq _ _ _ _ _ PK)|].
  intros k Hk. rewrite (slot_nth s d k Hk inv_d (refresh_frame_flags (f_refs h)) (fun _ => new_slot h j p) d') by congruence. reflexivity.
Qed.
(** A frame that failed to decode: the selected slots become empty. *)
Theorem C19_failed : forall j r0, In (EvSubmit j r0) e -> r0 <> 0 -> r0 < 0 /\ r = r0 /\
  forall k, 0 <= k <= 7 -> slot_at d' k =
    if Z.testbit (refresh_frame_flags (f_refs (j_hdr j))) k then slot0 else slot_at d k.
Proof.
  intros j r0 HI N0. destruct (submitted o s buf m d d' r e HN HL HO HB HZ HP j r0 HI)
    as (n & q & h & d1 & d2 & p & I1 & Q1 & R1 & S1 & H1 & SE & NT & JK & PK & R2 & DJ & DJ' & [(X & E & _ & _ & RF)|(X & _)]); [|lia].
  split; [auto|]. split; [auto|]. rewrite (jk_hdr _ _ _ _ JK).
  intros k Hk. rewrite (slot_nth s d k Hk inv_d (refresh_frame_flags (f_refs h)) (fun _ => slot0) d') by congruence. reflexivity.
Qed.
(** A frame refused before decoding (unusable reference, no memory): no slot changes. *)
Theorem C19_refused : forall h r0, In (EvRefuse h r0) e -> r0 < 0 /\ r = r0 /\
  forall k, slot_at d' k = slot_at d k.
Proof.
  intros h r0 HI. destruct (refused o s buf m d d' r e HN HL HO HB HZ HP h r0 HI) as (A & B & C).
  split; [auto|]. split; [auto|]. intros k. apply slot_same; auto.
Qed.
(** A frame skipped on request: the selected slots hold its header, but no picture. *)
Theorem C19_skipped : forall h, In (EvSkip h) e -> forall k, 0 <= k <= 7 ->
  if Z.testbit (refresh_frame_flags (f_refs h)) k
  then exists p, r_pic (slot_at d' k) = Some p /\ tp_hdr p = h /\ tp_buf p = None
  else slot_at d' k = slot_at d k.
Proof.
  intros h HI k Hk. destruct (skipped o s buf m d d' r e HN HL HO HB HZ HP h HI) as (_ & _ & _ & q & x & HX & RF).
  rewrite (slot_nth s d k Hk inv_d _ x d' RF). destruct (Z.testbit _ k); [|auto]. rewrite HX. exists (hdr_only q h). auto.
Qed.
(** Showing an existing frame: it must be decoded.  A key frame is put into every
    slot (and cannot be shown again in strict mode); any other leaves the slots alone. *)
Theorem C19_shown : forall i p, In (EvShow i p) e -> 0 <= i <= 7 /\ r_pic (slot_at d i) = Some p /\ tp_buf p <> None /\
  forall k, 0 <= k <= 7 ->
    if frame_type (f_pre (tp_hdr p)) =? FT_KEY
    then slot_at d' k = mkSlot (Some (unshowable p)) (r_cdf (slot_at d i)) (r_segmap (slot_at d i))
                          (if k =? i then r_refmvs (slot_at d i) else None)
    else slot_at d' k = slot_at d k.
Proof.
  intros i p HI. destruct (showed o s buf m d d' r e HN HL HO HB HZ HP i p HI) as (_ & Hi & HPc & HD & _ & _ & RF & _).
  split; [auto|]. split; [auto|]. split; [unfold has_data in HD; destruct (tp_buf p); [discriminate|discriminate]|].
  intros k Hk. destruct (_ =? FT_KEY).
  - rewrite <- (key_refresh_slots i p d k (inv_refs _ _ inv_d) Hi Hk). apply slot_same. auto.
  - apply slot_same; auto.
Qed.
(** In every other step no slot changes, unless a new sequence begins: then all
    slots become empty. *)
Theorem C19_otherwise : (forall x, In x e -> exists p, x = EvOut p) ->
  (forall k, 0 <= k <= 7 -> slot_at d' k = slot_at d k) \/
  (new_sequence (s_strict s) buf d /\ forall k, 0 <= k <= 7 -> slot_at d' k = slot0).
Proof.
  intros HA. destruct (nothing_else o s buf m d d' r e HN HL HO HB HZ HP HA) as (_ & [E|(E & NS)]).
  - left. intros k _. apply slot_same; auto.
  - right. split; [auto|]. intros k Hk. unfold slot_at. rewrite E. apply nth_repeat.
Qed.
End C19.

(** A key frame fills all slots with buffer 0; the inter frame replaces slot 0 only;
    showing slot 2 (the key frame) again puts it everywhere. *)
Definition C19_slots (l : list Z) : list (option (option Z)) :=
  map (fun x => option_map tp_buf (r_pic x)) (d_refs (after_calls o_fine s_one [send l; Get; Get; Get])).
Example C19_example :
  C19_slots (p_seq ++ p_key) = repeat (Some (Some 0)) 8 /\
  C19_slots (p_seq ++ p_key ++ p_inter) = Some (Some 1) :: repeat (Some (Some 0)) 7 /\
  C19_slots (p_seq ++ p_key ++ p_inter ++ p_show) = repeat (Some (Some 0)) 8.
Proof. repeat split; vm_compute; reflexivity. Qed.
Definition C19_d : dec := after_calls o_fine s_one [send (p_seq ++ p_key); Get; Get].
Example C19_live : live o_fine s_one C19_d /\ d_out C19_d = None /\
  step_kind o_fine s_one p_inter C19_d = Some (14, [(1, 0); (5, 1)]) /\
  step_kind o_broken s_one p_inter C19_d = Some (EINVAL_, [(1, EINVAL_)]) /\
  step_kind o_fine s_one p_show C19_d = Some (3, [(4, 2); (5, 0)]).
Proof. split; [apply after_live; reflexivity|]. repeat split; vm_compute; reflexivity. Qed.

Print Assumptions C19_decoded.
Print Assumptions C19_failed.
Print Assumptions C19_refused.
Print Assumptions C19_skipped.
Print Assumptions C19_shown.
Print Assumptions C19_otherwise.

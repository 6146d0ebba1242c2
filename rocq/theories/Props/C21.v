(** C21: tile groups are accepted only in order and each tile is decoded once. *)
From Coq Require Import ZArith List Bool Lia.
From Verif Require Import Base.CInt Base.Lemmas GetBits.Model GetBits.Spec GetBits.SpecProg
  Obu.SeqModel Obu.SeqRel Obu.ObuSpec Obu.FrameModel
  Dec.State Dec.Submit Dec.ObuModel Dec.LibModel Dec.Front Dec.Wf Dec.Inv Dec.Meta Dec.Step Dec.SubmitProofs
  Dec.Parse Dec.Api Dec.Facts Dec.TileSteps Dec.Samples.
Import ListNotations.
Open Scope Z_scope.

Section C21.
Variables (o : oracle) (s : settings) (buf : list Z) (m : props) (d d' : dec) (r : Z) (e : list ev).
Hypothesis (HN : 1 <= s_n_fc s) (HL : live o s d) (HO : d_out d = None) (HB : Forall is_byte buf) (HZ : 0 < zlen buf)
  (HP : parse_obus o s buf m d = Ok (r, d', e)).

(** Whatever is submitted for decoding covers the tiles 0..n-1 of the frame: every
    tile belongs to exactly one of its tile groups, and the groups are in order. *)
Theorem C21_submitted : forall j r0, In (EvSubmit j r0) e ->
  (forall i, 0 <= i < n_tiles_of (j_hdr j) <-> exists t, In t (j_tiles j) /\ tg_start t <= i <= tg_end t) /\
  (forall i, 0 <= i < n_tiles_of (j_hdr j) -> exists l1 t l2, j_tiles j = l1 ++ t :: l2 /\ tg_start t <= i <= tg_end t /\
     Forall (fun t' => tg_end t' < i) l1 /\ Forall (fun t' => i < tg_start t') l2).
Proof.
  intros j r0 HI. destruct (submitted o s buf m d d' r e HN HL HO HB HZ HP j r0 HI)
    as (n & q & h & d1 & d2 & p & I1 & Q1 & R1 & S1 & H1 & SE & NT & JK & _).
  destruct (pending_facts s q h d1 I1 S1 H1 SE) as (_ & _ & _ & CH & _).
  rewrite (jk_tiles _ _ _ _ JK), (jk_hdr _ _ _ _ JK). fold (n_tiles_of h) in NT. rewrite <- NT.
  split; [|intros i Hi; apply (chain_cover _ _ _ i CH Hi)]. intros i. split.
  - intros Hi. destruct (chain_cover _ _ _ i CH Hi) as (l1 & t & l2 & -> & X & _). exists t. split; [apply in_or_app; right; left; auto|auto].
  - intros (t & HT & Hi). clear - CH HT Hi. assert (G : forall l a b, chain a l b -> In t l -> a <= tg_start t /\ tg_end t < b).
    { induction l as [|u l IH]; intros a b C; cbn in C; [intros []|]. destruct C as (A & B & C). intros [->|H].
      - apply chain_le in C. lia.
      - destruct (IH _ _ C H). lia. }
    destruct (G _ _ _ CH HT). lia.
Qed.

(** A tile group OBU in the operating point, while the tiles of header [h] are being
    collected; [tile_group_at]: its tile range and data according to the syntax of
    tile_group_obu(). *)
Section Group.
Variables (oh : obu_hdr) (start stop : Z) (h : frame_hdr) (st en : Z) (data : list Z).
Hypothesis (HX : next_obu buf 0 = Some (oh, start, stop)) (HT : obu_type oh = OBU_TILE_GRP)
  (HS : s_strict s && (stream_bit buf (zlen buf) 0 =? 1) = false)
  (HD : layer_dropped (d_idc d) (obu_type oh) (obu_extension_flag oh) (temporal_id oh) (spatial_id oh) = false)
  (HH : d_fhdr d = Some h) (TG : tile_group_at h (firstn (Z.to_nat stop) buf) (8 * start) st en data).

(** Out of order: an error, and everything collected so far is dropped. *)
Theorem C21_out_of_order : en < st \/ st <> d_n_tiles d ->
  r = EINVAL_ /\ e = [] /\ d_tiles d' = [] /\ d_n_tiles d' = 0.
Proof.
  intros H. destruct (tile_step o s buf m d d' r e HN HL HO HB HZ HP oh start stop h HX HT HS HD HH st en data TG)
    as [(_ & A & B & C & D & _)|[(A & B & _)|(A & B & _)]]; [auto|lia|lia].
Qed.
(** In order but not the last: it is appended. *)
Theorem C21_more : st <= en -> st = d_n_tiles d -> en + 1 <> n_tiles_of h ->
  r = stop /\ e = [] /\ d_fhdr d' = Some h /\ d_n_tiles d' = en + 1 /\ d_tiles d' = d_tiles d ++ [mkTgrp st en data m].
Proof.
  intros H1 H2 H3. destruct (tile_step o s buf m d d' r e HN HL HO HB HZ HP oh start stop h HX HT HS HD HH st en data TG)
    as [(A & _)|[(_ & _ & _ & A)|(_ & _ & A & _)]]; [lia|tauto|lia].
Qed.
(** The last one: the frame is decoded with all its tile groups (unless it is
    skipped on request, or refused for lack of a reference or of memory). *)
Theorem C21_last : st <= en -> st = d_n_tiles d -> en + 1 = n_tiles_of h ->
  exists x, In x e /\
    (x = EvSkip h \/ (exists r0, x = EvRefuse h r0) \/
     exists j r0, x = EvSubmit j r0 /\ j_hdr j = h /\ j_tiles j = d_tiles d ++ [mkTgrp st en data m]).
Proof.
  intros H1 H2 H3. destruct (tile_step o s buf m d d' r e HN HL HO HB HZ HP oh start stop h HX HT HS HD HH st en data TG)
    as [(A & _)|[(_ & _ & A & _)|(_ & _ & _ & x & e0 & e1 & -> & _ & _ & X)]]; [lia|lia|].
  exists x. split; [apply in_or_app; right; left; auto|]. destruct X as [(A & _)|(_ & [A|A])]; auto.
Qed.
(** Once more tiles are collected than the frame has, it is never decoded. *)
Theorem C21_too_many : n_tiles_of h < d_n_tiles d -> e = [].
Proof.
  intros H. destruct (tile_step o s buf m d d' r e HN HL HO HB HZ HP oh start stop h HX HT HS HD HH st en data TG)
    as [(_ & _ & _ & _ & A & _)|[(_ & _ & _ & _ & A & _)|(A & B & C & _)]]; auto. lia.
Qed.
End Group.
End C21.

(** The end of a tile group is not checked against the number of tiles: for a frame
    with three tiles, a group that claims the tiles 0..3 is accepted without an
    error, and the frame is dropped silently. *)
Theorem C21_range_refuted : exists d h, live o_fine s_one d /\ d_out d = None /\ d_fhdr d = Some h /\ n_tiles_of h = 3 /\
  d_n_tiles d = 0 /\ tile_group_at h p_tg03 16 0 3 [1; 2; 3] /\ step_kind o_fine s_one p_tg03 d = Some (6, []).
Proof.
  set (d := after_calls o_fine s_one [send (p_seq192 ++ p_key192)]).
  exists d, (match d_fhdr d with Some h => h | None => show_existing_hdr 0 0 0 0 0 end).
  split; [apply after_live; reflexivity|]. split; [vm_compute; reflexivity|]. split; [vm_compute; reflexivity|].
  split; [vm_compute; reflexivity|]. split; [vm_compute; reflexivity|]. split; [|vm_compute; reflexivity].
  exists 21. split; [vm_compute; reflexivity|]. split; [vm_compute; discriminate|vm_compute; reflexivity].
Qed.

(** Three tiles in one and in two groups; groups out of order are rejected. *)
Example C21_example : 
  let d := after_calls o_fine s_one [send (p_seq192 ++ p_key192)] in
  let d1 := after_calls o_fine s_one [send (p_seq192 ++ p_key192 ++ p_tg01)] in
  live o_fine s_one d1 /\
  step_kind o_fine s_one p_tg02 d = Some (6, [(1, 0); (5, 0)]) /\
  step_kind o_fine s_one p_tg01 d = Some (6, []) /\
  step_kind o_fine s_one p_tg22 d1 = Some (6, [(1, 0); (5, 0)]) /\
  step_kind o_fine s_one p_tg12 d1 = Some (EINVAL_, []) /\
  step_kind o_fine s_one p_tg12 d = Some (EINVAL_, []).
Proof. cbv zeta. split; [apply after_live; reflexivity|]. repeat split; vm_compute; reflexivity. Qed.

Print Assumptions C21_submitted.
Print Assumptions C21_out_of_order.
Print Assumptions C21_more.
Print Assumptions C21_last.
Print Assumptions C21_too_many.
Print Assumptions C21_range_refuted.

(** C27: the frame size limit is enforced. *)
From Coq Require Import ZArith List Bool Lia.
From Verif Require Import Base.CInt Base.Lemmas GetBits.Model GetBits.Spec GetBits.SpecProg GetBits.AtPos
  Obu.SeqModel Obu.SeqRel Obu.SeqSpec Obu.SeqTop Obu.ObuSpec Obu.FrameModel
  Dec.State Dec.Submit Dec.ObuModel Dec.LibModel Dec.Front Dec.Wf Dec.Inv Dec.Meta Dec.Step Dec.SubmitProofs
  Dec.Parse Dec.Api Dec.Facts Dec.TileSteps Dec.Samples.
Import ListNotations.
Open Scope Z_scope.

Definition within_limit (s : settings) (h : frame_hdr) : Prop :=
  s_frame_size_limit s = 0 \/
  width1 (fsz (f_refs h)) * fheight (fsz (f_refs h)) <= s_frame_size_limit s.
(** In [frame_hdr], [width1] is UpscaledWidth and [fheight] FrameHeight. *)

(** No header above the limit is ever kept. *)
Theorem C27_accepted : forall o s d h, 1 <= s_n_fc s -> live o s d -> d_fhdr d = Some h -> within_limit s h.
Proof.
  intros o s d h HN HL HH. destruct (live_ok o s d HN HL) as ((I & _) & _).
  destruct (inv_hdr _ _ I h HH) as (q & _ & _ & UL & _). exact UL.
Qed.
Section C27.
Variables (o : oracle) (s : settings) (buf : list Z) (m : props) (d d' : dec) (r : Z) (e : list ev).
Hypothesis (HN : 1 <= s_n_fc s) (HL : live o s d) (HO : d_out d = None) (HB : Forall is_byte buf) (HZ : 0 < zlen buf)
  (HP : parse_obus o s buf m d = Ok (r, d', e)).

(** No frame above the limit is submitted for decoding. *)
Theorem C27_submitted : forall j r0, In (EvSubmit j r0) e -> within_limit s (j_hdr j).
Proof.
  intros j r0 HI. destruct (submitted o s buf m d d' r e HN HL HO HB HZ HP j r0 HI)
    as (n & q & h & d1 & d2 & p & I1 & Q1 & R1 & S1 & H1 & SE & NT & JK & _).
  rewrite (jk_hdr _ _ _ _ JK). apply (pending_facts s q h d1 I1 S1 H1 SE).
Qed.
(** Without a limit no header is rejected for its size: a step that does nothing
    and reports ERANGE met a header that is larger than the limit, and drops it. *)
Theorem C27_error : r = ERANGE_ -> e = [] -> s_frame_size_limit s <> 0 /\ d_fhdr d' = None /\
  exists q h oh start stop c c', d_seq d = Some q /\ next_obu buf 0 = Some (oh, start, stop) /\
    at_pos (firstn (Z.to_nat stop) buf) (8 * start) c /\
    exec (parse_frame_hdr q (slot_hdrs d) (s_strict s) (temporal_id oh) (spatial_id oh)) c = Ok (inl h, c') /\
    width1 (fsz (f_refs h)) * fheight (fsz (f_refs h)) > s_frame_size_limit s.
Proof.
  intros HR HE. destruct (the_step o s buf m d d' r e HN HL HO HB HZ HP) as (S & R & _).
  assert (NE : ERANGE_ < 0 /\ ERANGE_ <> EINVAL_) by (split; [reflexivity|discriminate]).
  destruct S as [(A & _)|(oh & start & stop & N & SF & B1 & B2 & [(_ & A & _)|(_ & x & X & Y)])]; [lia|lia|].
  destruct x as [d1|d1|r1 d1].
  - exfalso. destruct Y as [(A & _)|[(q & h1 & _ & _ & _ & _ & [(A & _)|(p & _ & A & _)])|(q & h1 & _ & _ & _ & _ & [(_ & A & _)|(_ & r0 & d2 & _ & SB & _)])]]; try lia.
    destruct SB as (e0 & x & e1 & E0 & _). rewrite HE in E0. destruct e0; discriminate.
  - destruct Y as (A & _). lia.
  - destruct Y as (-> & -> & _). cbn zeta in X. destruct X as [(_ & [(A & _)|(q & _ & A)])|[(_ & FE)|[(_ & [(_ & A)|(h & _ & A)])|[(_ & A)|[(_ & A)|(_ & _ & _ & _ & _ & A)]]]]]; try discriminate.
    + destruct FE as [(A & _)|(q & ES & [A|(h & c & c' & At & E & [A|[(A & UL)|(_ & [(_ & A)|(_ & _ & p & _ & _ & A)])]])])]; try discriminate.
      * injection A as _ ->. dsimp. assert (UL2 : s_frame_size_limit s <> 0 /\ width1 (fsz (f_refs h)) * fheight (fsz (f_refs h)) > s_frame_size_limit s).
        { unfold under_limit in UL. lia. } destruct UL2 as (U1 & U2). split; [auto|]. split; [auto|].
        exists q, h, oh, start, stop, c, c'. auto 10.
      * exfalso. destruct A as [(A & _)|(a & b & y & _ & _ & [(_ & A)|(_ & _ & A)])]; discriminate.
    + exfalso. destruct A as [(A & _)|(a & b & y & _ & _ & [(_ & A)|(_ & _ & A)])]; discriminate.
    + exfalso. destruct A as [(A & _)|(t & p & _ & _ & [(_ & v & _ & A)|[(_ & v & _ & A)|[(_ & v & _ & A)|(A & _)]]])]; discriminate.
Qed.
End C27.

(** The 64x64 key frame under limits 4096 and 4095. *)
Definition C27_s (limit : Z) : settings := mkSettings false 0 true limit 0 false true 1.
Example C27_example :
  let d l := after_calls o_fine (C27_s l) [send p_seq] in
  live o_fine (C27_s 4095) (d 4095) /\
  step_kind o_fine (C27_s 4096) p_key (d 4096) = Some (10, [(1, 0); (5, 0)]) /\
  step_kind o_fine (C27_s 4095) p_key (d 4095) = Some (ERANGE_, []) /\
  step_kind o_fine (C27_s 0) p_key (d 0) = Some (10, [(1, 0); (5, 0)]).
Proof. cbv zeta. split; [apply after_live; reflexivity|]. repeat split; vm_compute; reflexivity. Qed.

Print Assumptions C27_accepted.
Print Assumptions C27_submitted.
Print Assumptions C27_error.

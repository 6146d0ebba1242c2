(** C34: the frame header used for decoding is the one the specification
    describes, for any history of accepted frames.

    [F.uncompressed_header] is the AV1 syntax table (section 5.9.2 and its
    callees), [hdr_rel] says field by field what the structure must contain,
    [hdr_wf] gives the ranges, [saved] is the reference frame update process. *)
From Coq Require Import ZArith List Bool Lia.
From Verif Require Import Base.CInt GetBits.Model GetBits.Spec GetBits.SpecProg GetBits.AtPos Obu.SeqModel
  Obu.SeqRel Obu.FrameModel Obu.FrameRel Obu.FrameRefs Obu.FrameHist Obu.FrameExamples.
Import ListNotations.
Open Scope Z_scope.

Theorem C34_matches_spec : forall sh ss refs srefs strict tid sid buf pos c,
  seq_rel sh ss -> seq_wf sh -> history refs srefs -> 0 <= tid -> 0 <= sid ->
  at_pos buf pos c -> pos + 15200 <= 8 * zlen buf + 2 ^ 31 ->
  exists r c' pos', exec (parse_frame_hdr sh refs strict tid sid) c = Ok (r, c') /\ at_pos buf pos' c' /\
    pos <= pos' <= pos + 15200 /\
  match r with
  | inl h => exists s, srun (F.uncompressed_header ss srefs strict tid sid) (stream_bit buf (zlen buf)) pos = (Some s, pos') /\
               hdr_rel h s /\ hdr_wf sh h
  | inr e => e = EINVAL_ /\
      fst (srun (F.uncompressed_header ss srefs strict tid sid) (stream_bit buf (zlen buf)) pos) = None
  end.
Proof. intros. apply frame_hdr_exec; auto. apply history_slots; auto. Qed.

(** The slots always hold what 7.20 saves. *)
Theorem C34_slots : forall refs srefs, history refs srefs -> slots_rel refs srefs.
Proof. exact history_slots. Qed.

Example C34_met : exists sh ss refs srefs c h c', seq_rel sh ss /\ seq_wf sh /\ history refs srefs /\
  at_pos inter_bytes 0 c /\ exec (parse_frame_hdr sh refs true 0 0) c = Ok (inl h, c') /\ show_existing_frame h = 0.
Proof.
  destruct ex_reachable as (sh & ss & refs & c & h & c' & A & B & (srefs & C) & X).
  exists sh, ss, refs, srefs, c, h, c'. intuition.
Qed.

Print Assumptions C34_matches_spec.
Print Assumptions C34_slots.

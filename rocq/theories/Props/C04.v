(** C04: the sequence header returned is the one the specification describes.

    [S.sequence_header_obu] is the AV1 syntax table, [S.trailing_ok] the
    trailing bits rule, [seq_rel] says field by field what the structure must
    contain, [seq_wf] gives the documented ranges. *)
From Coq Require Import ZArith List Bool Lia.
From Verif Require Import Base.CInt GetBits.Model GetBits.Spec GetBits.SpecProg GetBits.AtPos Obu.SeqModel
  Obu.SeqRel Obu.SeqTop Obu.ObuSpec.
Import ListNotations.
Open Scope Z_scope.

Theorem C04_matches_spec : forall strict buf pos c,
  at_pos buf pos c -> pos + 5001 <= 8 * zlen buf + 2 ^ 31 ->
  exists r c', exec (parse_seq_hdr strict) c = Ok (r, c') /\
  let accepted s := exists p, srun (S.sequence_header_obu strict) (stream_bit buf (zlen buf)) pos = (Some s, p) /\
                     S.trailing_ok strict (stream_bit buf (zlen buf)) p (8 * zlen buf) in
  match r with
  | inl h => exists s, accepted s /\ seq_rel h s /\ seq_wf h
  | inr e => e = EINVAL_ /\ forall s, ~ accepted s
  end.
Proof. exact seq_hdr_ok. Qed.

(** The ranges quoted in the property. *)
Theorem C04_ranges : forall h, seq_wf h ->
  1 <= max_width h <= 65536 /\ 1 <= max_height h <= 65536 /\
  In (8 + 2 * hbd (sh_color h)) [8; 10; 12] /\ In (profile h) [0; 1; 2] /\
  (profile h = 0 -> layout (sh_color h) = I400 \/ layout (sh_color h) = I420) /\
  (profile h = 1 -> layout (sh_color h) = I444) /\
  (profile h = 2 -> hbd (sh_color h) < 2 -> layout (sh_color h) = I400 \/ layout (sh_color h) = I422).
Proof.
  intros h (H1 & _ & _ & _ & _ & _ & H2 & H3 & H4 & H5 & _ & _ & _ & _ & _ & _ & _ & _ & _ & _ & _ & _ & _ & HC & _).
  destruct HC as (C1 & _ & _ & _ & _ & _ & _ & _ & _ & _ & _ & C2 & C3 & C4).
  assert (2 ^ width_n_bits h <= 2 ^ 16) by (apply Z.pow_le_mono_r; lia).
  assert (2 ^ height_n_bits h <= 2 ^ 16) by (apply Z.pow_le_mono_r; lia).
  change (2 ^ 16) with 65536 in *. split; [lia|]. split; [lia|].
  split. { assert (hbd (sh_color h) = 0 \/ hbd (sh_color h) = 1 \/ hbd (sh_color h) = 2) as [->|[->| ->]] by lia; simpl; auto. }
  split. { assert (profile h = 0 \/ profile h = 1 \/ profile h = 2) as [->|[->| ->]] by lia; simpl; auto. }
  auto.
Qed.

(** Level 4.0 (seq_level_idx 8) in a reduced still picture header is reported
    as major level 2: "major_level is the X of level X.Y" is false of dav1d. *)
Theorem C04_reduced_level_refuted : exists buf h s,
  parse_sequence_header buf (zlen buf) = Ok (inl h) /\ seq_hdr_in buf 2 (zlen buf) s /\
  map S.seq_level_idx (S.operating_points s) = [8] /\
  op_major_level (nth 0 (operating_points h) op_point0) <> 2 + 8 / 4.
Proof.
  exists [0x0A; 0x06; 0x1A; 0x0C; 0xFF; 0xC0; 0x00; 0x20].
  eexists. eexists. split; [vm_compute; reflexivity|]. split.
  - eexists. split; [vm_compute; reflexivity|reflexivity].
  - split; [reflexivity|vm_compute; discriminate].
Qed.

Print Assumptions C04_matches_spec.
Print Assumptions C04_ranges.
Print Assumptions C04_reduced_level_refuted.

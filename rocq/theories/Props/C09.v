(** C09: short reference signalling matches the specification (7.8,
    [F.set_frame_refs]) and always selects valid slots. *)
From Coq Require Import ZArith List Bool Lia.
From Verif Require Import Base.CInt GetBits.Model GetBits.Spec GetBits.SpecProg GetBits.AtPos Obu.SeqModel
  Obu.SeqRel Obu.FrameModel Obu.FrameRel Obu.FrameRefs Obu.FrameHist Obu.FrameExamples.
Import ListNotations.
Open Scope Z_scope.

(** For every combination of order hints. *)
Theorem C09_set_frame_refs : forall hints cur last gold,
  length hints = 8%nat -> Forall (fun h => 0 <= h < INT_MAX) hints -> 0 <= last <= 7 -> 0 <= gold <= 7 ->
  set_frame_refs hints cur last gold = F.set_frame_refs hints cur last gold /\
  length (set_frame_refs hints cur last gold) = 7%nat /\
  Forall (fun i => 0 <= i <= 7) (set_frame_refs hints cur last gold).
Proof.
  intros hints cur last gold HL HH Hl Hg.
  destruct (set_frame_refs_eq hints cur HL HH last gold Hl Hg) as (E & A & B). rewrite E. auto.
Qed.

(** In every accepted header using it: all slots are occupied and the indices
    are those of 7.8 for the order hints of the slots and the current frame. *)
Theorem C09_accepted : forall sh ss refs strict tid sid buf pos c h c',
  seq_rel sh ss -> seq_wf sh -> reachable refs -> 0 <= tid -> 0 <= sid ->
  at_pos buf pos c -> pos + 15200 <= 8 * zlen buf + 2 ^ 31 ->
  exec (parse_frame_hdr sh refs strict tid sid) c = Ok (inl h, c') -> show_existing_frame h = 0 ->
  frame_ref_short_signaling (f_refs h) = 1 ->
  Forall (fun i => 0 <= i <= 7) (refidx (f_refs h)) /\
  Forall (fun o => o <> None) refs /\
  exists last gold, 0 <= last <= 7 /\ 0 <= gold <= 7 /\
  let cur := 2 ^ (order_hint_n_bits (sh_tools sh) - 1) in
  let hint o := match o with
                | Some r => cur + F.get_relative_dist ss (frame_offset (f_pre r)) (frame_offset (f_pre h))
                | None => 0
                end in
  refidx (f_refs h) = F.set_frame_refs (map hint refs) cur last gold.
Proof.
  intros sh ss refs strict tid sid buf pos c h c' R W (srefs & H) T I A B E NE SS. split.
  - destruct (accepted sh ss refs srefs strict tid sid buf pos c h c' R W H T I A B E NE) as (_ & _ & _ & _ & CW).
    apply CW.
  - exact (accepted_short sh ss refs srefs strict tid sid buf pos c h c' R W H T I A B E NE SS).
Qed.

(** Without short signalling too, the indices are valid. *)
Theorem C09_indices : forall sh ss refs strict tid sid buf pos c h c',
  seq_rel sh ss -> seq_wf sh -> reachable refs -> 0 <= tid -> 0 <= sid ->
  at_pos buf pos c -> pos + 15200 <= 8 * zlen buf + 2 ^ 31 ->
  exec (parse_frame_hdr sh refs strict tid sid) c = Ok (inl h, c') -> show_existing_frame h = 0 ->
  length (refidx (f_refs h)) = 7%nat /\ Forall (fun i => 0 <= i <= 7) (refidx (f_refs h)).
Proof.
  intros sh ss refs strict tid sid buf pos c h c' R W (srefs & H) T I A B E NE.
  destruct (accepted sh ss refs srefs strict tid sid buf pos c h c' R W H T I A B E NE) as (_ & _ & _ & _ & CW).
  split; apply CW.
Qed.

Example C09_met : exists sh ss refs c h c', seq_rel sh ss /\ seq_wf sh /\ reachable refs /\
  at_pos inter_bytes 0 c /\ exec (parse_frame_hdr sh refs true 0 0) c = Ok (inl h, c') /\ show_existing_frame h = 0 /\
  frame_ref_short_signaling (f_refs h) = 1.
Proof. destruct ex_reachable as (sh & ss & refs & c & h & c' & X). exists sh, ss, refs, c, h, c'. intuition. Qed.
Example C09_mixed : F.set_frame_refs [6; 10; 3; 8; 12; 7; 9; 5] 8 0 2 = [0; 5; 7; 2; 3; 6; 4].
Proof. reflexivity. Qed.

Print Assumptions C09_set_frame_refs.
Print Assumptions C09_accepted.
Print Assumptions C09_indices.

(** C05: the last sequence header of a packet wins, independently of other OBUs.

    [walk buf 0 l]: [l] is the sequence of OBUs of the buffer, as dictated by
    the OBU size fields. *)
From Coq Require Import ZArith List Bool.
From Verif Require Import Base.CInt Obu.SeqModel Obu.SeqRel Obu.SeqTop Obu.ObuSpec.
Import ListNotations.
Open Scope Z_scope.

Theorem C05_last_wins : forall buf, Forall is_byte buf -> 0 < zlen buf < 2 ^ 63 ->
  exists r, parse_sequence_header buf (zlen buf) = Ok r /\
  match r with
  | inl h => exists l l1 x l2 s, walk buf 0 l /\ Forall (seq_valid buf) l /\ l = l1 ++ x :: l2 /\
      is_seq x /\ Forall (fun x => ~ is_seq x) l2 /\ seq_hdr_in buf (snd (fst x)) (snd x) s /\
      seq_rel h s /\ seq_wf h
  | inr e => (e = ENOENT_ /\ exists l, walk buf 0 l /\ Forall (fun x => ~ is_seq x) l) \/
             (e = EINVAL_ /\ ~ exists l, walk buf 0 l /\ Forall (seq_valid buf) l)
  end.
Proof. exact parse_sequence_header_ok. Qed.

(** The walk is unique, so the three cases exclude each other. *)
Theorem C05_walk_unique : forall buf o l1, walk buf o l1 -> forall l2, walk buf o l2 -> l1 = l2.
Proof. exact walk_det. Qed.

(** Two headers separated by a temporal delimiter and followed by padding. *)
Definition C05_one (w : Z) : list Z := [0x0A; 0x06; 0x1A; 0x0C; w; 0xC0; 0x00; 0x20].
Definition C05_buf : list Z := C05_one 0xFF ++ [0x12; 0x00] ++ C05_one 0xDF ++ [0x7A; 0x01; 0x80].
Example C05_example : match parse_sequence_header C05_buf (zlen C05_buf) with
                      | Ok (inl h) => max_width h = 8
                      | _ => False end.
Proof. vm_compute. reflexivity. Qed.
Example C05_walk_example : exists l, walk C05_buf 0 l /\ length l = 4%nat.
Proof.
  eexists. split.
  - repeat (eapply walk_step; [split; [discriminate|reflexivity]|vm_compute; reflexivity|]). apply walk_end.
  - reflexivity.
Qed.

Print Assumptions C05_last_wins.
Print Assumptions C05_walk_unique.

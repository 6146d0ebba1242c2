(** C03: dav1d_parse_sequence_header is total and memory safe.

    [parse_sequence_header] is the model of the API function on a buffer whose
    only readable bytes are [buf]; a read outside it, a failed assertion, an
    invalid shift, a signed overflow or a non-terminating loop would be
    [Undef]. *)
From Coq Require Import ZArith List Bool.
From Verif Require Import Base.CInt Obu.SeqModel Obu.SeqTop.
Import ListNotations.
Open Scope Z_scope.

Theorem C03_total : forall buf, Forall is_byte buf ->
  exists r, parse_sequence_header buf (zlen buf) = Ok r /\
    match r with inl _ => True | inr e => e = ENOENT_ \/ e = EINVAL_ end.
Proof. exact parse_sequence_header_total. Qed.

(** All three results occur. *)
Definition C03_hdr : list Z := [0x0A; 0x06; 0x1A; 0x0C; 0xFF; 0xC0; 0x00; 0x20].
Example C03_accepts : exists h, parse_sequence_header C03_hdr (zlen C03_hdr) = Ok (inl h) /\
  max_width h = 16 /\ max_height h = 16 /\ layout (sh_color h) = I420.
Proof. eexists. split; [vm_compute; reflexivity|]. repeat split. Qed.
Example C03_not_found : parse_sequence_header [0x12; 0x00] 2 = Ok (inr ENOENT_).
Proof. vm_compute. reflexivity. Qed.
Example C03_invalid : parse_sequence_header [0x0A; 0x06; 0x1A] 3 = Ok (inr EINVAL_).
Proof. vm_compute. reflexivity. Qed.

Print Assumptions C03_total.

(** OBU framing as in sections 5.3.1-5.3.3 and 5.2 of the AV1 specification. *)
From Coq Require Import ZArith List Bool.
From Verif Require Import Base.CInt GetBits.Spec GetBits.SpecProg Obu.SeqSpec.
Import ListNotations.
Open Scope Z_scope.
Local Open Scope sp_scope.

Record obu_hdr : Type := mkObuHdr {
  obu_type : Z; obu_extension_flag : Z; obu_has_size_field : Z; temporal_id : Z; spatial_id : Z }.

(** 5.3.2 obu_header() and 5.3.3 obu_extension_header(). *)
Definition obu_header : sp obu_hdr :=
  let* obu_forbidden_bit := f 1 in
  let* obu_type := f 4 in
  let* obu_extension_flag := f 1 in
  let* obu_has_size_field := f 1 in
  let* obu_reserved_1bit := f 1 in
  if obu_extension_flag =? 1 then
    let* temporal_id := f 3 in
    let* spatial_id := f 2 in
    let* extension_header_reserved_3bits := f 3 in
    SRet (mkObuHdr obu_type 1 obu_has_size_field temporal_id spatial_id)
  else SRet (mkObuHdr obu_type 0 obu_has_size_field 0 0).

Definition OBU_SEQUENCE_HEADER : Z := 1.

(** The OBU that starts at byte [o] of [buf]: header, and the byte range
    [start, stop) of its payload; [None] if it is malformed or does not fit.
    An OBU without a size field extends to the end of the buffer. *)
Definition next_obu (buf : list Z) (o : Z) : option (obu_hdr * Z * Z) :=
  let b := stream_bit buf (zlen buf) in
  match srun obu_header b (8 * o) with
  | (Some h, p) =>
    if obu_has_size_field h =? 1 then
      match srun leb128 b p with
      | (Some obu_size, p2) =>
        if p2 / 8 + obu_size <=? zlen buf then Some (h, p2 / 8, p2 / 8 + obu_size) else None
      | (None, _) => None
      end
    else if p / 8 <=? zlen buf then Some (h, p / 8, zlen buf) else None
  | (None, _) => None
  end.

(** The buffer from byte [o] on is a sequence of OBUs. *)
Inductive walk (buf : list Z) : Z -> list (obu_hdr * Z * Z) -> Prop :=
| walk_end : walk buf (zlen buf) []
| walk_step : forall o h start stop l, 0 <= o < zlen buf ->
    next_obu buf o = Some (h, start, stop) -> walk buf stop l ->
    walk buf o ((h, start, stop) :: l).

(** The payload [start, stop) holds the sequence header [s], followed by at
    least one trailing bit. *)
Definition seq_hdr_in (buf : list Z) (start stop : Z) (s : sequence_header) : Prop :=
  exists pos, srun (sequence_header_obu false) (stream_bit buf (zlen buf)) (8 * start) = (Some s, pos) /\
    pos < 8 * stop.

Definition is_seq (x : obu_hdr * Z * Z) : Prop := obu_type (fst (fst x)) = OBU_SEQUENCE_HEADER.
Definition seq_valid (buf : list Z) (x : obu_hdr * Z * Z) : Prop :=
  is_seq x -> exists s, seq_hdr_in buf (snd (fst x)) (snd x) s.

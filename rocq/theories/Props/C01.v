(** C01: header bit reading is exact and never leaves the buffer. *)
From Coq Require Import ZArith List Bool.
From Verif Require Import Base.CInt GetBits.Model GetBits.Spec GetBits.Reads.
Import ListNotations.
Open Scope Z_scope.

(** Any sequence of reads of 1..32 bits, from any buffer: no undefined
    behaviour (the buffer has exactly [zlen buf] readable bytes), each value is
    the next bits of the stream, the error flag tells exactly whether more bits
    were requested than exist, and the reported position is the sum of the
    widths.  The only limit is that fewer than 2^31 bits are over-read. *)
Theorem C01_reads_exact : forall buf ops,
  Forall is_byte buf -> 0 < zlen buf -> Forall op_ok ops ->
  total_width ops <= 8 * zlen buf + 2 ^ 31 ->
  exists c0 c, gb_init buf (zlen buf) = Ok c0 /\
    do_ops ops c0 = Ok (spec_ops (stream_bit buf (zlen buf)) 0 ops, c) /\
    gb_err c = (8 * zlen buf <? total_width ops) /\
    gb_pos c = total_width ops mod 2 ^ 32.
Proof. exact reads_exact. Qed.

(** Byte alignment skips to the next byte boundary and reading goes on there. *)
Theorem C01_align_exact : forall buf ops,
  Forall is_byte buf -> 0 < zlen buf -> Forall op_ok ops ->
  total_width ops <= 8 * zlen buf ->
  exists c0 c c', gb_init buf (zlen buf) = Ok c0 /\
    do_ops ops c0 = Ok (spec_ops (stream_bit buf (zlen buf)) 0 ops, c) /\
    gb_align c = Ok c' /\ gb_pos c' = (8 * ((total_width ops + 7) / 8)) mod 2 ^ 32 /\
    (forall ops2, Forall op_ok ops2 -> total_width ops2 <= 2 ^ 31 - 8 ->
      exists c2, do_ops ops2 c' =
        Ok (spec_ops (stream_bit buf (zlen buf)) (8 * ((total_width ops + 7) / 8)) ops2, c2)).
Proof. exact align_exact. Qed.

(** Non-trivial instance: a 5-byte buffer read across its end. *)
Example C01_nonvacuous :
  let buf := [165; 60; 255; 1; 128] in
  let ops := [OBit; OBits 7; OSBits 5; OBits 32] in
  (match gb_init buf 5 with Ok c => do_ops ops c | Undef => Undef end) =
    Ok ([1; 37; 7; 2682269696], mkGb buf 5 5 0 (-5) true).
Proof. vm_compute. reflexivity. Qed.

Print Assumptions C01_reads_exact.
Print Assumptions C01_align_exact.

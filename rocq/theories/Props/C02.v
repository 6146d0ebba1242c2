(** C02: variable-length integers decode to what the AV1 specification says. *)
From Coq Require Import ZArith List Bool.
From Verif Require Import Base.CInt GetBits.Model GetBits.Spec GetBits.SpecProg GetBits.Sim
  GetBits.VarLen GetBits.Reads GetBits.AtPos.
From Verif Require Import GetBits.VarLenProps.
Import ListNotations.
Open Scope Z_scope.

(** [at_pos buf pos c] is reached by any sequence of reads. *)
Theorem C02_at_pos_reachable : forall buf ops,
  Forall is_byte buf -> 0 < zlen buf -> Forall op_ok ops ->
  total_width ops <= 8 * zlen buf + 2 ^ 31 ->
  exists c0 vs c, gb_init buf (zlen buf) = Ok c0 /\ do_ops ops c0 = Ok (vs, c) /\
    at_pos buf (total_width ops) c.
Proof. exact at_pos_reads. Qed.

(** leb128: the specified value and length, or the error flag when the
    specification forbids the code. *)
Theorem C02_leb128 : forall buf pos c,
  at_pos buf pos c -> pos + 64 <= 8 * zlen buf + 2 ^ 31 ->
  match srun leb128 (stream_bit buf (zlen buf)) pos with
  | (Some v, pos') => pos < pos' <= pos + 64 /\ 0 <= v < 2 ^ 32 /\
      exists c', exec get_uleb128 c = Ok (inl v, c') /\ at_pos buf pos' c'
  | (None, pos') => exists c', exec get_uleb128 c = Ok (inl 0, c') /\ gb_err c' = true
  end.
Proof. exact uleb_exec. Qed.

(** ns(n): value below n, specified value and length. *)
Theorem C02_ns : forall buf pos c n, 1 < n < 2 ^ 31 ->
  at_pos buf pos c -> pos + 32 <= 8 * zlen buf + 2 ^ 31 ->
  exists v pos' c', srun (ns n) (stream_bit buf (zlen buf)) pos = (Some v, pos') /\
    exec (get_uniform n) c = Ok (inl v, c') /\ at_pos buf pos' c' /\ 0 <= v < n.
Proof. exact ns_exec. Qed.

(** uvlc(): whatever number of leading zeros; value as specified, and the
    specified number of bits unless the value is the reserved 2^32-1. *)
Theorem C02_uvlc : forall buf pos c v pos',
  at_pos buf pos c -> pos + 64 <= 8 * zlen buf + 2 ^ 31 ->
  uvlc_rel (stream_bit buf (zlen buf)) pos v pos' ->
  exists p2 c', exec get_vlc c = Ok (inl v, c') /\ at_pos buf p2 c' /\
    (v <> 2 ^ 32 - 1 -> p2 = pos').
Proof. exact uvlc_exec. Qed.

(** The reserved code is consumed differently from the specification: dav1d
    stops after 32 zero bits without consuming the terminating one bit. *)
Theorem C02_uvlc_length_refuted :
  exists buf pos c v pos' p2 c',
    at_pos buf pos c /\ pos + 64 <= 8 * zlen buf + 2 ^ 31 /\
    uvlc_rel (stream_bit buf (zlen buf)) pos v pos' /\
    exec get_vlc c = Ok (inl v, c') /\ at_pos buf p2 c' /\ p2 <> pos'.
Proof. exact uvlc_length_differs. Qed.

(** Signed subexponential code with reference (global motion parameters). *)
Theorem C02_subexp : forall buf pos c r n, 3 <= n <= 18 -> - 2 ^ n <= r <= 2 ^ n ->
  at_pos buf pos c -> pos + 96 <= 8 * zlen buf + 2 ^ 31 ->
  exists v pos' c',
    srun (decode_signed_subexp_with_ref (- 2 ^ n) (2 ^ n + 1) r) (stream_bit buf (zlen buf)) pos
      = (Some v, pos') /\
    exec (get_bits_subexp r n) c = Ok (inl v, c') /\ at_pos buf pos' c' /\ - 2 ^ n <= v <= 2 ^ n.
Proof. exact subexp_exec. Qed.

(** Round trips: the C reader decodes every encoding of every legal value. *)
Theorem C02_leb128_roundtrip : forall buf pos c w v, (1 <= w <= 8)%nat ->
  0 <= v < 2 ^ (7 * Z.of_nat w) -> v < 2 ^ 32 ->
  at_pos buf pos c -> pos + 64 <= 8 * zlen buf + 2 ^ 31 ->
  bits_at (stream_bit buf (zlen buf)) pos (enc_leb w v) ->
  exists c', exec get_uleb128 c = Ok (inl v, c') /\ at_pos buf (pos + 8 * Z.of_nat w) c'.
Proof. exact leb_exec_roundtrip. Qed.

Theorem C02_ns_roundtrip : forall buf pos c n v, 1 < n < 2 ^ 31 -> 0 <= v < n ->
  at_pos buf pos c -> pos + 32 <= 8 * zlen buf + 2 ^ 31 ->
  bits_at (stream_bit buf (zlen buf)) pos (enc_ns n v) ->
  exists c', exec (get_uniform n) c = Ok (inl v, c') /\ at_pos buf (pos + zlen (enc_ns n v)) c'.
Proof. exact ns_exec_roundtrip. Qed.

Theorem C02_uvlc_roundtrip : forall buf pos c v, 0 <= v < 2 ^ 32 - 1 ->
  at_pos buf pos c -> pos + 64 <= 8 * zlen buf + 2 ^ 31 ->
  bits_at (stream_bit buf (zlen buf)) pos (enc_uvlc v) ->
  exists c', exec get_vlc c = Ok (inl v, c') /\ at_pos buf (pos + zlen (enc_uvlc v)) c'.
Proof. exact uvlc_exec_roundtrip. Qed.

Theorem C02_subexp_roundtrip : forall buf pos c n r v, 3 <= n <= 18 ->
  - 2 ^ n <= r <= 2 ^ n -> - 2 ^ n <= v <= 2 ^ n ->
  at_pos buf pos c -> pos + 96 <= 8 * zlen buf + 2 ^ 31 ->
  bits_at (stream_bit buf (zlen buf)) pos (enc_signed_subexp (- 2 ^ n) (2 ^ n + 1) r v) ->
  exists c', exec (get_bits_subexp r n) c = Ok (inl v, c') /\
    at_pos buf (pos + zlen (enc_signed_subexp (- 2 ^ n) (2 ^ n + 1) r v)) c'.
Proof. exact subexp_exec_roundtrip. Qed.

(** Instances. *)
Example C02_leb_example : enc_leb 2 300 = [1;0;1;0;1;1;0;0; 0;0;0;0;0;0;1;0] /\
  bits_at (stream_bit [172; 2] 2) 0 (enc_leb 2 300).
Proof.
  split; [reflexivity|]. intros i Hi. change (zlen (enc_leb 2 300)) with 16 in Hi.
  assert (exists k, i = Z.of_nat k /\ (k < 16)%nat) as (k & -> & Hk)
    by (exists (Z.to_nat i); split; [symmetry; apply Z2Nat.id; apply Hi|
        apply Nat2Z.inj_lt; rewrite Z2Nat.id; apply Hi]).
  do 16 (destruct k as [|k]; [reflexivity|]). exfalso. do 16 apply Nat.succ_lt_mono in Hk. inversion Hk.
Qed.
Example C02_subexp_example :
  (match gb_init [224; 16] 2 with Ok c => exec (get_bits_subexp 5 12) c | Undef => Undef end)
  = Ok (inl (-11), mkGb [224; 16] 2 2 2305843009213693952 7 false).
Proof. vm_compute. reflexivity. Qed.

Print Assumptions C02_leb128.
Print Assumptions C02_uvlc.
Print Assumptions C02_subexp.
Print Assumptions C02_subexp_roundtrip.

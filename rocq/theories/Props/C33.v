(** C33: end-of-tile acceptance equals the specification's conformance
    requirements on the symbol decoder. *)
From Coq Require Import ZArith List Bool.
From Verif Require Import Base.CInt GetBits.Spec Msac.Model Msac.Spec Msac.Window Msac.Cdf Msac.SpecRun Msac.Proofs Msac.Run Msac.Top.
Import ListNotations.
Open Scope Z_scope.

Theorem C33_tile_end : forall W buf sz dis shape A n (p : dp A) cdfs strict last,
  win W -> Forall is_byte buf -> 0 <= sz <= zlen buf -> wfp shape n p -> Z.of_nat n <= max_calls ->
  cdfs_ok shape cdfs ->
  exists a m cdfs' a2 s2 c2 r,
    run_tile W buf sz dis p cdfs = Ok (a, m, cdfs') /\
    spec_tile buf sz dis p (spec_cdfs shape cdfs) = Some (a2, s2, c2) /\
    tile_sbrow_end m strict last = Ok r /\ (r = 0 \/ r = 1) /\
    (r = 0 <-> -14 <= SymbolMaxBits s2 /\
       (strict = true -> last = true -> exit_conformant (stream_bit buf sz) sz s2)).
Proof. exact tile_end. Qed.

(** Both answers occur: the same reads with correct and with wrong padding. *)
Definition C33_end (buf : list Z) : option Z :=
  match run_tile 64 buf (zlen buf) true (decode_bools 3) [] with
  | Ok (_, m, _) => match tile_sbrow_end m true true with Ok r => Some r | Undef => None end
  | Undef => None
  end.
Example C33_accepts : C33_end [0x90; 0; 0] = Some 0.
Proof. vm_compute. reflexivity. Qed.
Example C33_rejects : C33_end [0x90; 0; 1] = Some 1.
Proof. vm_compute. reflexivity. Qed.

Print Assumptions C33_tile_end.

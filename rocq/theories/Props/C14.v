(** C14: adaptive CDFs stay valid forever. *)
From Coq Require Import ZArith List Bool.
From Verif Require Import Base.CInt Msac.Model Msac.Spec Msac.Window Msac.Cdf Msac.Proofs Msac.Run Msac.Top.
Import ListNotations.
Open Scope Z_scope.

(** Unbounded sequences of adaptations of one array: defined, valid, of the
    same size, and equal to the specification's adaptation process. *)
Theorem C14_adapt_forever : forall n syms cdf, cdf_ok n cdf -> Forall (fun v => 0 <= v <= n) syms ->
  exists cdf', adapt_many cdf n syms = Ok cdf' /\ cdf_ok n cdf' /\ zlen cdf' = zlen cdf /\
    spec_cdf n cdf' = fold_left (fun c v => adapt_cdf c (n + 1) v) syms (spec_cdf n cdf).
Proof. exact adapt_forever. Qed.

(** All arrays of a tile stay valid while it is decoded, whatever the data. *)
Theorem C14_cdfs_stay_valid : forall W buf sz dis shape A n (p : dp A) cdfs a m cdfs',
  win W -> Forall is_byte buf -> 0 <= sz <= zlen buf -> wfp shape n p -> Z.of_nat n <= max_calls ->
  cdfs_ok shape cdfs -> run_tile W buf sz dis p cdfs = Ok (a, m, cdfs') -> cdfs_ok shape cdfs'.
Proof. exact cdfs_stay_valid. Qed.

Example C14_nonvacuous :
  adapt_many [24000; 16000; 8000; 0] 3 [0; 1; 3; 3; 2] = Ok [24384; 16627; 8778; 5].
Proof. vm_compute. reflexivity. Qed.

Print Assumptions C14_adapt_forever.
Print Assumptions C14_cdfs_stay_valid.

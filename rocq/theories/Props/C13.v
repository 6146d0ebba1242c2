(** C13: entropy decoding is memory safe and returns in-range symbols. *)
From Coq Require Import ZArith List Bool.
From Verif Require Import Base.CInt Msac.Model Msac.Window Msac.Cdf Msac.Proofs Msac.Run Msac.Top.
Import ListNotations.
Open Scope Z_scope.

(** For every payload (also an empty one, and also after over-read) and every
    program of legal calls: no undefined behaviour — every buffer access is
    inside the first [sz] bytes, every shift count in range, no assertion
    fails, no signed overflow — and the range register stays normalised. *)
Theorem C13_safe : forall W buf sz dis shape A n (p : dp A) cdfs,
  win W -> Forall is_byte buf -> 0 <= sz <= zlen buf -> wfp shape n p -> Z.of_nat n <= max_calls ->
  cdfs_ok shape cdfs ->
  exists a m cdfs', run_tile W buf sz dis p cdfs = Ok (a, m, cdfs') /\
    ms_buf m = buf /\ ms_end m = sz /\ 0 <= ms_pos m <= sz /\ 32768 <= ms_rng m <= 65535 /\
    ms_dif m / 2 ^ (W - 16) < ms_rng m.
Proof. exact safe. Qed.

(** The result of any call made after any such program is in range: 0..n for
    a symbol, 0..1 for a boolean. *)
Theorem C13_result_range : forall W buf sz dis shape A n (p : dp A) cdfs (o : A -> dop),
  win W -> Forall is_byte buf -> 0 <= sz <= zlen buf -> wfp shape n p -> Z.of_nat n < max_calls ->
  cdfs_ok shape cdfs -> (forall a, op_ok shape (o a)) ->
  exists a v m cdfs',
    run_tile W buf sz dis (dbind p (fun a => DDo (o a) (fun v => DRet (a, v)))) cdfs = Ok ((a, v), m, cdfs') /\
    res_ok (o a) v.
Proof. exact result_range. Qed.

(** The legality conditions matter: a probability of 1.0 breaks the decoder. *)
Example C13_probability_one_is_undefined :
  run_tile 64 [255; 255; 255; 255] 4 true (dop_ (DSym 0 1)) [[32768; 0]] = Undef.
Proof. vm_compute. reflexivity. Qed.
Example C13_nonvacuous :
  match run_tile 32 [] 0 false (dbind (decode_bools 20) (fun a => dbind (dop_ (DSym 0 2)) (fun b => DRet (a, b))))
          [[20000; 10000; 32]] with
  | Ok (r, m, c) => r = (0, 0) /\ ms_cnt m = -37 /\ ms_pos m = 0 /\ c = [[19688; 9844; 32]]
  | Undef => False
  end.
Proof. vm_compute. repeat split. Qed.

Print Assumptions C13_safe.
Print Assumptions C13_result_range.

(** C12: arithmetic decoding equals the specification until over-read is
    reported. *)
From Coq Require Import ZArith List Bool.
From Verif Require Import Base.CInt GetBits.Spec.
From Verif Require Import Msac.Model Msac.Spec Msac.Window Msac.Cdf Msac.SpecRun Msac.Proofs Msac.Run Msac.Top.
Import ListNotations.
Open Scope Z_scope.

(** Any program of decode calls (each call may depend on earlier results and
    the program returns any function of them), from any tile payload, for a
    32- or 64-bit window: the C decoder and the specification's decoder both
    run to the end; the over-read test of the C decoder is equivalent to the
    specification's limit on SymbolMaxBits; and when it has not fired, all
    results, the adapted CDFs and the decoder registers agree. *)
Theorem C12_matches_spec : forall W buf sz dis shape A n (p : dp A) cdfs,
  win W -> Forall is_byte buf -> 0 <= sz <= zlen buf -> wfp shape n p -> Z.of_nat n <= max_calls ->
  cdfs_ok shape cdfs ->
  exists a m cdfs' a2 s2 c2,
    run_tile W buf sz dis p cdfs = Ok (a, m, cdfs') /\
    spec_tile buf sz dis p (spec_cdfs shape cdfs) = Some (a2, s2, c2) /\
    (-15 < ms_cnt m <-> -14 <= SymbolMaxBits s2) /\
    (-15 < ms_cnt m -> a = a2 /\ c2 = spec_cdfs shape cdfs' /\
       ms_rng m = SymbolRange s2 /\ ms_dif m / 2 ^ (W - 16) = SymbolValue s2).
Proof. exact matches_spec. Qed.

(** The window size does not matter. *)
Theorem C12_window_size_irrelevant : forall buf sz dis shape A n (p : dp A) cdfs a32 m32 c32 a64 m64 c64,
  Forall is_byte buf -> 0 <= sz <= zlen buf -> wfp shape n p -> Z.of_nat n <= max_calls ->
  cdfs_ok shape cdfs ->
  run_tile 32 buf sz dis p cdfs = Ok (a32, m32, c32) ->
  run_tile 64 buf sz dis p cdfs = Ok (a64, m64, c64) ->
  (-15 < ms_cnt m32 <-> -15 < ms_cnt m64) /\
  (-15 < ms_cnt m32 -> a32 = a64 /\ spec_cdfs shape c32 = spec_cdfs shape c64 /\ ms_rng m32 = ms_rng m64).
Proof. exact window_size_irrelevant. Qed.

(** L(n): literals. *)
Theorem C12_literal : forall buf sz dis n s c, 0 <= sz -> swf sz s -> 0 <= n <= 32 ->
  srun_dp (stream_bit buf sz) dis (decode_bools n) s c =
  Some (fst (read_literal (stream_bit buf sz) n s), snd (read_literal (stream_bit buf sz) n s), c).
Proof. exact (fun buf sz dis n s c H => bools_spec buf sz H dis n s c). Qed.

(** NS(n): non-symmetric codes. *)
Theorem C12_uniform : forall buf sz dis n s c, 0 <= sz -> swf sz s -> 2 <= n < 2 ^ 30 ->
  srun_dp (stream_bit buf sz) dis (decode_uniform n) s c =
  Some (fst (read_NS (stream_bit buf sz) n s), snd (read_NS (stream_bit buf sz) n s), c).
Proof. exact (fun buf sz dis n s c H => uniform_spec buf sz H dis n s c). Qed.

(** Sub-exponential codes with a reference (loop-restoration coefficients);
    dav1d only calls the function with n = 8 << k. *)
Theorem C12_subexp : forall buf sz dis k s c, 0 <= sz -> swf sz s -> 0 <= k <= 10 ->
  forall ref, 0 <= ref < 8 * 2 ^ k ->
  exists v s', decode_unsigned_subexp_with_ref_bool (stream_bit buf sz) (8 * 2 ^ k) k ref s = Some (v, s') /\
    0 <= v < 8 * 2 ^ k /\
    srun_dp (stream_bit buf sz) dis (decode_subexp ref (8 * 2 ^ k) k) s c = Some (v, s', c).
Proof. exact (fun buf sz dis k s c H => subexp_bool_spec buf sz H dis k s c). Qed.

(** The coefficient range loop. *)
Theorem C12_hi_tok : forall buf sz dis shape i s cdfs, 0 <= sz -> swf sz s -> cdfs_ok shape cdfs ->
  0 <= i < zlen shape -> nthZ shape i = 3 ->
  srun_dp (stream_bit buf sz) dis (decode_hi_tok i) s (spec_cdfs shape cdfs) =
  Some (coeff_br_loop (stream_bit buf sz) dis 4 i 3 s (spec_cdfs shape cdfs)).
Proof. exact hi_tok_spec. Qed.

(** The composite readers can be used inside programs covered by
    [C12_matches_spec], and the states they are started from satisfy [swf]. *)
Theorem C12_readers_are_programs : forall shape,
  (forall n v, wfp shape n (decode_bools_loop n v)) /\
  (forall n, 2 <= n < 2 ^ 30 -> wfp shape 31 (decode_uniform n)) /\
  (forall ref k, 0 <= k <= 10 -> wfp shape 20 (decode_subexp ref (8 * 2 ^ k) k)) /\
  (forall i, 0 <= i < zlen shape -> nthZ shape i = 3 -> wfp shape 4 (decode_hi_tok i)).
Proof.
  exact (fun shape => conj (wfp_bools shape) (conj (wfp_uniform shape) (conj (wfp_subexp shape) (wfp_hi_tok shape)))).
Qed.
Theorem C12_spec_states : forall buf sz dis shape A n (p : dp A) cdfs a s c,
  Forall is_byte buf -> 0 <= sz <= zlen buf -> wfp shape n p -> cdfs_ok shape cdfs ->
  spec_tile buf sz dis p (spec_cdfs shape cdfs) = Some (a, s, c) -> swf sz s.
Proof. exact spec_tile_swf. Qed.

(** Without the over-read condition the equality is false: after the end of
    the data the 32-bit window returns other values than the specification
    and than the 64-bit window. *)
Fixpoint bools_xor (n : nat) (acc : Z) : dp Z :=
  match n with O => DRet acc | S n => dbind (dop_ DEqui) (fun v => bools_xor n (acc + v)) end.
Theorem C12_equal_after_overread_refuted :
  ~ (forall W buf sz dis shape A n (p : dp A) cdfs, win W -> Forall is_byte buf ->
      0 <= sz <= zlen buf -> wfp shape n p -> Z.of_nat n <= max_calls -> cdfs_ok shape cdfs ->
      exists a m cdfs' s2 c2, run_tile W buf sz dis p cdfs = Ok (a, m, cdfs') /\
        spec_tile buf sz dis p (spec_cdfs shape cdfs) = Some (a, s2, c2)).
Proof.
  intros H. destruct (H 32 [] 0 true [] Z 34%nat (bools_xor 34 0) []) as (a & m & c & s2 & c2 & E1 & E2).
  - left. reflexivity.
  - constructor.
  - split; discriminate.
  - repeat (constructor; [exact I|intros]). constructor.
  - discriminate.
  - constructor.
  - vm_compute in E1. vm_compute in E2. inversion E1. inversion E2. subst. discriminate.
Qed.

(** A concrete run: adaptive symbols, booleans and literals from 4 bytes. *)
Definition C12_prog : dp (list Z) :=
  dbind (dop_ (DSym 0 3)) (fun a => dbind (dop_ (DBoolAdapt 1)) (fun b =>
  dbind (decode_bools 5) (fun c => dbind (dop_ (DBool (1000 + 100 * b))) (fun d =>
  dbind (dop_ (DSym 0 3)) (fun e => DRet [a; b; c; d; e]))))).
Example C12_example :
  let cdfs := [[24000; 16000; 8000; 0]; [16384; 0]] in
  let buf := [0x5a; 0x13; 0xc7; 0x80] in
  match run_tile 64 buf 4 false C12_prog cdfs, run_tile 32 buf 4 false C12_prog cdfs,
        spec_tile buf 4 false C12_prog (spec_cdfs [3; 1] cdfs) with
  | Ok (a, m, c), Ok (a', m', c'), Some (a2, s2, c2) =>
      a = [1; 0; 22; 0; 0] /\ a' = a /\ a2 = a /\ ms_cnt m = 6 /\ ms_cnt m' = 6 /\ SymbolMaxBits s2 = 6 /\
      c2 = spec_cdfs [3; 1] c
  | _, _, _ => False
  end.
Proof. vm_compute. repeat split. Qed.
Example C12_cdfs_satisfiable : cdfs_ok [3; 1] [[24000; 16000; 8000; 0]; [16384; 0]].
Proof.
  constructor; [|constructor; [|constructor]]; apply cdf_okb_ok; reflexivity.
Qed.

Print Assumptions C12_matches_spec.
Print Assumptions C12_window_size_irrelevant.
Print Assumptions C12_subexp.
Print Assumptions C12_equal_after_overread_refuted.

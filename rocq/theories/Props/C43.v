(** C43: decode_coefs reads the coefficients of a transform block as the coefficient
    syntax says. *)
From Coq Require Import ZArith List Bool Lia.
From Verif Require Import Base.CInt Itx.Lang Itx.ScanTables Itx.Txfm2d Itx.Spec1d Itx.Spec2d Itx.Proofs2d Itx.ScanProofs
  Coef.Prog Coef.Model Coef.Ctx Coef.Types Coef.Residual Coef.Top.
From Verif Require Coef.Spec.
Import ListNotations.
Open Scope Z_scope.

(** Every way to read coeffs() is a way for the code to run: it asks for the same
    values, each from the corresponding table of probabilities, and ends with the same
    type, end of block, coefficients and contexts. *)
Theorem C43_follows_syntax : forall I e txtp cf0 tr o,
  matches I e txtp -> quant I e -> clear_for (Spec.i_tx I) cf0 ->
  reads (Spec.coeffs I) tr o ->
  exists r, reads (decode_coefs e txtp cf0) (map (fun rv => (cdf_of (fst rv), snd rv)) tr) r /\ coefs_post I cf0 r o.
Proof. intros I e txtp cf0 tr o M Q C. apply sim_reads. apply decode_coefs_spec; auto. Qed.

(** And the code has no other runs. *)
Theorem C43_only_syntax : forall I e txtp cf0 tr r,
  matches I e txtp -> quant I e -> clear_for (Spec.i_tx I) cf0 ->
  reads (decode_coefs e txtp cf0) tr r ->
  exists tr' o, reads (Spec.coeffs I) tr' o /\ tr = map (fun rv => (cdf_of (fst rv), snd rv)) tr' /\ coefs_post I cf0 r o.
Proof. intros I e txtp cf0 tr r M Q C. apply sim_reads_inv; [apply decode_coefs_spec; auto|apply coeffs_safe]. Qed.

(** Whatever the arithmetic decoder delivers, nothing undefined happens: no access
    outside of a table, the coefficients or the levels, and no signed overflow. *)
Theorem C43_defined : forall I e txtp cf0, matches I e txtp -> quant I e -> clear_for (Spec.i_tx I) cf0 ->
  safe (decode_coefs e txtp cf0).
Proof. intros I e txtp cf0 M Q C. eapply sim_safe; [apply decode_coefs_spec; eauto|apply coeffs_safe]. Qed.

(** What is added to the picture is the reconstruction of the specification, and the
    coefficients are zero again for the next block. *)
Theorem C43_pixels : forall I e txtp0 cf0 tr eob txtp res_ctx cf dst,
  matches I e txtp0 -> quant I e -> clear_for (Spec.i_tx I) cf0 -> block_of (Spec.i_tx I) (Spec.i_BitDepth I) dst ->
  reads (decode_coefs e txtp0 cf0) tr (eob, txtp, res_ctx, cf) ->
  exists tr' o, reads (Spec.coeffs I) tr' o /\ tr = map (fun rv => (cdf_of (fst rv), snd rv)) tr' /\
    (if 0 <=? eob then itxfm_add (is8 (Spec.i_BitDepth I)) (bdmax (Spec.i_BitDepth I)) (e_tx e) txtp dst cf eob else Ok (dst, cf)) =
    Ok (add_residual I (fst o) dst, cf0).
Proof.
  intros I e txtp0 cf0 tr eob txtp res_ctx cf dst M Q C B K.
  destruct (C43_only_syntax _ _ _ _ _ _ M Q C K) as (tr' & o & T1 & T2 & P). exists tr', o. split; [auto|]. split; [auto|].
  rewrite (m_etx _ _ _ M). eapply post_pixels; eauto; [apply (m_tx _ _ _ M)|apply (m_lossless_tx _ _ _ M)|apply (q_bpc_r _ _ Q)].
Qed.

(** ** Satisfiable *)
(** A 4x4 intra block in the luma plane of an 8 bit 4:2:0 frame, alone at the corner. *)
Definition ex_info : Spec.info :=
  Spec.mkInfo false 0 0 false false 100 0 None 0 0 1 1 true true 80 90 None 8 [None] [None].
Definition ex_env : env :=
  mkEnv false 0 17 true 0 I420 false 100 0 0 0 (80, 90) None 8 (repeat 0x40 32) (repeat 0x40 32).
Example C43_ex_matches : matches ex_info ex_env 0 /\ quant ex_info ex_env /\ clear_for 0 (repeat 0 16).
Proof.
  split; [|split].
  - constructor; try reflexivity; cbn; try lia; try discriminate; auto.
    + split; [reflexivity|]. unfold FILTER_PRED. lia.
    + repeat constructor.
    + repeat constructor.
    + exists (repeat 0x40 31). reflexivity.
    + exists (repeat 0x40 31). reflexivity.
  - constructor; cbn; auto; lia.
  - split; [cbn; lia|]. intros k K. apply nth_repeat.
Qed.
(** not all zero, DCT_DCT, three coefficients: 1 at the end, 0, and a first one of 16 = 14 + 2 *)
Definition ex_values : list Z := [0; 1; 2; 0; 0; 0; 3; 3; 3; 3; 3; 1; 0; 1; 0; 1].
Example C43_ex_run : run (decode_coefs ex_env 0 (repeat 0 16)) ex_values =
  Some ([C_skip 0 1; C_txtp_intra1 0 0; C_eob_bin 0 0 (Some 0); C_eob_hi_bit 0 0 2; C_eob_base_tok 0 0 1; C_base_tok 0 0 1;
         C_base_tok 0 0 0; C_br_tok 0 0 1; C_br_tok 0 0 1; C_br_tok 0 0 1; C_br_tok 0 0 1; C_dc_sign 0 0; C_equi; C_equi; C_equi; C_equi],
        (2, 0, 17, [-1280; -90; 0; 0; 0; 0; 0; 0; 0; 0; 0; 0; 0; 0; 0; 0])).
Proof. vm_compute. reflexivity. Qed.
Example C43_ex_spec : exists rs D c, run (Spec.coeffs ex_info) ex_values = Some (rs, (Some (0%nat, 3%nat, D), c)) /\ c = (17, 1).
Proof. eexists _, _, _. split; [lazy -[Spec.Dequant]; reflexivity|reflexivity]. Qed.

Print Assumptions C43_follows_syntax.
Print Assumptions C43_only_syntax.
Print Assumptions C43_defined.
Print Assumptions C43_pixels.

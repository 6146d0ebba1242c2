(** decode_coefs does what coeffs() of the specification says. *)
From Coq Require Import ZArith List Bool Lia Permutation.
From Verif Require Import Base.CInt Base.Lemmas Itx.Lang Itx.ScanTables Itx.Txfm2d Itx.Spec1d Itx.Spec2d Itx.Proofs1d Itx.Proofs2d Itx.ScanProofs Itx.Main2d Itx.Dc2d
  Coef.Prog Coef.Model Coef.Ctx Coef.Types Coef.Geo Coef.Tokens Coef.Tokens2 Coef.Residual.
From Verif Require Coef.Spec.
Import ListNotations.
Open Scope Z_scope.

(** The coefficient buffer: zero where the block will be. *)
Definition clear_for (tx : nat) (cf : list Z) : Prop :=
  (scan_w tx * scan_h tx <= length cf)%nat /\ forall k, (k < scan_w tx * scan_h tx)%nat -> nth k cf 0 = 0.

(** Results of the code and of the specification. *)
Definition coefs_post (I : Spec.info) (cf0 : list Z) (r : Z * Z * Z * list Z)
    (o : option (nat * nat * (nat -> nat -> Z)) * (Z * Z)) : Prop :=
  let '(eob, txtp, res_ctx, cf) := r in
  let tx := Spec.i_tx I in
  ctx_ok (Some (snd o)) /\ res_ctx = ctx_byte (Some (snd o)) /\
  match fst o with
  | None => eob = -1 /\ txtp = type_num I 0 /\ cf = cf0
  | Some (ty, n, D) =>
    (1 <= n <= scan_w tx * scan_h tx)%nat /\ eob = Z.of_nat n - 1 /\
    (ty < 16)%nat /\ allowed tx ty = true /\ txtp = type_num I ty /\
    cf = layout tx D ++ skipn (scan_w tx * scan_h tx) cf0 /\
    (forall i j, - 2 ^ (Spec.i_BitDepth I + 7) <= D i j <= 2 ^ (Spec.i_BitDepth I + 7) - 1) /\
    (forall i j, (i < scan_h tx)%nat -> (j < scan_w tx)%nat -> D i j <> 0 ->
       exists c, (c < n)%nat /\ nth c (get_scan tx ty) 0%nat = (i * scan_w tx + j)%nat)
  end.

Lemma txtp_spec' : forall I e txtp, matches I e txtp ->
  sim cdf_of (fun a b => txtp_post I a b /\ (Spec.i_lossless I = true -> b = 0%nat)) (read_txtp e txtp) (Spec.PlaneTxType I).
Proof.
  intros I e txtp M. pose proof (txtp_spec I e txtp M) as S. destruct (Spec.i_lossless I) eqn:LL.
  - unfold Spec.PlaneTxType in *. rewrite LL in *. inversion S; subst. constructor. auto.
  - eapply sim_weaken; [exact S|]. intros a b H. split; auto. discriminate.
Qed.

Lemma layout_eq : forall tx cf D, (tx < 19)%nat -> (scan_w tx * scan_h tx <= length cf)%nat ->
  (forall i j, (i < scan_h tx)%nat -> (j < scan_w tx)%nat -> nth (i + j * scan_h tx) cf 0 = D i j) ->
  cf = layout tx D ++ skipn (scan_w tx * scan_h tx) cf.
Proof.
  intros tx cf D TX L H. rewrite <- (firstn_skipn (scan_w tx * scan_h tx) cf) at 1. f_equal.
  apply nth_ext with (d := 0) (d' := 0).
  - rewrite firstn_length_le by auto. rewrite layout_length. reflexivity.
  - intros k K. rewrite firstn_length_le in K by auto.
    destruct (scan_wh tx TX) as (W & Hh & _).
    assert (KE : (k = k mod scan_h tx + k / scan_h tx * scan_h tx)%nat) by (rewrite (Nat.div_mod k (scan_h tx)) at 1 by lia; lia).
    assert (K1 : (k mod scan_h tx < scan_h tx)%nat) by (apply Nat.mod_upper_bound; lia).
    assert (K2 : (k / scan_h tx < scan_w tx)%nat) by (apply Nat.div_lt_upper_bound; [lia|]; rewrite Nat.mul_comm; auto).
    rewrite KE at 2. rewrite layout_nth by auto. rewrite <- H by auto. rewrite <- KE.
    rewrite <- (firstn_skipn (scan_w tx * scan_h tx) cf) at 2. rewrite app_nth1; auto. rewrite firstn_length_le; auto.
Qed.

Theorem decode_coefs_spec : forall I e txtp cf0, matches I e txtp -> quant I e -> clear_for (Spec.i_tx I) cf0 ->
  sim cdf_of (coefs_post I cf0) (decode_coefs e txtp cf0) (Spec.coeffs I).
Proof.
  intros I e txtp cf0 M QU [CL CZ]. pose proof (m_tx _ _ _ M) as TX.
  destruct (tx_facts _ TX) as (t_dim & T & _ & _ & _ & _ & CT & _).
  destruct (denom _ TX) as (cc & CT' & SH & DEN). rewrite CT in CT'. injection CT' as EC.
  change ((Z.of_nat (Nat.min (log2w (Spec.i_tx I)) (log2h (Spec.i_tx I))) - 2 + (Z.of_nat (Nat.max (log2w (Spec.i_tx I)) (log2h (Spec.i_tx I))) - 2) + 1) / 2)
    with (Spec.txSzCtx I) in *. subst cc.
  assert (T' : rd_at txfm_dimensions (e_tx e) = Ok t_dim) by (rewrite (m_etx _ _ _ M); exact T).
  assert (CT' : rd_at tx_ctx (e_tx e) = Ok (Spec.txSzCtx I)) by (rewrite (m_etx _ _ _ M); exact CT).
  unfold decode_coefs, Spec.coeffs. rewrite T'. cbn [lift bind]. rewrite CT'. cbn [lift bind].
  rewrite (skip_ctx_spec I e txtp M t_dim T'). cbn [lift bind read]. constructor; [reflexivity|]. intros z ZR. cbn [bind].
  destruct (Z.eqb_spec z 1) as [ -> |NZ].
  - constructor. cbn. split; [lia|]. split; [reflexivity|]. split; [reflexivity|]. split; [|reflexivity].
    rewrite (m_lossless _ _ _ M). unfold type_num. destruct (Spec.i_lossless I); reflexivity.
  - eapply sim_bind; [apply txtp_spec'; exact M|]. intros ty' ty ((-> & TY & AL) & LL).
    assert (TC : rd_at tx_type_class (type_num I ty) = Ok (mcls ty)).
    { unfold type_num. destruct (Spec.i_lossless I); [rewrite LL by auto; reflexivity|]. apply class_of_g. auto. }
    rewrite TC. cbn [lift bind].
    replace (match mcls ty with TX_CLASS_2D => 0 | _ => 1 end) with (match Spec.get_tx_class ty with Spec.TX_CLASS_2D => 0 | _ => 1 end)
      by (unfold mcls; destruct (Spec.get_tx_class ty); reflexivity).
    eapply sim_bind; [apply (eob_spec I e txtp M t_dim _ T')|]. intros eob' eob [-> EB].
    eapply sim_bind; [apply (toks_spec I e txtp ty eob cf0 M TY AL LL EB CL CZ)|].
    intros [[dc_tok rc] cf] Q (D1 & D2 & D3 & D4 & D5 & D6).
    eapply sim_bind.
    { apply (residual_sim I e txtp ty M QU TX TY AL (Z.max 0 (Spec.txSzCtx I - 2)) SH DEN eob EB cf0 CL Q D4 dc_tok rc cf D1 D2 D3 D6). }
    intros [res cf'] s (R1 & (W1 & W2 & W3 & W4 & W5) & R3). cbn [fst snd] in *. constructor. unfold coefs_post. cbn [fst snd].
    assert (CV : forall c, (c < scan_w (Spec.i_tx I) * scan_h (Spec.i_tx I))%nat -> rd_at cf' (stored_at (Spec.i_tx I) (pos I ty c)) =
       Ok (dqz I ty (pos I ty c) (Spec.a_quant s (pos I ty c)))).
    { intros c C. rewrite W3 by auto. destruct (Nat.ltb_spec c eob) as [LT|GE]; auto. f_equal.
      rewrite W4 by lia. rewrite D5 by lia.
      rewrite (dqz_0 I e txtp ty M QU TX TY AL (Z.max 0 (Spec.txSzCtx I - 2)) SH DEN).
      unfold cell. rewrite (proj2 (Nat.ltb_ge c eob)) by auto. rewrite andb_false_r. reflexivity. }
    assert (DD : forall Q i j, Spec.Dequant I ty Q i j = dqz I ty (i * scan_w (Spec.i_tx I) + j) (Q (i * scan_w (Spec.i_tx I) + j)%nat)) by reflexivity.
    split; [split; [lia|exact R3]|]. split; [exact R1|]. split; [exact EB|]. split; [reflexivity|]. split; [exact TY|]. split; [exact AL|].
    split; [reflexivity|]. split; [|split].
    + rewrite <- W2. apply layout_eq; auto; [lia|]. intros i j Hi Hj.
      destruct (scan_wh _ TX) as (B1 & B2 & _).
      assert (PL : (i * scan_w (Spec.i_tx I) + j < scan_w (Spec.i_tx I) * scan_h (Spec.i_tx I))%nat) by nia.
      destruct (pos_surj I ty TX TY AL _ PL) as (c & C & PE). specialize (CV c C). rewrite PE in CV.
      rewrite DD.
      assert (SE : stored_at (Spec.i_tx I) (i * scan_w (Spec.i_tx I) + j) = Z.of_nat (i + j * scan_h (Spec.i_tx I))).
      { unfold stored_at, stored. destruct (div_mod_pos (scan_w (Spec.i_tx I)) i j Hj) as [ -> -> ]. lia. }
      rewrite SE in CV. rewrite rd_at_nat with (d := 0) in CV by nia. injection CV as CV. exact CV.
    + intros i j. rewrite DD. unfold dqz. rewrite (Z.add_comm (Spec.i_BitDepth I) 7).
      pose proof (top_r I e txtp ty M QU TX TY AL (Z.max 0 (Spec.txSzCtx I - 2)) SH DEN) as TR. lia.
    + intros i j Hi Hj NZ'.
      assert (PL : (i * scan_w (Spec.i_tx I) + j < scan_w (Spec.i_tx I) * scan_h (Spec.i_tx I))%nat) by nia.
      destruct (pos_surj I ty TX TY AL _ PL) as (c & C & PE). exists c. split; [|exact PE].
      destruct (Nat.lt_ge_cases c eob) as [|GE]; auto. exfalso. apply NZ'. rewrite DD. rewrite <- PE. rewrite W4 by lia. rewrite D5 by lia.
      apply (dqz_0 I e txtp ty M QU TX TY AL (Z.max 0 (Spec.txSzCtx I - 2)) SH DEN).
Qed.

(** The picture afterwards: what the inverse transform of the code makes of the
    result of decode_coefs, with the buffer of coefficients clear again. *)
Definition add_residual (I : Spec.info) (o : option (nat * nat * (nat -> nat -> Z))) (dst : list (list Z)) : list (list Z) :=
  match o with
  | None => dst
  | Some (ty, _, D) =>
    if Spec.i_lossless I then reconstruct_wht (Spec.i_BitDepth I) D dst
    else reconstruct (clamp (row_bits (Spec.i_BitDepth I))) (clamp (col_bits (Spec.i_BitDepth I))) (Spec.i_BitDepth I) (Spec.i_tx I) ty D dst
  end.
Definition block_of (tx : nat) (bd : Z) (dst : list (list Z)) : Prop :=
  length dst = height tx /\ Forall (fun r => length r = width tx) dst /\ Forall (Forall (fun v => 0 <= v <= 2 ^ bd - 1)) dst.

Lemma repeat_skipn : forall cf n, (n <= length cf)%nat -> (forall k, (k < n)%nat -> nth k cf 0 = 0) -> repeat 0 n ++ skipn n cf = cf.
Proof.
  intros cf n L Z0. rewrite <- (firstn_skipn n cf) at 2. f_equal. apply nth_ext with (d := 0) (d' := 0).
  - rewrite repeat_length, firstn_length_le; auto.
  - intros k K. rewrite repeat_length in K. rewrite nth_repeat.
    transitivity (nth k (firstn n cf ++ skipn n cf) 0); [rewrite firstn_skipn; symmetry; auto|].
    apply app_nth1. rewrite firstn_length_le; auto.
Qed.

Theorem post_pixels : forall I cf0 eob txtp res_ctx cf o dst,
  (Spec.i_tx I < 19)%nat -> (Spec.i_lossless I = true -> Spec.i_tx I = 0%nat) ->
  Spec.i_BitDepth I = 8 \/ Spec.i_BitDepth I = 10 \/ Spec.i_BitDepth I = 12 ->
  clear_for (Spec.i_tx I) cf0 -> block_of (Spec.i_tx I) (Spec.i_BitDepth I) dst ->
  coefs_post I cf0 (eob, txtp, res_ctx, cf) o ->
  (if 0 <=? eob then itxfm_add (is8 (Spec.i_BitDepth I)) (bdmax (Spec.i_BitDepth I)) (Z.of_nat (Spec.i_tx I)) txtp dst cf eob else Ok (dst, cf)) =
  Ok (add_residual I (fst o) dst, cf0).
Proof.
  intros I cf0 eob txtp res_ctx cf o dst TX LT BD [CL CZ] (BH & BW & BP) (_ & _ & P). unfold add_residual.
  destruct (fst o) as [[[ty n] D]|].
  - destruct P as (NR & -> & TY & AL & -> & -> & DR & DZ). rewrite (proj2 (Z.leb_le _ _)) by lia.
    unfold type_num. destruct (Spec.i_lossless I) eqn:LL.
    + assert (E0 : Spec.i_tx I = 0%nat) by auto. rewrite E0 in *. change (Z.of_nat 0) with TX_4X4.
      rewrite (wht_spec (Spec.i_BitDepth I) D dst _ BD); auto.
      do 2 f_equal. change 16%nat with (scan_w 0 * scan_h 0)%nat. apply repeat_skipn; auto.
    + replace (Z.of_nat n - 1) with (Z.of_nat (n - 1)) by lia. rewrite itxfm_add_spec.
      * rewrite repeat_skipn by auto. reflexivity.
      * constructor; auto; [lia|]. intros i j Hi Hj NZ. destruct (DZ i j Hi Hj NZ) as (c & C & E). exists c. split; [lia|exact E].
  - destruct P as (-> & _ & ->). reflexivity.
Qed.

(** The syntax can always be parsed to its end. *)
Lemma safe_ret_n : forall R A (a : A), @safe R A (Ret a). Proof. constructor. Qed.
Theorem coeffs_safe : forall I, safe (Spec.coeffs I).
Proof.
  intros I. unfold Spec.coeffs.
  assert (BR : forall n c l, safe (Spec.read_br I n c l)).
  { induction n; intros; cbn [Spec.read_br]; [constructor|]. apply safe_bind; [apply safe_read|]. intros v. destruct (v <? 3); [constructor|auto]. }
  assert (LV : forall ty c b Q, safe (Spec.read_level I ty c b Q)).
  { intros. unfold Spec.read_level. apply safe_bind.
    - destruct b; [apply safe_bind; [apply safe_read|constructor]|apply safe_read].
    - intros v. apply safe_bind; [|constructor]. destruct (2 <? v); [auto|constructor]. }
  assert (LS : forall ty c Q, safe (Spec.read_levels I ty c Q)).
  { induction c; intros; cbn [Spec.read_levels]; [constructor|]. apply safe_bind; auto. }
  assert (GB : forall n x, safe (Spec.golomb_bits n x)).
  { induction n; intros; cbn [Spec.golomb_bits]; [constructor|]. apply safe_bind; [apply safe_read|auto]. }
  assert (GZ : forall n z, safe (Spec.golomb_zeros n z)).
  { induction n; intros; cbn [Spec.golomb_zeros]; (apply safe_bind; [apply safe_read|]); intros b; [constructor|]. destruct (b =? 1); [constructor|auto]. }
  assert (SG : forall ty c s, safe (Spec.read_sign I ty c s)).
  { intros. unfold Spec.read_sign. apply safe_bind.
    - destruct (negb _); [|constructor]. destruct (Nat.eqb c 0); apply safe_read.
    - intros b. apply safe_bind; [|constructor]. destruct (14 <? _); [|constructor].
      apply safe_bind; [|constructor]. unfold Spec.golomb. apply safe_bind; auto. }
  assert (SS : forall ty l s, safe (Spec.read_signs I ty l s)).
  { induction l; intros; cbn [Spec.read_signs]; [constructor|]. apply safe_bind; auto. }
  assert (EB : forall n x, safe (Spec.eob_bits n x)).
  { induction n; intros; cbn [Spec.eob_bits]; [constructor|]. apply safe_bind; [apply safe_read|auto]. }
  apply safe_bind; [apply safe_read|]. intros z. destruct (z =? 1); [constructor|].
  apply safe_bind.
  { unfold Spec.PlaneTxType, Spec.transform_type. destruct (Spec.i_lossless I); [constructor|].
    destruct (Spec.i_plane I =? 0); [|constructor]. destruct (_ && _); [|constructor]. apply safe_bind; [apply safe_read|constructor]. }
  intros ty. apply safe_bind.
  { unfold Spec.read_eob. apply safe_bind; [apply safe_read|]. intros v. destruct (3 <=? v + 1); [|constructor].
    apply safe_bind; [apply safe_read|]. intros x. apply safe_bind; [auto|constructor]. }
  intros eob. apply safe_bind; [unfold Spec.read_all_levels; apply safe_bind; auto|]. intros Q. apply safe_bind; [auto|constructor].
Qed.

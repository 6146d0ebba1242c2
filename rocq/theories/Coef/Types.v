(** Transform types and the end of block. *)
From Coq Require Import ZArith List Bool Lia.
From Verif Require Import Base.CInt Base.Lemmas Itx.ScanTables Itx.Txfm2d Itx.Spec2d Itx.Proofs2d Itx.ScanProofs
  Coef.Prog Coef.Model Coef.Ctx.
From Verif Require Coef.Spec.
Import ListNotations.
Open Scope Z_scope.

(** The probability tables of the syntax elements. *)
Definition cdf_of (s : Spec.element) : cdf :=
  match s with
  | Spec.all_zero t c => C_skip t c
  | Spec.intra_tx_type set sz dir => if set =? 1 then C_txtp_intra1 sz dir else C_txtp_intra2 sz dir
  | Spec.inter_tx_type set sz => if set =? 1 then C_txtp_inter1 sz else if set =? 2 then C_txtp_inter2 else C_txtp_inter3 sz
  | Spec.eob_pt m p c => C_eob_bin m p (if m <? 5 then Some c else None)
  | Spec.eob_extra t p i => C_eob_hi_bit t p (i + 2)
  | Spec.coeff_base_eob t p c => C_eob_base_tok t p c
  | Spec.coeff_base t p c => C_base_tok t p c
  | Spec.coeff_br t p c => C_br_tok t p c
  | Spec.dc_sign p c => C_dc_sign p c
  | Spec.literal => C_equi
  end.

(** The number of a type in the code; the lossless transform has its own. *)
Definition type_num (I : Spec.info) (ty : nat) : Z := if Spec.i_lossless I then WHT_WHT else Z.of_nat ty.

Definition set_ok (inter : bool) (set k n : Z) : bool :=
  forallb (fun v => match rd_at tx_types_per_set (Z.of_nat v + k) with
                    | Ok t => t =? Z.of_nat (nth v (Spec.inv_set inter set) 0%nat) | Undef => false end) (seq 0 (Z.to_nat n)).
Lemma set_ok_spec : forall inter set k n v, set_ok inter set k n = true -> 0 <= v < n ->
  rd_at tx_types_per_set (v + k) = Ok (Z.of_nat (nth (Z.to_nat v) (Spec.inv_set inter set) 0%nat)).
Proof.
  intros inter set k n v H V. unfold set_ok in H. rewrite forallb_forall in H.
  specialize (H (Z.to_nat v) ltac:(apply in_seq; lia)). cbv beta in H. rewrite Z2Nat.id in H by lia.
  destruct (rd_at _ _); [|discriminate]. apply Z.eqb_eq in H. congruence.
Qed.

Section TYPES.
Variables (I : Spec.info) (e : env) (txtp : Z).
Hypothesis M : matches I e txtp.
Let tx := Spec.i_tx I.

Lemma in_inv_set : forall inter set v, In (nth v (Spec.inv_set inter set) 0%nat) (Spec.inv_set inter set) \/
  nth v (Spec.inv_set inter set) 0%nat = 0%nat.
Proof. intros. destruct (nth_in_or_default v (Spec.inv_set inter set) 0%nat); auto. Qed.

Lemma allowed_set : forall tx inter reduced ty, (tx < 19)%nat ->
  forall J, Spec.i_tx J = tx -> Spec.i_is_inter J = inter -> Spec.i_reduced J = reduced ->
  In ty (Spec.inv_set inter (Spec.get_tx_set J)) \/ ty = 0%nat -> (ty < 16)%nat /\ allowed tx ty = true.
Proof.
  intros tx0 inter reduced ty H J E1 E2 E3. unfold Spec.get_tx_set, Spec.Tx_Size_Sqr, Spec.Tx_Size_Sqr_Up.
  rewrite E1, E2, E3.
  assert (D0 : allowed tx0 0 = true) by (clear; do 19 (destruct tx0 as [|tx0]; [reflexivity|]); unfold allowed, log2w, log2h;
    destruct tx0 as [|[|[|tx0]]]; reflexivity).
  intros [K| -> ]; [|auto using Nat.lt_0_succ].
  assert (G : forall l, In ty l -> forallb (fun t => Nat.ltb t 16 && allowed tx0 t) l = true -> (ty < 16)%nat /\ allowed tx0 ty = true).
  { intros l L F. rewrite forallb_forall in F. specialize (F ty L). cbv beta in F. apply andb_prop in F. destruct F as [F1 F2].
    apply Nat.ltb_lt in F1. auto. }
  apply (G _ K). clear - H. do 19 (destruct tx0 as [|tx0]; [destruct inter, reduced; reflexivity|]). lia.
Qed.

Definition txtp_post (a : Z) (b : nat) : Prop := a = type_num I b /\ (b < 16)%nat /\ allowed tx b = true.

Theorem txtp_spec : sim cdf_of txtp_post (read_txtp e txtp) (Spec.PlaneTxType I).
Proof.
  pose proof (m_tx _ _ _ M) as TX. destruct (tx_facts _ TX) as (t_dim & _ & _ & _ & MN & MX & _ & RW & RH).
  unfold read_txtp. rewrite (m_etx _ _ _ M), MX, MN. cbn [lift bind].
  fold (Spec.Tx_Size_Sqr I) in *. fold (Spec.Tx_Size_Sqr_Up I) in *.
  rewrite (m_lossless _ _ _ M). unfold Spec.PlaneTxType.
  assert (D0 : forall b, b = 0%nat -> Spec.i_lossless I = false -> txtp_post 0 b).
  { intros b -> L. split; [unfold type_num; rewrite L; reflexivity|]. apply (allowed_set tx _ _ 0 TX I eq_refl eq_refl eq_refl). auto. }
  destruct (Spec.i_lossless I) eqn:LL.
  - rewrite (m_lossless_tx _ _ _ M LL) in *. unfold Spec.Tx_Size_Sqr_Up. rewrite (m_lossless_tx _ _ _ M LL). cbn.
    constructor. split; [unfold type_num; rewrite LL; reflexivity|]. unfold tx. rewrite (m_lossless_tx _ _ _ M LL). split; [lia|reflexivity].
  - rewrite (m_chroma _ _ _ M). unfold Spec.ptype. pose proof (m_plane_r _ _ _ M) as PR.
    assert (AL : forall v, (Z.to_nat v < 16)%nat -> txtp_post (Z.of_nat (nth (Z.to_nat v) (Spec.inv_set (Spec.i_is_inter I) (Spec.get_tx_set I)) 0%nat))
                             (nth (Z.to_nat v) (Spec.inv_set (Spec.i_is_inter I) (Spec.get_tx_set I)) 0%nat)).
    { intros v V. split; [unfold type_num; rewrite LL; reflexivity|].
      apply (allowed_set tx _ _ _ TX I eq_refl eq_refl eq_refl). apply in_inv_set. }
    assert (SQ : 0 <= Spec.Tx_Size_Sqr I <= Spec.Tx_Size_Sqr_Up I /\ Spec.Tx_Size_Sqr_Up I <= 4)
      by (unfold Spec.Tx_Size_Sqr, Spec.Tx_Size_Sqr_Up; lia).
    rewrite (m_intra _ _ _ M), (m_reduced _ _ _ M), (m_qidx _ _ _ M), (m_uvmode _ _ _ M). pose proof (m_qidx_r _ _ _ M) as QR.
    unfold TX_64X64, TX_32X32, TX_16X16.
    destruct (Z.leb_spec 4 (Spec.Tx_Size_Sqr_Up I + b2z (negb (Spec.i_is_inter I)))) as [L|L].
    { assert (SET : Spec.get_tx_set I = 0).
      { unfold Spec.get_tx_set, Spec.TX_32, Spec.TX_SET_DCTONLY. destruct (Z.ltb_spec 3 (Spec.Tx_Size_Sqr_Up I)); [reflexivity|].
        destruct (Spec.i_is_inter I); cbn [negb b2z] in L; [lia|]. rewrite (proj2 (Z.eqb_eq _ _)) by lia. reflexivity. }
      destruct (Z.eqb_spec (Spec.i_plane I) 0).
      - unfold Spec.transform_type. rewrite SET. cbn [Z.ltb Z.compare andb]. constructor. apply D0; auto.
      - constructor. apply D0; auto. unfold Spec.chroma_tx_type, Spec.is_tx_type_in_set. rewrite SET.
        destruct (_ <? _); [reflexivity|]. replace (Spec.inv_set (Spec.i_is_inter I) 0) with [0%nat] by (destruct (Spec.i_is_inter I); reflexivity).
        cbn [existsb]. rewrite orb_false_r.
        match goal with |- (if Nat.eqb ?x 0 then _ else _) = _ => destruct (Nat.eqb_spec x 0); auto end. }
    assert (UP : Spec.Tx_Size_Sqr_Up I <= 3) by (destruct (Spec.i_is_inter I); cbn in L; lia).
    destruct (Z.ltb_spec 0 (Spec.i_plane I)) as [P|P]; cbn [Z.eqb Pos.eqb].
    + (* chroma *)
      rewrite (proj2 (Z.eqb_neq (Spec.i_plane I) 0)) by lia.
      destruct (Spec.i_is_inter I) eqn:IN; cbn [negb] in *.
      * destruct (m_luma _ _ _ M IN P) as (-> & LT & RD). unfold get_uv_inter_txtp.
        rewrite (proj2 (Z.leb_le 0 _)), (proj2 (Z.ltb_lt (Z.of_nat (Spec.i_lumaType I)) 31)) by lia. cbn [andb lift].
        constructor. unfold Spec.chroma_tx_type. unfold Spec.TX_32. rewrite (proj2 (Z.ltb_ge _ _)) by lia. rewrite IN.
        unfold Spec.is_tx_type_in_set, Spec.get_tx_set, Spec.TX_32, Spec.TX_16. rewrite (proj2 (Z.ltb_ge 3 _)) by lia. rewrite IN.
        set (ty := Spec.i_lumaType I) in *.
        assert (CK : forall a b, a = Z.of_nat b -> In b (Spec.inv_set true (Spec.get_tx_set I)) \/ b = 0%nat -> txtp_post a b).
        { intros a b -> K. split; [unfold type_num; rewrite LL; reflexivity|]. apply (allowed_set tx true _ b TX I eq_refl IN eq_refl K). }
        apply CK.
        -- unfold TX_32X32, TX_16X16. clearbody ty. clear - LT RD SQ UP. destruct (Spec.i_reduced I); cbn [orb].
           { destruct (RD eq_refl) as [ -> | -> ]; destruct (Spec.Tx_Size_Sqr_Up I =? 3), (Spec.Tx_Size_Sqr I =? 2); reflexivity. }
           destruct (Spec.Tx_Size_Sqr_Up I =? 3); [|destruct (Spec.Tx_Size_Sqr I =? 2)]; cbn [andb];
             do 16 (destruct ty as [|ty]; [reflexivity|]); lia.
        -- destruct (existsb _ _) eqn:EX; [|auto]. left. apply existsb_exists in EX. destruct EX as (b & B1 & B2).
           apply Nat.eqb_eq in B2. subst b.
           unfold Spec.get_tx_set, Spec.TX_32, Spec.TX_16. rewrite (proj2 (Z.ltb_ge 3 _)) by lia. rewrite IN. exact B1.
      * (* intra *)
        pose proof (m_uvmode_r _ _ _ M) as UV.
        assert (R : rd_at txtp_from_uvmode (Spec.i_uvMode I) = Ok (Z.of_nat (nth (Z.to_nat (Spec.i_uvMode I)) Spec.Mode_To_Txfm 0%nat)) /\
                    (nth (Z.to_nat (Spec.i_uvMode I)) Spec.Mode_To_Txfm 0%nat < 4)%nat).
        { clear - UV. replace (Spec.i_uvMode I) with (Z.of_nat (Z.to_nat (Spec.i_uvMode I))) at 1 by lia.
          assert (Z.to_nat (Spec.i_uvMode I) < 14)%nat by lia. generalize dependent (Z.to_nat (Spec.i_uvMode I)). clear UV. intros n N.
          do 14 (destruct n as [|n]; [split; [reflexivity|cbn; lia]|]). lia. }
        destruct R as [R1 R2]. rewrite R1. cbn [lift]. constructor.
        unfold Spec.chroma_tx_type, Spec.TX_32. rewrite (proj2 (Z.ltb_ge _ _)) by lia. rewrite IN.
        set (ty := nth _ _ _) in *.
        assert (U3 : Spec.Tx_Size_Sqr_Up I < 3) by (cbn in L; lia).
        assert (EX : Spec.is_tx_type_in_set I ty = true).
        { unfold Spec.is_tx_type_in_set, Spec.get_tx_set, Spec.TX_32, Spec.TX_16. rewrite (proj2 (Z.ltb_ge 3 _)) by lia. rewrite IN.
          rewrite (proj2 (Z.eqb_neq (Spec.Tx_Size_Sqr_Up I) 3)) by lia. clearbody ty. clear - R2.
          destruct (Spec.i_reduced I); [|destruct (_ =? _)]; do 4 (destruct ty as [|ty]; [reflexivity|]); lia. }
        rewrite EX. split; [unfold type_num; rewrite LL; reflexivity|].
        apply (allowed_set tx false _ ty TX I eq_refl IN eq_refl). left.
        unfold Spec.is_tx_type_in_set in EX. rewrite IN in EX. apply existsb_exists in EX. destruct EX as (b & B1 & B2).
        apply Nat.eqb_eq in B2. subst b. exact B1.
    + (* luma *)
      rewrite (proj2 (Z.eqb_eq (Spec.i_plane I) 0)) by lia. unfold Spec.transform_type.
      destruct (Z.eqb_spec (Spec.i_qidx I) 0) as [Q|Q].
      { rewrite Q. cbn [Z.ltb Z.compare]. rewrite andb_false_r. constructor. apply D0; auto. }
      rewrite (proj2 (Z.ltb_lt 0 (Spec.i_qidx I))) by lia. rewrite andb_true_r.
      assert (SET : Spec.get_tx_set I =
        if Spec.i_is_inter I then if Spec.i_reduced I || (Spec.Tx_Size_Sqr_Up I =? 3) then 3 else if Spec.Tx_Size_Sqr I =? 2 then 2 else 1
        else if Spec.i_reduced I then 2 else if Spec.Tx_Size_Sqr I =? 2 then 2 else 1).
      { unfold Spec.get_tx_set, Spec.TX_32, Spec.TX_16. rewrite (proj2 (Z.ltb_ge 3 _)) by lia.
        destruct (Spec.i_is_inter I) eqn:IN; [reflexivity|]. cbn in L. rewrite (proj2 (Z.eqb_neq (Spec.Tx_Size_Sqr_Up I) 3)) by lia. reflexivity. }
      destruct (Spec.i_is_inter I) eqn:IN; cbn [negb] in *.
      * destruct (Spec.i_reduced I || (Spec.Tx_Size_Sqr_Up I =? 3)) eqn:RD; [|destruct (Z.eqb_spec (Spec.Tx_Size_Sqr I) 2) as [MI|MI]]; rewrite SET in *.
        -- rewrite (proj2 (Z.ltb_lt (Spec.Tx_Size_Sqr I) 4)) by lia. cbn [Z.ltb Z.compare bind read]. constructor; [reflexivity|].
           intros v V. cbn [bind]. constructor. change (Z.of_nat (length (Spec.inv_set true 3)) - 1) with 1 in V.
           assert (E : v = 0 \/ v = 1) by lia. specialize (AL v ltac:(lia)). destruct E as [ -> | -> ]; exact AL.
        -- cbn [Z.ltb Z.compare bind read]. constructor; [reflexivity|]. intros v V. cbn [bind].
           change (Z.of_nat (length (Spec.inv_set true 2)) - 1) with 11 in V.
           rewrite (set_ok_spec true 2 12 12) by (auto; lia). cbn [lift]. constructor. apply AL. lia.
        -- apply orb_false_elim in RD. destruct RD as [_ RD]. apply Z.eqb_neq in RD.
           rewrite (proj2 (Z.ltb_lt (Spec.Tx_Size_Sqr I) 2)) by lia.
           cbn [Z.ltb Z.compare bind read]. constructor; [reflexivity|]. intros v V. cbn [bind].
           change (Z.of_nat (length (Spec.inv_set true 1)) - 1) with 15 in V.
           rewrite (set_ok_spec true 1 24 16) by (auto; lia). cbn [lift]. constructor. apply AL. lia.
      * assert (DIR : (if e_y_mode e =? FILTER_PRED then rd_at filter_mode_to_y_mode (e_y_angle e) else Ok (e_y_mode e)) = Ok (Spec.intraDir I)).
        { unfold Spec.intraDir. pose proof (m_ymode _ _ _ M) as Y. destruct (Spec.i_filter_intra I) as [m|].
          - destruct Y as (Y1 & Y2 & Y3). rewrite Y1, Y2, Z.eqb_refl. clear - Y3.
            assert (E : m = 0 \/ m = 1 \/ m = 2 \/ m = 3 \/ m = 4) by lia. destruct E as [ -> |[ -> |[ -> |[ -> | -> ]]]]; reflexivity.
          - destruct Y as (Y1 & Y2). rewrite Y1. rewrite (proj2 (Z.eqb_neq _ _)) by auto. reflexivity. }
        rewrite DIR. cbn [lift bind]. cbn in L.
        destruct (Spec.i_reduced I || (Spec.Tx_Size_Sqr I =? 2)) eqn:RD.
        -- assert (S2 : Spec.get_tx_set I = 2) by (rewrite SET; destruct (Spec.i_reduced I); [reflexivity|]; cbn in RD; rewrite RD; reflexivity).
           rewrite S2 in *. rewrite (proj2 (Z.ltb_lt (Spec.Tx_Size_Sqr I) 3)) by lia.
           cbn [Z.ltb Z.compare bind read]. constructor; [reflexivity|]. intros v V. cbn [bind].
           change (Z.of_nat (length (Spec.inv_set false 2)) - 1) with 4 in V.
           rewrite (set_ok_spec false 2 0 5) by (auto; lia). cbn [lift]. constructor. apply AL. lia.
        -- apply orb_false_elim in RD. destruct RD as [R1 R2]. rewrite R1, R2 in SET. apply Z.eqb_neq in R2. rewrite SET in *.
           rewrite (proj2 (Z.ltb_lt (Spec.Tx_Size_Sqr I) 2)) by lia.
           cbn [Z.ltb Z.compare bind read]. constructor; [reflexivity|]. intros v V. cbn [bind].
           change (Z.of_nat (length (Spec.inv_set false 1)) - 1) with 6 in V.
           rewrite (set_ok_spec false 1 5 7) by (auto; lia). cbn [lift]. constructor. apply AL. lia.
Qed.

(** *** The end of block *)
Lemma multisize : forall tx, (tx < 19)%nat -> exists t_dim, rd_at txfm_dimensions (Z.of_nat tx) = Ok t_dim /\
  Z.min (ti_lw t_dim) TX_32X32 + Z.min (ti_lh t_dim) TX_32X32 = Z.of_nat (Nat.min (log2w tx) 5) + Z.of_nat (Nat.min (log2h tx) 5) - 4 /\
  Z.of_nat (scan_w tx * scan_h tx) = 2 ^ (Z.of_nat (Nat.min (log2w tx) 5) + Z.of_nat (Nat.min (log2h tx) 5)) /\
  4 <= Z.of_nat (Nat.min (log2w tx) 5) + Z.of_nat (Nat.min (log2h tx) 5) <= 10.
Proof.
  intros tx0 H. do 19 (destruct tx0 as [|tx0]; [eexists; split; [reflexivity|]; split; [reflexivity|]; split; [vm_compute; reflexivity|cbn; lia]|]). lia.
Qed.
Lemma bits_sim : forall n v w k, 0 <= v -> v * 2 ^ Z.of_nat n + 2 ^ Z.of_nat n <= 2 ^ 31 -> w = k + v * 2 ^ Z.of_nat n ->
  sim cdf_of (fun a b => b = k + a /\ v * 2 ^ Z.of_nat n <= a < v * 2 ^ Z.of_nat n + 2 ^ Z.of_nat n) (decode_bools n v) (Spec.eob_bits n w).
Proof.
  induction n as [|n IH]; intros v w k V B ->; cbn [decode_bools Spec.eob_bits].
  - constructor. change (2 ^ Z.of_nat 0) with 1. lia.
  - cbn [bind read]. constructor; [reflexivity|]. intros b Bb. cbn [bind].
    rewrite Nat2Z.inj_succ, Z.pow_succ_r in * by lia. pose proof (pow2_pos (Z.of_nat n) ltac:(lia)) as PP.
    assert (SH : u32 (Z.shiftl v 1) = v * 2 ^ 1) by (rewrite shiftl_mul, u32_id by nia; lia).
    rewrite SH. rewrite lor_shift_add by lia. change (2 ^ 1) with 2.
    eapply sim_weaken; [apply (IH (v * 2 + b) _ k); [lia|nia|]|].
    + assert (E : b = 0 \/ b = 1) by lia. destruct E as [ -> | -> ]; cbn [Z.eqb Pos.eqb]; nia.
    + cbv beta. intros a c [-> C]. split; [reflexivity|]. nia.
Qed.
Definition eob_post (a : Z) (b : nat) : Prop := a = Z.of_nat b - 1 /\ (1 <= b <= scan_w tx * scan_h tx)%nat.
Theorem eob_spec : forall t_dim cls, rd_at txfm_dimensions (e_tx e) = Ok t_dim ->
  sim cdf_of eob_post
    (read_eob e (Z.min (ti_lw t_dim) TX_32X32 + Z.min (ti_lh t_dim) TX_32X32) (Spec.txSzCtx I)
       (match cls with Spec.TX_CLASS_2D => 0 | _ => 1 end))
    (Spec.read_eob I cls).
Proof.
  intros t_dim cls T. destruct (multisize _ (m_tx _ _ _ M)) as (t' & T' & E1 & E2 & E3).
  rewrite (m_etx _ _ _ M), T' in T. injection T as ->. rewrite E1. fold (Spec.eobMultisize I). fold tx in E2, E3.
  set (ms := Spec.eobMultisize I) in *.
  assert (MS : 0 <= ms <= 6) by (unfold ms, Spec.eobMultisize; fold tx; lia).
  assert (EN : Z.of_nat (scan_w tx * scan_h tx) = 2 ^ (4 + ms)) by (rewrite E2; f_equal; unfold ms, Spec.eobMultisize; fold tx; lia).
  unfold read_eob, Spec.read_eob. fold ms.
  rewrite (proj2 (Z.leb_le 0 ms)), (proj2 (Z.leb_le ms 6)) by lia. cbn [andb bind read].
  constructor.
  { cbn [cdf_of]. rewrite (m_chroma _ _ _ M). destruct (ms <? 5); reflexivity. }
  intros v V. cbn [bind].
  assert (PM : 2 ^ v <= 2 ^ (4 + ms)) by (apply Z.pow_le_mono_r; lia).
  destruct (Z.ltb_spec 1 v) as [L|L].
  - rewrite (proj2 (Z.ltb_lt v 11)) by lia. rewrite (proj2 (Z.leb_le 3 (v + 1))) by lia.
    rewrite (proj2 (Z.ltb_ge (v + 1) 2)) by lia.
    cbn [bind read]. constructor.
    { cbn [cdf_of]. rewrite (m_chroma _ _ _ M). f_equal. lia. }
    intros x X. cbn [bind].
    replace (v + 1 - 3) with (v - 2) by lia. replace (v + 1 - 2) with (v - 2 + 1) by lia. rewrite Z.pow_add_r by lia.
    assert (PV : 2 ^ v = 2 ^ (v - 2) * 4) by (replace v with (v - 2 + 2) at 1 by lia; rewrite Z.pow_add_r by lia; reflexivity).
    pose proof (pow2_pos (v - 2) ltac:(lia)) as PP.
    assert (PU : 2 ^ (v - 2) <= 2 ^ 8) by (apply Z.pow_le_mono_r; lia).
    eapply sim_bind.
    { apply (bits_sim (Z.to_nat (v - 2)) 0 _ ((2 + x) * 2 ^ (v - 2) + 1)); [lia| |].
      - rewrite Z2Nat.id by lia. lia.
      - change (2 ^ 1) with 2. assert (E : x = 0 \/ x = 1) by lia. destruct E as [ -> | -> ]; cbn [Z.eqb Pos.eqb]; lia. }
    cbv beta. rewrite Z2Nat.id by lia. intros a b [-> A]. constructor.
    assert (LX : Z.lor x 2 = 2 + x) by (assert (E : x = 0 \/ x = 1) by lia; destruct E as [ -> | -> ]; reflexivity).
    rewrite LX, shiftl_mul, lor_shift_add by lia.
    unfold eob_post. set (N := (scan_w tx * scan_h tx)%nat) in *.
    assert (XX : 0 <= (2 + x) * 2 ^ (v - 2) <= 3 * 2 ^ (v - 2)) by nia. lia.
  - rewrite (proj2 (Z.leb_gt 3 (v + 1))) by lia. constructor. unfold eob_post.
    assert (P4 : 2 ^ 4 <= 2 ^ (4 + ms)) by (apply Z.pow_le_mono_r; lia). change (2 ^ 4) with 16 in P4.
    assert (E : v = 0 \/ v = 1) by lia. set (N := (scan_w tx * scan_h tx)%nat) in *.
    destruct E as [ -> | -> ]; (split; [reflexivity|]); [change (if 0 + 1 <? 2 then 0 + 1 else 2 ^ (0 + 1 - 2) + 1) with 1|
      change (if 1 + 1 <? 2 then 1 + 1 else 2 ^ (1 + 1 - 2) + 1) with 2]; lia.
Qed.
End TYPES.

(** The shortcut for blocks with only a DC coefficient, the dispatch table, the
    lossless transform and conforming streams. *)
From Coq Require Import ZArith List Bool Lia.
From Verif.Base Require Import CInt Lemmas.
From Verif.Itx Require Import Lang Txfm1d Interval ScanTables Txfm2d Spec1d Spec2d Equiv Proofs1d Proofs2d ScanProofs Main2d.
Import ListNotations.
Open Scope Z_scope.
Open Scope outcome_scope.

(** *** DC only *)
Lemma dc_first : forall tx, (tx < 19)%nat -> nth 0 (get_scan tx 0) 0%nat = 0%nat.
Proof. intros tx H. do 19 (destruct tx as [|tx]; [vm_compute; reflexivity|]). lia. Qed.

Definition out_dc (v : Z) : Z := Z.shiftr (v * 181 + 128 + 2048) 12.
Lemma out_dc_eq : forall v, round2 (round2 (v * 2896) 12) 4 = out_dc v.
Proof.
  intros v. unfold round2, out_dc. cbn [Z.eqb]. change (2 ^ (12 - 1)) with 2048. change (2 ^ (4 - 1)) with 8.
  rewrite !shiftr_div by lia. change (2 ^ 12) with (16 * 256) at 1. change (2 ^ 4) with 16. change (2 ^ 12) with (256 * 16).
  replace (v * 2896 + 2048) with ((v * 181 + 128) * 16) by lia. rewrite (Z.mul_comm 16 256), Z.div_mul_cancel_r by lia.
  replace (v * 181 + 128 + 2048) with (v * 181 + 128 + 8 * 256) by lia.
  rewrite <- Z.div_div by lia. rewrite Z.div_add by lia. reflexivity.
Qed.
Lemma out_dc_mono : forall a b, a <= b -> out_dc a <= out_dc b.
Proof. intros. unfold out_dc. rewrite !shiftr_div by lia. apply Z.div_le_mono; lia. Qed.

(** Clamping before the columns cannot be seen in the pixels. *)
Lemma clamp_invisible : forall bd v px, bd_ok bd -> 0 <= px <= 2 ^ bd - 1 ->
  Clip1 bd (px + out_dc (clamp (col_bits bd) v)) = Clip1 bd (px + out_dc v).
Proof.
  intros bd v px B P.
  assert (K1 : out_dc (2 ^ (col_bits bd - 1) - 1) >= 2 ^ bd - 1) by (destruct B as [ -> |[ -> | -> ]]; vm_compute; discriminate).
  assert (K2 : out_dc (- 2 ^ (col_bits bd - 1)) <= - (2 ^ bd - 1)) by (destruct B as [ -> |[ -> | -> ]]; vm_compute; discriminate).
  unfold clamp. destruct (v <? - 2 ^ (col_bits bd - 1)) eqn:E1.
  - apply Z.ltb_lt in E1. pose proof (out_dc_mono v (- 2 ^ (col_bits bd - 1)) ltac:(lia)).
    unfold Clip1. assert (N : forall x, x <= 0 -> (if x <? 0 then 0 else if 2 ^ bd - 1 <? x then 2 ^ bd - 1 else x) = 0).
    { intros x X. destruct (x <? 0) eqn:E; auto. apply Z.ltb_ge in E. rewrite (proj2 (Z.ltb_ge _ _)) by lia. lia. }
    rewrite !N by lia. reflexivity.
  - destruct (2 ^ (col_bits bd - 1) - 1 <? v) eqn:E2; auto. apply Z.ltb_lt in E2.
    pose proof (out_dc_mono (2 ^ (col_bits bd - 1) - 1) v ltac:(lia)).
    assert (N : forall x, 2 ^ bd - 1 <= x -> Clip1 bd x = 2 ^ bd - 1).
    { intros x X. unfold Clip1. rewrite (proj2 (Z.ltb_ge _ _)) by lia. destruct (_ <? x) eqn:E; auto. apply Z.ltb_ge in E. lia. }
    rewrite !N by lia. reflexivity.
Qed.

Section DcBlock.
Variables (bd : Z) (tx : nat) (coef : nat -> nat -> Z) (dst : list (list Z)).
Hypothesis BO : block_ok bd tx 0 0 coef dst.
Variables (t_dim : txinfo) (first second : tx1d) (fn1 fn2 : list block) (st : txset).
Hypothesis SU : setup tx 0 t_dim first second fn1 fn2 st.
Let satr := clamp (row_bits bd).
Let satc := clamp (col_bits bd).

Lemma dc_zero : forall i j, (i < scan_h tx)%nat -> (j < scan_w tx)%nat -> (i <> 0 \/ j <> 0)%nat -> coef i j = 0.
Proof.
  intros i j I J N. destruct (Z.eq_dec (coef i j) 0) as [|NZ]; auto. exfalso.
  destruct (bo_zero _ _ _ _ _ _ BO i j I J NZ) as (c & C & E). replace c with 0%nat in E by lia.
  rewrite dc_first in E by (exact (bo_tx _ _ _ _ _ _ BO)). nia.
Qed.

Definition dc1 : Z := scaled tx (coef 0%nat 0%nat).
Definition dc2 : Z := round2 (dc1 * 2896) 12.
Definition dc3 : Z := round2 dc2 (row_shift tx).

Lemma pos_w : (4 <= scan_w tx)%nat /\ (4 <= scan_h tx)%nat.
Proof. destruct (scan_wh tx (bo_tx _ _ _ _ _ _ BO)). lia. Qed.
Lemma dc1_range : range (row_bits bd - 1) dc1.
Proof. apply (scaled_range bd tx 0 0 coef dst BO); pose proof pos_w; lia. Qed.
Lemma sat_of_range : forall r v, range (r - 1) v -> clamp r v = v.
Proof. exact clamp_id. Qed.

Lemma kinds0 : row_kind 0 = Dct /\ col_kind 0 = Dct. Proof. auto. Qed.

Lemma trow0 : Trow bd tx 0 coef 0 = repeat dc2 (width tx).
Proof.
  unfold Trow. destruct kinds0 as [K _]. rewrite K. cbn [kind_steps].
  rewrite (row_input_low bd tx 0 0 coef dst BO) by (pose proof pos_w; lia).
  assert (E : map (fun j => scaled tx (coef 0%nat j)) (seq 0 (scan_w tx)) ++ repeat 0 (width tx - scan_w tx) =
              dc1 :: repeat 0 (width tx - 1)).
  { pose proof pos_w. assert (M : scan_w tx = Nat.min 32 (width tx)) by reflexivity.
    destruct (scan_w tx) as [|n] eqn:E; [lia|]. cbn [seq map app]. f_equal.
    rewrite (map_seq_const _ n 1), repeat_app_z; [f_equal; lia|].
    intros i I. rewrite dc_zero by lia. unfold scaled. destruct (is_rect tx); reflexivity. }
  rewrite E. pose proof (su_lw _ _ _ _ _ _ _ _ SU) as L. rewrite <- L.
  pose proof (pts_w tx 0 t_dim first second fn1 fn2 st SU) as PW. rewrite <- PW.
  apply dct_dc.
  - apply sat0. apply (rb1 bd tx 0 0 coef dst BO).
  - apply clamp_id. apply scale_range; [|exact dc1_range]. apply (R_bound (row_bits bd - 1)).
    apply (rb_ok bd tx 0 0 coef dst BO).
  - exact (su_llw _ _ _ _ _ _ _ _ SU).
Qed.

Lemma tcol0 : forall j, (j < width tx)%nat -> Tcol bd tx 0 coef j = repeat (round2 (satc dc3 * 2896) 12) (height tx).
Proof.
  intros j J. unfold Tcol. destruct kinds0 as [_ K]. rewrite K. cbn [kind_steps].
  assert (E : col_input (clamp (row_bits bd)) bd tx 0 coef j = satc dc3 :: repeat 0 (height tx - 1)).
  { unfold col_input. pose proof (su_hr _ _ _ _ _ _ _ _ SU).
    destruct (height tx) as [|n] eqn:E; [lia|]. cbn [seq map]. f_equal.
    - rewrite (rowo_eq bd tx 0 coef 0). rewrite trow0.
      assert (G : forall f : Z -> Z, nth j (map f (repeat dc2 (width tx))) 0 = f dc2).
      { intros f. rewrite (nth_indep _ 0 (f dc2)) by (rewrite map_length, repeat_length; auto).
        rewrite map_nth. f_equal. clear. generalize (width tx). intros k. revert j. induction k; intros [|j]; cbn; auto. }
      rewrite G. reflexivity.
    - cbn [Nat.sub]. rewrite Nat.sub_0_r. apply map_seq_const. intros i I.
      rewrite (rowo_eq bd tx 0 coef i).
      rewrite (Trow_zero bd tx 0 0 coef dst BO t_dim first second fn1 fn2 st SU).
      + assert (Z0 : satc (round2 0 (row_shift tx)) = 0).
        { rewrite round2_0 by (pose proof (su_shift _ _ _ _ _ _ _ _ SU); lia). apply sat0. apply (cb1 bd tx 0 0 coef dst BO). }
        assert (G : forall f : Z -> Z, f 0 = 0 -> forall k j, nth j (map f (repeat 0 k)) 0 = 0).
        { intros f F k. induction k; intros [|m]; cbn; auto. }
        apply G. exact Z0.
      + destruct (Nat.lt_ge_cases i 32); [|auto]. right. intros j' J'. apply dc_zero; auto; [|lia].
        unfold scan_h. fold (height tx). rewrite E. lia. }
  rewrite E. pose proof (su_lh _ _ _ _ _ _ _ _ SU) as L. rewrite <- L.
  pose proof (pts_h tx 0 t_dim first second fn1 fn2 st SU) as PH. rewrite <- PH.
  apply (dct_dc (clamp (col_bits bd)) (satc dc3)).
  - apply sat0. apply (cb1 bd tx 0 0 coef dst BO).
  - apply clamp_id. apply scale_range.
    + apply (R_bound (col_bits bd - 1)). apply (rb_ok bd tx 0 0 coef dst BO).
    + apply clamp_range. apply (cb1 bd tx 0 0 coef dst BO).
  - exact (su_llh _ _ _ _ _ _ _ _ SU).
Qed.

Lemma layout_zero : forall rest v, exists l, layout tx coef ++ rest = coef 0%nat 0%nat :: l /\
  v :: l = v :: repeat 0 (scan_w tx * scan_h tx - 1) ++ rest.
Proof.
  intros rest v.
  assert (E : layout tx coef = coef 0%nat 0%nat :: repeat 0 (scan_w tx * scan_h tx - 1)).
  { apply nth_ext with (d := 0) (d' := 0).
    - rewrite layout_length. cbn [length]. rewrite repeat_length. pose proof pos_w. nia.
    - intros n N. rewrite layout_length in N.
      destruct (split_pos (scan_h tx) (scan_w tx) n ltac:(lia)) as (j & i & J & I & ->).
      rewrite (Nat.add_comm (j * scan_h tx) i), layout_nth by auto.
      destruct (i + j * scan_h tx)%nat as [|m] eqn:M.
      + assert (i = 0 /\ j = 0)%nat as [-> ->] by (pose proof pos_w; nia). reflexivity.
      + cbn [nth]. rewrite nth_repeat0. apply dc_zero; auto. lia. }
  rewrite E. eexists. split; reflexivity.
Qed.

Theorem dc_only_spec : forall rest,
  dc_only (is8 bd) (bdmax bd) dst (layout tx coef ++ rest) (is_rect tx) (row_shift tx) =
  Ok (reconstruct satr satc bd tx 0 coef dst, repeat 0 (scan_w tx * scan_h tx) ++ rest).
Proof.
  intros rest. pose proof (bdr bd tx 0 0 coef dst BO) as B.
  destruct (layout_zero rest 0) as (l & L1 & L2).
  unfold dc_only. rewrite L1. cbv zeta.
  change (rd_at (coef 0%nat 0%nat :: l) 0) with (Ok (coef 0%nat 0%nat)). cbn [obind].
  assert (W0 : wr_at (coef 0%nat 0%nat :: l) 0 0 = Ok (0 :: l)).
  { unfold wr_at. rewrite (proj2 (Z.ltb_lt _ _)) by (cbn [length]; lia). reflexivity. }
  rewrite W0. cbn [obind].
  pose proof (R_small _ _ (proj1 (rb_ok bd tx 0 0 coef dst BO)) (coef_range bd tx 0 0 coef dst BO 0 0 ltac:(pose proof pos_w; lia) ltac:(pose proof pos_w; lia))) as RC.
  assert (S1 : (if is_rect tx then mul181 (coef 0%nat 0%nat) else Ok (coef 0%nat 0%nat)) = Ok dc1).
  { unfold dc1, scaled. destruct (is_rect tx); auto. apply mul181_ok. lia. }
  rewrite S1. cbn [obind].
  pose proof (R_small _ _ (proj1 (rb_ok bd tx 0 0 coef dst BO)) dc1_range) as R1.
  rewrite mul181_ok by lia. cbn [obind]. fold dc2.
  assert (R2 : - 524288 <= dc2 <= 524287).
  { apply (R_small (row_bits bd - 1)); [apply (rb_ok bd tx 0 0 coef dst BO)|]. apply scale_range; [|exact dc1_range].
    apply R_bound, (rb_ok bd tx 0 0 coef dst BO). }
  pose proof (su_shift _ _ _ _ _ _ _ _ SU) as SHF.
  assert (RB : 0 <= Z.shiftr (Z.shiftl 1 (row_shift tx)) 1 <= 2).
  { assert (SC : row_shift tx = 0 \/ row_shift tx = 1 \/ row_shift tx = 2) by lia.
    destruct SC as [ -> |[ -> | -> ]]; vm_compute; split; intros Q; discriminate Q. }
  rewrite ck_ok by (unfold INT_MIN, INT_MAX; lia). cbn [obind]. rewrite round2_ok by lia. fold dc3.
  assert (R3 : - 1000000 <= dc3 <= 1000000).
  { unfold dc3. rewrite <- round2_ok by lia. rewrite shiftr_div by lia.
    assert (SC : row_shift tx = 0 \/ row_shift tx = 1 \/ row_shift tx = 2) by lia.
    destruct SC as [E|[E|E]]; rewrite E in *; cbn [Z.pow Z.pow_pos Pos.iter Z.mul Pos.mul];
      (split; [apply Z.div_le_lower_bound; lia|apply Z.div_le_upper_bound; lia]). }
  rewrite ck_ok by (unfold INT_MIN, INT_MAX; lia). cbn [obind].
  rewrite ck_ok by (unfold INT_MIN, INT_MAX; lia). cbn [obind].
  rewrite ck_ok by (unfold INT_MIN, INT_MAX; lia). cbn [obind]. fold (out_dc dc3).
  assert (R4 : - 1000000 <= out_dc dc3 <= 1000000).
  { unfold out_dc. rewrite shiftr_div by lia. change (2 ^ 12) with 4096.
    split; [apply Z.div_le_lower_bound; lia|apply Z.div_le_upper_bound; lia]. }
  pose proof (bo_px _ _ _ _ _ _ BO) as PX. rewrite Forall_forall in PX.
  pose proof (bo_w _ _ _ _ _ _ BO) as DW. rewrite Forall_forall in DW.
  pose proof (bo_h _ _ _ _ _ _ BO) as DH.
  rewrite (omap_ok _ _ _ (map (fun px => Clip1 bd (px + out_dc dc3)))).
  2:{ intros row R. apply omap_ok. intros px P. specialize (PX row R). rewrite Forall_forall in PX. specialize (PX px P).
      rewrite ck_ok. - cbn [obind]. f_equal. apply iclip_pixel_ok. exact B.
      - unfold INT_MIN, INT_MAX. destruct B as [EB|[EB|EB]]; rewrite EB in PX; cbn in PX; lia. }
  cbn [obind]. f_equal. f_equal.
  2:{ rewrite L2. pose proof pos_w. replace (scan_w tx * scan_h tx)%nat with (S (scan_w tx * scan_h tx - 1)) at 2 by nia. reflexivity. }
  unfold reconstruct. rewrite <- DH.
  assert (EXT : map (fun y => map (fun x =>
      Clip1 bd (nth x (nth y dst []) 0 + residual satr satc bd tx 0 coef
        (if is_flip (col_kind 0) then (length dst - 1 - y)%nat else y)
        (if is_flip (row_kind 0) then (width tx - 1 - x)%nat else x))) (seq 0 (width tx))) (seq 0 (length dst)) =
     map (fun y => (fun row => map (fun px => Clip1 bd (px + out_dc dc3)) row) (nth y dst [])) (seq 0 (length dst))).
  { apply map_ext_in. intros y Y. apply in_seq in Y.
    assert (IN : In (nth y dst []) dst) by (apply nth_In; lia).
    pose proof (DW _ IN) as LW. cbv beta in LW. pose proof (PX _ IN) as PW. rewrite Forall_forall in PW.
    transitivity (map (fun x => (fun px => Clip1 bd (px + out_dc dc3)) (nth x (nth y dst []) 0)) (seq 0 (width tx))).
    - apply map_ext_in. intros x X. apply in_seq in X. cbn [is_flip row_kind col_kind kinds nth fst snd].
      assert (RES : residual satr satc bd tx 0 coef y x = out_dc (satc dc3)).
      { unfold residual, col_output. fold (Tcol bd tx 0 coef x). unfold satr, satc.
        change (do_steps (clamp (col_bits bd)) (kind_steps (col_kind 0) (log2h tx)) (col_input (clamp (row_bits bd)) bd tx 0 coef x))
          with (Tcol bd tx 0 coef x).
        rewrite tcol0 by lia. rewrite <- out_dc_eq.
        assert (G : forall (f : Z -> Z) v k m, (m < k)%nat -> nth m (map f (repeat v k)) 0 = f v).
        { intros f v k. induction k; intros [|m] M; cbn; auto; try lia. apply IHk. lia. }
        rewrite G by lia. reflexivity. }
      rewrite RES. unfold satc. apply clamp_invisible; auto. apply PW. apply nth_In. lia.
    - rewrite <- LW. rewrite <- (map_map (fun x => nth x (nth y dst []) 0) (fun px => Clip1 bd (px + out_dc dc3))). rewrite map_nth_seq. reflexivity. }
  rewrite EXT. rewrite <- (map_map (fun y => nth y dst []) (fun row => map (fun px => Clip1 bd (px + out_dc dc3)) row)).
  rewrite map_nth_seq. reflexivity.
Qed.
End DcBlock.

(** *** c->itxfm_add *)
Theorem itxfm_add_spec : forall bd tx ty eob coef dst rest, block_ok bd tx ty eob coef dst ->
  itxfm_add (is8 bd) (bdmax bd) (Z.of_nat tx) (Z.of_nat ty) dst (layout tx coef ++ rest) (Z.of_nat eob) =
  Ok (reconstruct (clamp (row_bits bd)) (clamp (col_bits bd)) bd tx ty coef dst,
      repeat 0 (scan_w tx * scan_h tx) ++ rest).
Proof.
  intros bd tx ty eob coef dst rest BO.
  destruct (setup_ex tx ty (bo_tx _ _ _ _ _ _ BO) (bo_ty _ _ _ _ _ _ BO) (bo_allowed _ _ _ _ _ _ BO))
    as (t_dim & first & second & fn1 & fn2 & st & SU).
  unfold itxfm_add. rewrite (su_wht _ _ _ _ _ _ _ _ SU), (su_fns _ _ _ _ _ _ _ _ SU). cbn [obind fst snd].
  rewrite (su_set _ _ _ _ _ _ _ _ SU). unfold inv_txfm_add. rewrite (su_dim _ _ _ _ _ _ _ _ SU). cbn [obind]. cbv zeta.
  rewrite (su_rect _ _ _ _ _ _ _ _ SU), (su_dct _ _ _ _ _ _ _ _ SU).
  rewrite (su_w _ _ _ _ _ _ _ _ SU), (su_h _ _ _ _ _ _ _ _ SU).
  pose proof (su_wr _ _ _ _ _ _ _ _ SU). pose proof (su_hr _ _ _ _ _ _ _ _ SU).
  rewrite !(proj2 (Z.leb_le _ _)) by lia. cbn [andb].
  destruct (Nat.eqb ty 0) eqn:E.
  - apply Nat.eqb_eq in E. subst ty. cbn [b2z]. destruct (Z.of_nat eob <? 1) eqn:E2.
    + apply Z.ltb_lt in E2. assert (eob = 0%nat) by lia. subst eob. eapply dc_only_spec; eauto.
    + eapply general_spec; eauto.
  - cbn [b2z]. rewrite (proj2 (Z.ltb_ge _ _)) by lia. eapply general_spec; eauto.
Qed.

(** The shortcut and the general path agree. *)
Theorem dc_only_general : forall bd tx coef dst rest, block_ok bd tx 0 0 coef dst ->
  dc_only (is8 bd) (bdmax bd) dst (layout tx coef ++ rest) (is_rect tx) (row_shift tx) =
  general (is8 bd) (bdmax bd) dst (layout tx coef ++ rest) 0 (Z.of_nat tx) (row_shift tx) DCT_DCT.
Proof.
  intros bd tx coef dst rest BO.
  destruct (setup_ex tx 0 (bo_tx _ _ _ _ _ _ BO) (bo_ty _ _ _ _ _ _ BO) (bo_allowed _ _ _ _ _ _ BO))
    as (t_dim & first & second & fn1 & fn2 & st & SU).
  rewrite (dc_only_spec bd tx coef dst BO _ _ _ _ _ _ SU). symmetry.
  exact (general_spec bd tx 0 0 coef dst BO _ _ _ _ _ _ SU rest).
Qed.

(** *** Pixels *)
Lemma Clip1_range : forall bd v, 0 <= bd -> 0 <= Clip1 bd v <= 2 ^ bd - 1.
Proof.
  intros bd v B. pose proof (pow2_pos bd B). unfold Clip1. destruct (v <? 0) eqn:E1; [lia|].
  destruct (2 ^ bd - 1 <? v) eqn:E2; [lia|]. apply Z.ltb_ge in E1, E2. lia.
Qed.
Lemma reconstruct_dims : forall s1 s2 bd tx ty coef dst, 0 <= bd ->
  length (reconstruct s1 s2 bd tx ty coef dst) = height tx /\
  Forall (fun r => length r = width tx /\ Forall (fun v => 0 <= v <= 2 ^ bd - 1) r) (reconstruct s1 s2 bd tx ty coef dst).
Proof.
  intros s1 s2 bd tx ty coef dst B. unfold reconstruct. split; [rewrite map_length, seq_length; auto|].
  apply Forall_map, Forall_forall. intros y _. split; [rewrite map_length, seq_length; auto|].
  apply Forall_map, Forall_forall. intros x _. apply Clip1_range; auto.
Qed.

(** *** Lossless *)
Lemma wht_run : forall l h b ins, ival_okb b 0 0 l h inv_wht4 4 4 = true -> length ins = 4%nat ->
  Forall (fun v => l <= v <= h) ins ->
  let T := do_steps (fun v => v) [Wht4] ins in
  run_c 0 0 inv_wht4 (map Some ins) = Ok (map Some T) /\ length T = 4%nat /\ Forall (fun v => - b <= v <= b) T.
Proof.
  intros l h b ins E L F T.
  destruct (ival_okb_sound _ _ _ _ _ _ _ _ ins E ltac:(lia) L F) as (T' & R1 & R2 & R3).
  cbn [Nat.sub repeat] in R1. rewrite app_nil_r in R1.
  assert (Q : run_c 0 0 inv_wht4 (map Some ins ++ repeat None (4 - 4)) = Ok (map Some T')) by (cbn [Nat.sub repeat]; rewrite app_nil_r; auto).
  pose proof (same_sound _ _ _ _ _ 0 0 _ _ same_wht4 ltac:(lia) L Q) as P. cbv zeta iota in P.
  cbn [Nat.sub repeat] in P. rewrite app_nil_r in P. apply map_some_inj in P. subst T'. auto.
Qed.

Theorem wht_spec : forall bd coef dst rest, bd_ok bd ->
  (forall i j, (i < 4)%nat -> (j < 4)%nat -> - 2 ^ (bd + 7) <= coef i j <= 2 ^ (bd + 7) - 1) ->
  length dst = 4%nat -> Forall (fun r => length r = 4%nat) dst ->
  Forall (Forall (fun v => 0 <= v <= 2 ^ bd - 1)) dst -> forall eob,
  itxfm_add (is8 bd) (bdmax bd) TX_4X4 WHT_WHT dst (layout 0 coef ++ rest) eob =
  Ok (reconstruct_wht bd coef dst, repeat 0 16 ++ rest).
Proof.
  intros bd coef dst rest B C DH DW DP eob.
  unfold itxfm_add. change (WHT_WHT =? WHT_WHT) with true. change (TX_4X4 =? TX_4X4) with true. cbv iota.
  unfold inv_txfm_add_wht. change (zseq 4) with (map Z.of_nat (seq 0 4)). rewrite omap_map.
  assert (SH : forall i j, (i < 4)%nat -> (j < 4)%nat -> -131072 <= Z.shiftr (coef i j) 2 <= 131071).
  { intros i j I J. specialize (C i j I J). rewrite shiftr_div by lia. change (2 ^ 2) with 4.
    assert (Q : - 524288 <= coef i j <= 524287) by (destruct B as [ -> |[ -> | -> ]]; cbn in C; lia).
    split; [apply Z.div_le_lower_bound; lia|apply Z.lt_succ_r, Z.div_lt_upper_bound; lia]. }
  assert (RW : forall i, (i < 4)%nat -> run_c 0 0 inv_wht4 (map Some (map (fun j => Z.shiftr (coef i j) 2) (seq 0 4))) =
     Ok (map Some (wht_row coef i)) /\ length (wht_row coef i) = 4%nat /\ Forall (fun v => - 700000 <= v <= 700000) (wht_row coef i)).
  { intros i I. apply (wht_run (-131072) 131071 700000); [vm_compute; reflexivity|reflexivity|].
    apply Forall_map, Forall_forall. intros j J. apply in_seq in J. apply SH; lia. }
  rewrite (omap_ok _ _ _ (fun y => map Some (wht_row coef y))).
  2:{ intros y Y. apply in_seq in Y. rewrite omap_map. rewrite (omap_ok _ _ _ (fun x => Z.shiftr (coef y x) 2)).
      - cbn [obind]. apply RW. lia.
      - intros x X. apply in_seq in X. change 4 with (Z.of_nat (scan_h 0)).
        rewrite rd_layout by (cbn; lia). reflexivity. }
  cbn [obind].
  assert (L16 : length (layout 0 coef) = 16%nat) by (rewrite layout_length; reflexivity).
  rewrite (proj2 (Z.leb_le _ _)) by (unfold zlen; rewrite app_length; lia).
  assert (SK : skipn 16 (layout 0 coef ++ rest) = rest).
  { rewrite skipn_app, <- L16, skipn_all, Nat.sub_diag. reflexivity. }
  rewrite SK.
  assert (CW : forall j, (j < 4)%nat -> run_c 0 0 inv_wht4 (map Some (map (fun i => nth j (wht_row coef i) 0) (seq 0 4))) =
     Ok (map Some (wht_col coef j)) /\ length (wht_col coef j) = 4%nat /\ Forall (fun v => - 4000000 <= v <= 4000000) (wht_col coef j)).
  { intros j J. apply (wht_run (-700000) 700000 4000000); [vm_compute; reflexivity|reflexivity|].
    apply Forall_map, Forall_forall. intros i I. apply in_seq in I. destruct (RW i ltac:(lia)) as (_ & L & F).
    rewrite Forall_forall in F. apply F, nth_In. lia. }
  rewrite omap_map.
  rewrite (omap_ok _ _ _ (fun x => map Some (wht_col coef x))).
  2:{ intros x X. apply in_seq in X. rewrite omap_map. rewrite (omap_ok _ _ _ (fun y => nth x (wht_row coef y) 0)).
      - cbn [obind]. apply CW. lia.
      - intros y Y. apply in_seq in Y. unfold elt. apply rd_init_nat. destruct (RW y ltac:(lia)) as (_ & L & _). lia. }
  cbn [obind]. rewrite omap_map.
  rewrite (omap_ok _ _ _ (fun y => map (fun x => Clip1 bd (nth x (nth y dst []) 0 + nth y (wht_col coef x) 0)) (seq 0 4))).
  - reflexivity.
  - intros y Y. apply in_seq in Y. rewrite rd_at_nat with (d := []) by lia. cbn [obind]. rewrite omap_map.
    rewrite Forall_forall in DW, DP. assert (IN : In (nth y dst []) dst) by (apply nth_In; lia).
    pose proof (DW _ IN) as LW. cbv beta in LW. pose proof (DP _ IN) as PW. rewrite Forall_forall in PW.
    apply omap_ok. intros x X. apply in_seq in X.
    rewrite rd_at_nat with (d := 0) by lia. cbn [obind].
    rewrite rd_at_nat with (d := map Some (wht_col coef 0)) by (rewrite map_length, seq_length; lia).
    rewrite (map_nth (fun x => map Some (wht_col coef x))). rewrite seq_nth by lia. cbn [obind Nat.add].
    destruct (CW x ltac:(lia)) as (_ & CL & CF). unfold elt. rewrite rd_init_nat by lia. cbn [obind].
    rewrite Forall_forall in CF. pose proof (CF (nth y (wht_col coef x) 0) ltac:(apply nth_In; lia)) as CB. cbv beta in CB.
    pose proof (PW (nth x (nth y dst []) 0) ltac:(apply nth_In; lia)) as PB. cbv beta in PB.
    rewrite ck_ok. + cbn [obind]. rewrite iclip_pixel_ok by exact B. reflexivity.
    + unfold INT_MIN, INT_MAX. destruct B as [ -> |[ -> | -> ]]; cbn in PB; lia.
Qed.

(** *** Conforming streams: nothing saturates *)
Definition fits (r v : Z) : Prop := - 2 ^ (r - 1) <= v <= 2 ^ (r - 1) - 1.
Fixpoint conforms (r : Z) (l : list step) (T : list Z) : Prop :=
  match l with
  | [] => True
  | st :: l =>
      let T' := do_step (fun v => v) st T in
      match st with
      | H a b _ => fits r (get T a + get T b) /\ fits r (get T a - get T b) /\ fits r (get T b - get T a)
      | _ => True
      end /\ conforms r l T'
  end.
Lemma conforms_steps : forall r l T, conforms r l T -> do_steps (clamp r) l T = do_steps (fun v => v) l T.
Proof.
  intros r l. unfold do_steps. induction l as [|st l IH]; intros T C; cbn [fold_left]; auto.
  destruct C as [C1 C2].
  assert (E : do_step (clamp r) st T = do_step (fun v => v) st T).
  { destruct st; try reflexivity. cbn [do_step]. unfold do_H. destruct C1 as (F1 & F2 & F3).
    destruct flip; rewrite ?(clamp_id r (get T a + get T b)), ?(clamp_id r (get T a - get T b)),
      ?(clamp_id r (get T b - get T a)), ?(clamp_id r (get T b + get T a)); auto.
    unfold range, fits in *. lia. }
  rewrite E. apply IH. exact C2.
Qed.

(** What the specification requires of the values of a block. *)
Definition conforming (bd : Z) (tx ty : nat) (coef : nat -> nat -> Z) : Prop :=
  let id := fun v : Z => v in
  (forall i, (i < height tx)%nat ->
     conforms (row_bits bd) (kind_steps (row_kind ty) (log2w tx)) (row_input bd tx coef i)) /\
  (forall j, (j < width tx)%nat ->
     conforms (col_bits bd) (kind_steps (col_kind ty) (log2h tx)) (col_input id bd tx ty coef j)).

Theorem conforming_reconstruct : forall bd tx ty coef dst, conforming bd tx ty coef ->
  reconstruct (clamp (row_bits bd)) (clamp (col_bits bd)) bd tx ty coef dst =
  reconstruct (fun v => v) (fun v => v) bd tx ty coef dst.
Proof.
  intros bd tx ty coef dst [C1 C2].
  assert (RO : forall i, (i < height tx)%nat ->
     row_output (clamp (row_bits bd)) bd tx ty coef i = row_output (fun v => v) bd tx ty coef i).
  { intros i I. unfold row_output. f_equal. apply conforms_steps. auto. }
  assert (CI : forall j, col_input (clamp (row_bits bd)) bd tx ty coef j = col_input (fun v => v) bd tx ty coef j).
  { intros j. unfold col_input. apply map_ext_in. intros i I. apply in_seq in I. rewrite RO by lia. reflexivity. }
  assert (CO : forall j, (j < width tx)%nat ->
     col_output (clamp (row_bits bd)) (clamp (col_bits bd)) bd tx ty coef j = col_output (fun v => v) (fun v => v) bd tx ty coef j).
  { intros j J. unfold col_output. rewrite CI. f_equal. apply conforms_steps. auto. }
  unfold reconstruct. apply map_ext_in. intros y Y. apply map_ext_in. intros x X. apply in_seq in X.
  unfold residual. rewrite CO; auto. destruct (is_flip (row_kind ty)); lia.
Qed.

(** What find_matching_ref returns: the masks of the first eight matching positions. *)
From Coq Require Import ZArith List Bool Lia.
From Verif Require Import Base.CInt Base.Loop Base.Lemmas Mc.ObmcModel Warp.Model Warp.Solve Warp.Samples Warp.Find.
From Verif Require Warp.Spec.
Import ListNotations.
Open Scope Z_scope.
Local Open Scope outcome_scope.

Lemma zlen_firstn : forall (A : Type) (l : list A) n, zlen (firstn n l) = Z.min (Z.of_nat n) (zlen l).
Proof. intros A l n. unfold zlen. rewrite firstn_length. lia. Qed.
Lemma firstn_all2' : forall (A : Type) (l : list A) n, zlen l <= Z.of_nat n -> firstn n l = l.
Proof. intros A l n H. apply firstn_all2. unfold zlen in H. lia. Qed.

Section Masks.
Variables (k : warp_in) (mi : Z -> Z -> Spec.mode_info) (avail : Z -> Z -> bool) (have_top have_left : bool).
Variables (bx by_ MiRows MiCols bw4 bh4 ref : Z).
Hypothesis NB : nbhd k mi avail have_top have_left bx by_ MiRows MiCols bw4 bh4.
Notation mt := (mt mi avail ref).
Notation Tm := (Tm mi avail have_top bx by_ MiCols bw4 ref).
Notation Lm := (Lm mi avail have_left bx by_ MiRows bh4 ref).
Notation topl := (topl mi have_top bx by_ MiCols bw4).
Notation leftl := (leftl mi have_left bx by_ MiRows bh4).
Notation cutL1 := (cutL1 mi have_top bx by_ bw4).
Notation cutL2 := (cutL2 mi have_left bx by_ bh4).
Notation cutR := (cutR mi have_top bx by_ bw4).
Notation w4 := (Z.min bw4 (MiCols - bx)).
Notation h4 := (Z.min bh4 (MiRows - by_)).
Definition posT (i : Z) : Z * Z := (by_ - 1, bx + i).
Definition posL (i : Z) : Z * Z := (by_ + i, bx - 1).
Definition hasTL : bool := negb cutL1 && negb cutL2 && mt (by_ - 1) (bx - 1).
Definition hasTR : bool := negb cutR && (Z.max bw4 bh4 <=? 16) && mt (by_ - 1) (bx + bw4).
Definition one_if (b : bool) (p : Z * Z) : list (Z * Z) := if b then [p] else [].
(** The matching positions, in the order of the specification *)
Definition places : list (Z * Z) :=
  map posT Tm ++ map posL Lm ++ one_if hasTL (by_ - 1, bx - 1) ++ one_if hasTR (by_ - 1, bx + bw4).

Lemma topl_incr : incr 0 32 topl.
Proof.
  unfold Find.topl. case_eq have_top; intros HT; [|exact I]. destruct (bw4 <=? _); [split; [lia|exact I]|].
  pose proof (w4_pos _ _ _ _ _ _ _ _ _ _ _ NB) as WP.
  assert (G : incr 0 w4 (steps (sT mi bx by_) w4 34 0)) by (apply steps_incr; [intros i Hi; pose proof (size_pos _ (sT_ok _ _ _ _ _ _ _ _ _ _ _ ref NB HT i Hi)); lia|lia]).
  clear - G WP. revert G. generalize (steps (sT mi bx by_) w4 34 0). intros l. generalize 0 as lo. induction l as [|a l IH]; intros lo G; [exact I|]. destruct G as (G1 & G2). split; [lia|apply IH, G2].
Qed.
Lemma leftl_incr : incr 0 32 leftl.
Proof.
  unfold Find.leftl. case_eq have_left; intros HT; [|exact I]. destruct (bh4 <=? _); [split; [lia|exact I]|].
  pose proof (h4_pos _ _ _ _ _ _ _ _ _ _ _ NB) as WP.
  assert (G : incr 0 h4 (steps (sL mi bx by_) h4 34 0)) by (apply steps_incr; [intros i Hi; pose proof (size_pos _ (sL_ok _ _ _ _ _ _ _ _ _ _ _ ref NB HT i Hi)); lia|lia]).
  clear - G WP. revert G. generalize (steps (sL mi bx by_) h4 34 0). intros l. generalize 0 as lo. induction l as [|a l IH]; intros lo G; [exact I|]. destruct G as (G1 & G2). split; [lia|apply IH, G2].
Qed.

Record masks_ok (ts ls : list Z) (tl tr : bool) : Prop := {
  mk_ts : exists n, ts = firstn n Tm;
  mk_ls : exists n, ls = firstn n Lm;
  mk_tl : tl = true -> hasTL = true;
  mk_tr : tr = true -> hasTR = true;
  mk_all : firstn 8 places = map posT ts ++ map posL ls ++ one_if tl (by_ - 1, bx - 1) ++ one_if tr (by_ - 1, bx + bw4) }.

Lemma find_masks : exists ts ls tl tr,
  find_matching_ref k bw4 bh4 w4 h4 have_left have_top ref = Ok (xm 0 ts + b2z tr * 2 ^ 32, xm 0 ls + b2z tl * 2 ^ 32) /\ masks_ok ts ls tl tr.
Proof.
  destruct (nb_bx _ _ _ _ _ _ _ _ _ _ _ NB) as (KX & BX & BM). destruct (nb_by _ _ _ _ _ _ _ _ _ _ _ NB) as (_ & BY & _).
  unfold find_matching_ref. rewrite (fmr_top_ok _ _ _ _ _ _ _ _ _ _ _ ref NB). cbn [obind]. cbv beta iota.
  destruct (Z.leb_spec 8 (zlen Tm)) as [T8|T8].
  { exists (firstn 8 Tm), [], false, false. cbn [f_m0 f_m1 xm b2z]. rewrite !Z.mul_0_l, !Z.add_0_r. split; [reflexivity|]. split; [eexists; reflexivity|exists O; reflexivity|discriminate|discriminate|].
    unfold places. cbn [map one_if]. rewrite !app_nil_r. rewrite firstn_app. replace (8 - length (map posT Tm))%nat with O by (rewrite map_length; clear - T8; unfold zlen in T8; lia). rewrite firstn_O, app_nil_r, firstn_map. reflexivity. }
  assert (T0 : 0 <= zlen Tm) by (unfold zlen; lia).
  rewrite (firstn_all2' _ Tm 8) by (clear - T8; lia).
  destruct (fmr_left_ok _ _ _ _ _ _ _ _ _ _ _ ref NB (zlen Tm) (xm 0 Tm) (have_top && have_left && negb cutL1)
    ((Z.max bw4 bh4 <? 32) && have_top && (w_bx k + bw4 <? w_col_end k) && w_tr k && negb cutR) ltac:(clear - T0 T8; lia)) as (tl' & EL & ETL).
  rewrite EL. cbn [obind]. cbv beta iota.
  destruct (Z.leb_spec 8 (zlen Tm + zlen Lm)) as [L8|L8].
  { exists Tm, (firstn (Z.to_nat (8 - zlen Tm)) Lm), false, false. cbn [f_m0 f_m1 xm b2z]. rewrite !Z.mul_0_l, !Z.add_0_r. split; [reflexivity|].
    split; [exists (length Tm); symmetry; apply firstn_all|eexists; reflexivity|discriminate|discriminate|].
    unfold places. cbn [one_if]. rewrite !app_nil_r. rewrite !firstn_app. rewrite (firstn_all2 (map posT Tm)) by (rewrite map_length; clear - T8; unfold zlen in T8; lia). f_equal.
    rewrite !map_length. replace (8 - length Tm - length Lm)%nat with O by (clear - L8; unfold zlen in L8; lia). rewrite firstn_O, app_nil_r, firstn_map. f_equal. f_equal. clear - T8; unfold zlen in *; lia. }
  assert (L0 : 0 <= zlen Lm) by (unfold zlen; lia).
  rewrite (firstn_all2' _ Lm (Z.to_nat (8 - zlen Tm))) in * by (clear - L8 T8; lia). specialize (ETL L8). subst tl'. cbn [f_m0 f_m1 f_tl f_tr f_count].
  set (n := zlen Tm + zlen Lm) in *. assert (N0 : 0 <= n < 8) by (clear - L0 T0 L8; unfold n in *; lia).
  assert (ATL : have_top && have_left && negb cutL1 && negb cutL2 = avail (by_ - 1) (bx - 1) && (negb cutL1 && negb cutL2)) by (rewrite (nb_tl _ _ _ _ _ _ _ _ _ _ _ NB), !andb_assoc; reflexivity).
  assert (ATR : (Z.max bw4 bh4 <? 32) && have_top && (w_bx k + bw4 <? w_col_end k) && w_tr k && negb cutR = (Z.max bw4 bh4 <=? 16) && (avail (by_ - 1) (bx + bw4)) && negb cutR).
  { destruct (nb_bw _ _ _ _ _ _ _ _ _ _ _ NB) as (SB & _). destruct (nb_bh _ _ _ _ _ _ _ _ _ _ _ NB) as (SH & _).
    assert (EM : (Z.max bw4 bh4 <? 32) = (Z.max bw4 bh4 <=? 16)).
    { clear - SB SH. destruct SB as [->|[->|[->|[->|[->| ->]]]]]; destruct SH as [->|[->|[->|[->|[->| ->]]]]]; reflexivity. }
    rewrite EM. destruct (Z.leb_spec (Z.max bw4 bh4) 16) as [M|M]; [|reflexivity]. rewrite (nb_tr _ _ _ _ _ _ _ _ _ _ _ NB M), KX, !andb_true_l. reflexivity. }
  rewrite ATL, ATR. clear ATL ATR EL. assert (NN : n = zlen Tm + zlen Lm) by reflexivity. clearbody n.
  assert (TLS : exists s', (let! (stop, s) := (if avail (by_ - 1) (bx - 1) && (negb cutL1 && negb cutL2) then
       let! b := w_at k (-1) (w_bx k - 1) in Ok (found1 ref b (2 ^ 32) {| f_count := n; f_m0 := xm 0 Tm; f_m1 := xm 0 Lm; f_tl := avail (by_ - 1) (bx - 1) && (negb cutL1 && negb cutL2); f_tr := (Z.max bw4 bh4 <=? 16) && avail (by_ - 1) (bx + bw4) && negb cutR |})
     else Ok (false, {| f_count := n; f_m0 := xm 0 Tm; f_m1 := xm 0 Lm; f_tl := avail (by_ - 1) (bx - 1) && (negb cutL1 && negb cutL2); f_tr := (Z.max bw4 bh4 <=? 16) && avail (by_ - 1) (bx + bw4) && negb cutR |})) in Ok (stop, s)) =
     Ok (8 <=? n + b2z hasTL, s') /\ f_count s' = n + b2z hasTL /\ f_m0 s' = xm 0 Tm /\ f_m1 s' = xm 0 Lm + b2z hasTL * 2 ^ 32 /\ f_tr s' = (Z.max bw4 bh4 <=? 16) && avail (by_ - 1) (bx + bw4) && negb cutR).
  { assert (N8 : (8 <=? n) = false) by (clear - N0; lia). unfold hasTL. destruct (avail (by_ - 1) (bx - 1)) eqn:AV.
    2:{ unfold Samples.mt. rewrite AV. cbn [andb obind]. rewrite andb_false_r. cbn [b2z]. eexists. rewrite Z.add_0_r, N8. split; [reflexivity|]. cbn [f_count f_m0 f_m1 f_tr]. repeat split; lia. }
    cbn [andb]. destruct (negb cutL1 && negb cutL2) eqn:C.
    2:{ cbn [andb obind b2z]. eexists. rewrite Z.add_0_r, N8. split; [reflexivity|]. cbn [f_count f_m0 f_m1 f_tr]. repeat split; lia. }
    destruct (mem_at _ _ _ _ _ _ _ _ _ _ _ ref NB _ _ AV (row_top _ _ _ _ _ _ _ _ _ _ _ NB)) as (b & E1 & _ & _ & E4 & _). replace (by_ - 1 - by_) with (-1) in E1 by lia.
    rewrite KX, E1. cbn [obind]. unfold found1. rewrite E4. cbn [andb f_count f_m0 f_m1 f_tr f_tl]. destruct (mt (by_ - 1) (bx - 1)) eqn:M; cbn [b2z].
    - eexists. split; [reflexivity|]. cbn [f_count f_m0 f_m1 f_tr]. repeat split.
      pose proof (xm_bound Lm 0 32 (incr_filter _ _ _ _ leftl_incr) ltac:(lia)) as B. rewrite lor_new by (clear - B; change (32 - 0) with 32 in B; lia). lia.
    - eexists. rewrite Z.add_0_r, N8. split; [reflexivity|]. cbn [f_count f_m0 f_m1 f_tr]. repeat split; lia. }
  destruct TLS as (s' & ES & SC & S0 & S1 & SR).
  match type of ES with obind ?a _ = _ => destruct a as [[st s1]|] eqn:EA; [|discriminate ES] end. cbn [obind] in ES. injection ES as ES1 ES2. subst st s1. cbn [obind]. cbv beta iota. rewrite SR. rewrite S0, S1.
  assert (LT : length Tm = Z.to_nat (zlen Tm)) by (unfold zlen; lia). assert (LL : length Lm = Z.to_nat (zlen Lm)) by (unfold zlen; lia).
  assert (PL : forall tr, (tr = true -> hasTR = true) -> (Z.of_nat (length (one_if hasTL (by_ - 1, bx - 1))) + zlen Tm + zlen Lm < 8 -> tr = hasTR) ->
     (Z.of_nat (length (one_if hasTL (by_ - 1, bx - 1))) + zlen Tm + zlen Lm >= 8 -> tr = false) -> masks_ok Tm Lm hasTL tr).
  { intros tr TR1 TR2 TR3. split; [exists (length Tm); symmetry; apply firstn_all|exists (length Lm); symmetry; apply firstn_all|tauto|exact TR1|].
    unfold places. assert (LB : (length (one_if hasTL ((by_ - 1)%Z, (bx - 1)%Z)) <= 1)%nat) by (destruct hasTL; cbn; lia).
    rewrite !firstn_app, !map_length. rewrite (firstn_all2 (map posT Tm)) by (rewrite map_length; clear - T8; unfold zlen in T8; lia). f_equal.
    rewrite (firstn_all2 (map posL Lm)) by (rewrite map_length; clear - N0 NN; unfold zlen in *; lia). f_equal.
    rewrite (firstn_all2 (one_if hasTL _)) by (clear - N0 NN LB; unfold zlen in *; lia). f_equal.
    set (q := length (one_if hasTL (by_ - 1, bx - 1))) in *. destruct (Z_lt_le_dec (Z.of_nat q + zlen Tm + zlen Lm) 8) as [D|D].
    - rewrite (TR2 D). apply firstn_all2. assert (LR : (length (one_if hasTR ((by_ - 1)%Z, (bx + bw4)%Z)) <= 1)%nat) by (destruct hasTR; cbn; lia). clear - LR D. unfold zlen in *. lia.
    - rewrite (TR3 ltac:(lia)). replace (8 - length Tm - length Lm - q)%nat with O by (clear - D; unfold zlen in D; lia). reflexivity. }
  assert (QL : Z.of_nat (length (one_if hasTL (by_ - 1, bx - 1))) = b2z hasTL) by (destruct hasTL; reflexivity). rewrite QL in PL.
  destruct (Z.leb_spec 8 (n + b2z hasTL)) as [E8|E8].
  - exists Tm, Lm, hasTL, false. cbn [b2z]. rewrite Z.mul_0_l, Z.add_0_r. split; [reflexivity|]. apply PL; [discriminate|clear - NN E8; lia|reflexivity].
  - destruct (avail (by_ - 1) (bx + bw4)) eqn:AV.
    2:{ rewrite andb_false_r. cbn [andb obind]. exists Tm, Lm, hasTL, false. cbn [b2z]. rewrite S0, S1, Z.mul_0_l, Z.add_0_r. split; [reflexivity|].
        apply PL; [discriminate|intros _; unfold hasTR, Samples.mt; rewrite AV, andb_false_r; reflexivity|reflexivity]. }
    rewrite andb_true_r. destruct ((Z.max bw4 bh4 <=? 16) && negb cutR) eqn:C.
    2:{ cbn [andb obind]. exists Tm, Lm, hasTL, false. cbn [b2z]. rewrite S0, S1, Z.mul_0_l, Z.add_0_r. split; [reflexivity|].
        apply PL; [discriminate|intros _; unfold hasTR; rewrite (andb_comm (negb cutR)), C; reflexivity|reflexivity]. }
    destruct (mem_at _ _ _ _ _ _ _ _ _ _ _ ref NB _ _ AV (row_top _ _ _ _ _ _ _ _ _ _ _ NB)) as (b & E1 & _ & _ & E4 & _). replace (by_ - 1 - by_) with (-1) in E1 by lia.
    rewrite KX, E1. cbn [obind]. unfold found0. rewrite E4, SC, S0, S1. assert (ER : hasTR = mt (by_ - 1) (bx + bw4)) by (unfold hasTR; rewrite (andb_comm (negb cutR)), C; reflexivity).
    exists Tm, Lm, hasTL, hasTR. split.
    + rewrite ER. destruct (mt (by_ - 1) (bx + bw4)); cbn [b2z f_m0 f_m1].
      * pose proof (xm_bound Tm 0 32 (incr_filter _ _ _ _ topl_incr) ltac:(lia)) as B. rewrite lor_new by (clear - B; change (32 - 0) with 32 in B; lia). rewrite Z.mul_1_l. reflexivity.
      * rewrite S0, S1, Z.mul_0_l, Z.add_0_r. reflexivity.
    + apply PL; [tauto|reflexivity|clear - NN E8; lia].
Qed.
End Masks.

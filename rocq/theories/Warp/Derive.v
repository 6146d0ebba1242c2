(** derive_warpmv computes the local warp parameters of the specification. *)
From Coq Require Import ZArith List Bool Lia Permutation.
From Verif Require Import Base.CInt Base.Loop Base.Lemmas Mc.ObmcModel Warp.Model Warp.Shear Warp.Select Warp.Solve Warp.Samples Warp.Find Warp.Masks Warp.Points.
From Verif Require Warp.Spec.
Import ListNotations.
Open Scope Z_scope.
Local Open Scope outcome_scope.

Lemma in_firstn : forall (A : Type) n (l : list A) a, In a (firstn n l) -> In a l.
Proof. intros A. induction n as [|n IH]; intros [|b l] a H; cbn [firstn] in H; [contradiction|contradiction|contradiction|destruct H as [H|H]; [left; exact H|right; apply IH, H]]. Qed.
Lemma shiftr_hi : forall x b, 0 <= x < 2 ^ 32 -> Z.shiftr (x + b2z b * 2 ^ 32) 32 = b2z b.
Proof. intros x b H. rewrite Z.shiftr_div_pow2 by lia. rewrite Z.div_add by lia. rewrite Z.div_small by exact H. reflexivity. Qed.
Lemma u32_lo : forall x b, 0 <= x < 2 ^ 32 -> u32 (x + b2z b * 2 ^ 32) = x.
Proof. intros x b H. unfold u32. rewrite Z.add_mod by lia. change (2 ^ 32) with 4294967296 in *. rewrite Z.mod_mul, Z.add_0_r, Z.mod_mod, Z.mod_small by lia. reflexivity. Qed.

Section Derive.
Variables (k : warp_in) (mi : Z -> Z -> Spec.mode_info) (avail : Z -> Z -> bool) (have_top have_left : bool).
Variables (bx by_ MiRows MiCols bw4 bh4 ref : Z).
Hypothesis NB : nbhd k mi avail have_top have_left bx by_ MiRows MiCols bw4 bh4.
Notation W := (W mi).
Notation H := (H mi).
Notation Tm := (Tm mi avail have_top bx by_ MiCols bw4 ref).
Notation Lm := (Lm mi avail have_left bx by_ MiRows bh4 ref).
Notation topl := (topl mi have_top bx by_ MiCols bw4).
Notation leftl := (leftl mi have_left bx by_ MiRows bh4).
Notation posT := (posT bx by_).
Notation posL := (posL bx by_).
Notation hasTL := (hasTL mi avail have_top have_left bx by_ bw4 bh4 ref).
Notation hasTR := (hasTR mi avail have_top bx by_ bw4 bh4 ref).
Notation places := (places mi avail have_top have_left bx by_ MiRows MiCols bw4 bh4 ref).
Notation masks_ok := (masks_ok mi avail have_top have_left bx by_ MiRows MiCols bw4 bh4 ref).
Notation pt := (pt mi bx by_).
Notation cstart := (cstart mi).
Notation rstart := (rstart mi).

Lemma Tm_in : forall n t, In t (firstn n Tm) -> In t topl. Proof. intros n t Ht. apply in_firstn in Ht. unfold Find.Tm in Ht. apply filter_In in Ht. tauto. Qed.
Lemma Lm_in : forall n t, In t (firstn n Lm) -> In t leftl. Proof. intros n t Ht. apply in_firstn in Ht. unfold Find.Lm in Ht. apply filter_In in Ht. tauto. Qed.
Lemma Tm_incr : forall n, incr 0 32 (firstn n Tm). Proof. intros n. apply incr_firstn, incr_filter. exact (topl_incr _ _ _ _ _ _ _ _ _ _ _ ref NB). Qed.
Lemma Lm_incr : forall n, incr 0 32 (firstn n Lm). Proof. intros n. apply incr_firstn, incr_filter. exact (leftl_incr _ _ _ _ _ _ _ _ _ _ _ ref NB). Qed.

Lemma dw_points_ok : forall ts ls tl tr, masks_ok ts ls tl tr -> places <> [] ->
  dw_points k bw4 (xm 0 ts + b2z tr * 2 ^ 32) (xm 0 ls + b2z tl * 2 ^ 32) = Ok (map pt (firstn 8 places)).
Proof.
  intros ts ls tl tr MO NE. destruct MO as [(nt & ET) (nl & EL) HTL HTR ALL]. rewrite ALL.
  assert (L8 : zlen ts + zlen ls + b2z tl + b2z tr <= 8 /\ 0 < zlen ts + zlen ls + b2z tl + b2z tr).
  { assert (E : length (firstn 8 places) = (length ts + (length ls + (Z.to_nat (b2z tl) + Z.to_nat (b2z tr))))%nat) by (rewrite ALL, !app_length, !map_length; destruct tl, tr; reflexivity).
    assert (E8 : (length (firstn 8 places) <= 8)%nat) by apply firstn_le_length. assert (E0 : (0 < length (firstn 8 places))%nat) by (clear - NE; destruct places; [congruence|cbn; lia]).
    clear - E E8 E0. unfold zlen. destruct tl, tr; cbn [b2z] in *; lia. }
  assert (IT : incr 0 32 ts) by (rewrite ET; apply Tm_incr). assert (IL : incr 0 32 ls) by (rewrite EL; apply Lm_incr).
  assert (TI : forall t, In t ts -> In t topl) by (intros t Ht; rewrite ET in Ht; exact (Tm_in nt t Ht)). assert (LI : forall t, In t ls -> In t leftl) by (intros t Ht; rewrite EL in Ht; exact (Lm_in nl t Ht)).
  clear ET EL ALL NE nt nl.
  pose proof (xm_bound ts 0 32 IT ltac:(lia)) as BT. pose proof (xm_bound ls 0 32 IL ltac:(lia)) as BL. change (32 - 0) with 32 in BT, BL.
  destruct (nb_bx _ _ _ _ _ _ _ _ _ _ _ NB) as (KX & BX & BM). destruct (nb_by _ _ _ _ _ _ _ _ _ _ _ NB) as (KY & BY & BN). destruct (nb_bw _ _ _ _ _ _ _ _ _ _ _ NB) as (SB & _). destruct (nb_bh _ _ _ _ _ _ _ _ _ _ _ NB) as (SH & _).
  unfold dw_points. rewrite !u32_lo, !shiftr_hi by assumption. rewrite KX, KY.
  (* above *)
  assert (TOP : (if (xm 0 ts =? 1) && (b2z tl =? 0) then let! b := w_at k (-1) bx in let! w := bs_w b in add_sample (- Z.land bx (w - 1)) 0 1 (-1) b [] else dw_row k 33 0 (xm 0 ts) []) = Ok (map pt (map posT ts))).
  { destruct ((xm 0 ts =? 1) && (b2z tl =? 0)) eqn:C.
    - apply andb_prop in C. destruct C as (C & _). apply Z.eqb_eq in C. pose proof (xm_one ts IT C) as E0. subst ts. pose proof (TI 0 (or_introl eq_refl)) as I0.
      destruct (top_mem _ _ _ _ _ _ _ _ _ _ _ ref NB 0 I0) as (b & E1 & E2 & E3 & E5 & E6 & S1 & S2). rewrite Z.add_0_r in *. rewrite E1. cbn [obind]. rewrite E2. cbn [obind].
      rewrite land_size by (first [exact S1|clear - BX; lia]). pose proof (size_pos _ S1) as P1.
      rewrite (sample_ok mi bx by_ b (by_ - 1) bx _ _ _ _ [] E2 E3 E5 E6).
      + cbn [map app]. unfold Points.pt, Masks.posT. cbn [fst snd]. rewrite Z.add_0_r. reflexivity.
      + unfold Points.cstart. pose proof (Z.div_mod bx (W (by_ - 1) bx) ltac:(clear - P1; lia)) as D. clear - D. lia.
      + pose proof (top_avail _ _ _ _ _ _ _ _ _ _ _ ref NB 0 I0) as AV. rewrite Z.add_0_r in AV. pose proof (top_bottom _ _ _ _ _ _ _ _ _ _ _ NB bx ltac:(lia) AV S2) as TB. unfold Points.rstart. clear - TB. lia.
      + reflexivity.
    - apply (dw_row_ok _ _ _ _ _ _ _ _ _ _ _ ref NB ts 0 [] 33); [lia|exact IT|clear - L8; unfold zlen in *; cbn [length]; destruct tl, tr; cbn [b2z] in L8; lia|clear - L8; unfold zlen in *; destruct tl, tr; cbn [b2z] in L8; lia|].
      intros t Ht. split; [exact (TI t Ht)|]. destruct (topl_in _ _ _ _ _ _ _ _ _ _ _ ref NB t (TI t Ht)) as (HT & R & [(L & ->)|(_ & _ & E)]); [|exact E].
      (* only one block above, which starts here as there is a corner *)
      assert (E1 : ts = [0]).
      { destruct ts as [|a ts]; [destruct Ht|]. assert (Z0 : forall u, In u (a :: ts) -> u = 0).
        { intros u Hu. destruct (topl_in _ _ _ _ _ _ _ _ _ _ _ ref NB u (TI u Hu)) as (_ & _ & [(_ & e)|(L' & _)]); [exact e|clear - L L'; lia]. }
        pose proof (Z0 a (or_introl eq_refl)). subst a. destruct ts as [|c ts]; [reflexivity|]. pose proof (Z0 c (or_intror (or_introl eq_refl))). subst c. destruct IT as (_ & IT & _). clear - IT. lia. }
      rewrite E1 in C. change (xm 0 [0] =? 1) with true in C. cbn [andb] in C. destruct tl; [|discriminate C].
      destruct (tl_ok _ _ _ _ _ _ _ _ _ _ _ ref NB (HTL eq_refl)) as (_ & _ & _).
      pose proof (HTL eq_refl) as HH. unfold Masks.hasTL in HH. apply andb_prop in HH. destruct HH as (HH & _). apply andb_prop in HH. destruct HH as (HH & _). apply negb_true_iff in HH.
      unfold cutL1 in HH. rewrite HT in HH. cbn [andb] in HH. replace (bw4 <=? W (by_ - 1) bx) with true in HH by (clear - L; lia). cbn [andb] in HH. apply Z.ltb_ge in HH.
      rewrite Z.add_0_r. destruct (top_mem _ _ _ _ _ _ _ _ _ _ _ ref NB 0 (TI 0 Ht)) as (b & _ & _ & _ & _ & _ & S1 & _). rewrite Z.add_0_r in S1. pose proof (size_pos _ S1) as P1.
      pose proof (Z.div_mod bx (W (by_ - 1) bx) ltac:(clear - P1; lia)) as D. pose proof (Z.mod_pos_bound bx (W (by_ - 1) bx) ltac:(clear - P1; lia)) as MB. unfold Points.cstart. clear - D MB HH. lia. }
  rewrite TOP. clear TOP. cbn [obind].
  assert (ZT : zlen (map pt (map posT ts)) = zlen ts) by (unfold zlen; rewrite !map_length; reflexivity).
  (* left *)
  set (A := map pt (map posT ts)) in *.
  assert (LEFT : (if (zlen A <? 8) && (xm 0 ls + b2z tl * 2 ^ 32 =? 1) then let! b := w_at k 0 (bx - 1) in let! h := bs_h b in let! b := w_at k (- Z.land by_ (h - 1)) (bx - 1) in add_sample 0 (- Z.land by_ (h - 1)) (-1) 1 b A else dw_col k 33 0 (xm 0 ls) A) = Ok (A ++ map pt (map posL ls))).
  { destruct ((zlen A <? 8) && (xm 0 ls + b2z tl * 2 ^ 32 =? 1)) eqn:C.
    - apply andb_prop in C. destruct C as (Z8 & C). apply Z.eqb_eq in C. apply Z.ltb_lt in Z8. assert (TF : tl = false) by (destruct tl; [cbn [b2z] in C; clear - C BL; lia|reflexivity]). subst tl. cbn [b2z] in C. rewrite Z.mul_0_l, Z.add_0_r in C.
      pose proof (xm_one ls IL C) as E0. subst ls. pose proof (LI 0 (or_introl eq_refl)) as I0.
      destruct (left_mem _ _ _ _ _ _ _ _ _ _ _ ref NB 0 I0) as (b & E1 & E2 & E3 & E5 & E6 & S1 & S2). rewrite Z.add_0_r in *. rewrite E1. cbn [obind]. rewrite E3. cbn [obind]. cbv zeta.
      rewrite land_size by (first [exact S2|clear - BY; lia]). pose proof (size_pos _ S2) as P2. pose proof (Z.div_mod by_ (H by_ (bx - 1)) ltac:(clear - P2; lia)) as D. pose proof (Z.mod_pos_bound by_ (H by_ (bx - 1)) ltac:(clear - P2; lia)) as MB.
      pose proof (left_avail _ _ _ _ _ _ _ _ _ _ _ ref NB 0 I0) as AV. rewrite Z.add_0_r in AV.
      (* the first row of the block on the left *)
      assert (D0 : 0 <= by_ / H by_ (bx - 1)) by (apply Z.div_pos; [clear - BY; lia|clear - P2; lia]).
      pose proof (start_range (bx - 1) (W by_ (bx - 1)) (proj1 (size_pos _ S1))) as RC.
      destruct (block_in _ _ _ _ _ _ _ _ _ _ _ NB by_ (bx - 1) (by_ - by_ mod H by_ (bx - 1)) (bx - 1) AV S1 S2) as (AV2 & MI).
      { unfold Points.rstart. clear - D MB. lia. } { exact RC. } { clear - BY MB. lia. } { clear - BX. lia. }
      assert (ROW : by_ / 32 * 32 - 1 <= by_ - by_ mod H by_ (bx - 1) < by_ + 32).
      { pose proof (Z.div_mod by_ 32 ltac:(lia)) as D32. assert (MM : by_ mod H by_ (bx - 1) <= by_ mod 32).
        { clear - S2 BY. revert S2. generalize (H by_ (bx - 1)). intros h [->|[->|[->|[->|[->| ->]]]]]; lia. }
        clear - D32 MM MB. lia. }
      destruct (mem_at _ _ _ _ _ _ _ _ _ _ _ ref NB _ _ AV2 ROW) as (b' & F1 & F2 & F3 & _ & F5 & F6 & _ & _).
      replace (by_ - by_ mod H by_ (bx - 1) - by_) with (- (by_ mod H by_ (bx - 1))) in F1 by lia. rewrite F1. cbn [obind].
      assert (EWH : forall r, mi r (bx - 1) = mi by_ (bx - 1) -> W r (bx - 1) = W by_ (bx - 1) /\ H r (bx - 1) = H by_ (bx - 1)) by (intros r e; unfold Samples.W, Samples.H; rewrite e; split; reflexivity).
      destruct (EWH _ MI) as (EW & EH). rewrite EW in F2. rewrite EH in F3. rewrite MI in F5, F6.
      rewrite (sample_ok mi bx by_ b' by_ (bx - 1) _ _ _ _ A F2 F3 F5 F6).
      + cbn [map app]. unfold Points.pt, Masks.posL. cbn [fst snd]. rewrite Z.add_0_r. reflexivity.
      + pose proof (left_right _ _ _ _ _ _ _ _ _ _ _ NB by_ ltac:(lia) AV S1) as TB. unfold Points.cstart. clear - TB. lia.
      + unfold Points.rstart. clear - D. lia.
      + exact Z8.
    - apply (dw_col_ok _ _ _ _ _ _ _ _ _ _ _ ref NB ls 0 A 33); [lia|exact IL|rewrite ZT; clear - L8; destruct tl, tr; cbn [b2z] in L8; lia|clear - L8; unfold zlen in *; destruct tl, tr; cbn [b2z] in L8; lia|].
      intros t Ht. split; [exact (LI t Ht)|]. destruct (leftl_in _ _ _ _ _ _ _ _ _ _ _ ref NB t (LI t Ht)) as (HT & R & [(L & ->)|(_ & _ & E)]); [|exact E].
      assert (E1 : ls = [0]).
      { destruct ls as [|a ls]; [destruct Ht|]. assert (Z0 : forall u, In u (a :: ls) -> u = 0).
        { intros u Hu. destruct (leftl_in _ _ _ _ _ _ _ _ _ _ _ ref NB u (LI u Hu)) as (_ & _ & [(_ & e)|(L' & _)]); [exact e|clear - L L'; lia]. }
        pose proof (Z0 a (or_introl eq_refl)). subst a. destruct ls as [|c ls]; [reflexivity|]. pose proof (Z0 c (or_intror (or_introl eq_refl))). subst c. destruct IL as (_ & IL & _). clear - IL. lia. }
      rewrite E1 in C, L8. replace (zlen A <? 8) with true in C by (rewrite ZT; clear - L8; unfold zlen in *; cbn [length] in L8; destruct tl, tr; cbn [b2z] in L8; lia). cbn [andb] in C. destruct tl; [|discriminate C].
      pose proof (HTL eq_refl) as HH. unfold Masks.hasTL in HH. apply andb_prop in HH. destruct HH as (HH & _). apply andb_prop in HH. destruct HH as (_ & HH). apply negb_true_iff in HH.
      unfold cutL2 in HH. rewrite HT in HH. cbn [andb] in HH. replace (bh4 <=? H by_ (bx - 1)) with true in HH by (clear - L; lia). cbn [andb] in HH. apply Z.ltb_ge in HH.
      rewrite Z.add_0_r. destruct (left_mem _ _ _ _ _ _ _ _ _ _ _ ref NB 0 (LI 0 Ht)) as (b & _ & _ & _ & _ & _ & _ & S2). rewrite Z.add_0_r in S2. pose proof (size_pos _ S2) as P1.
      pose proof (Z.div_mod by_ (H by_ (bx - 1)) ltac:(clear - P1; lia)) as D. pose proof (Z.mod_pos_bound by_ (H by_ (bx - 1)) ltac:(clear - P1; lia)) as MB. unfold Points.rstart. clear - D MB HH. lia. }
  rewrite LEFT. clear LEFT. cbn [obind].
  assert (ZB : zlen (A ++ map pt (map posL ls)) = zlen ts + zlen ls) by (rewrite <- ZT; unfold zlen; rewrite app_length, !map_length; lia).
  rewrite !map_app. fold A. rewrite (app_assoc A). set (B := A ++ map pt (map posL ls)) in *. clearbody B.
  (* corners *)
  assert (CTL : (if (zlen B <? 8) && negb (b2z tl =? 0) then let! b := w_at k (-1) (bx - 1) in add_sample 0 0 (-1) (-1) b B else Ok B) = Ok (B ++ map pt (one_if tl (by_ - 1, bx - 1)))).
  { destruct tl; [|cbn [b2z]; rewrite andb_false_r; cbn [one_if map]; rewrite app_nil_r; reflexivity].
    destruct (tl_ok _ _ _ _ _ _ _ _ _ _ _ ref NB (HTL eq_refl)) as (AV & C1 & C2 & S1 & S2). assert (Z8 : zlen B < 8) by (rewrite ZB; clear - L8; destruct tr; cbn [b2z] in L8; lia).
    replace (zlen B <? 8) with true by (clear - Z8; lia). cbn [b2z andb negb Z.eqb].
    destruct (mem_at _ _ _ _ _ _ _ _ _ _ _ ref NB _ _ AV (row_top _ _ _ _ _ _ _ _ _ _ _ NB)) as (b & E1 & E2 & E3 & _ & E5 & E6 & _ & _). replace (by_ - 1 - by_) with (-1) in E1 by lia. rewrite E1. cbn [obind].
    rewrite (sample_ok mi bx by_ b (by_ - 1) (bx - 1) _ _ _ _ B E2 E3 E5 E6); [reflexivity|clear - C1; lia|clear - C2; lia|exact Z8]. }
  rewrite CTL. clear CTL. cbn [obind].
  assert (ZC : zlen (B ++ map pt (one_if tl (by_ - 1, bx - 1))) = zlen ts + zlen ls + b2z tl) by (rewrite <- ZB; unfold zlen; rewrite app_length, map_length; destruct tl; cbn [one_if length b2z]; lia).
  rewrite (app_assoc B). set (C := B ++ map pt (one_if tl (by_ - 1, bx - 1))) in *. clearbody C.
  assert (CTR : (if (zlen C <? 8) && negb (b2z tr =? 0) then let! b := w_at k (-1) (bx + bw4) in add_sample bw4 0 1 (-1) b C else Ok C) = Ok (C ++ map pt (one_if tr (by_ - 1, bx + bw4)))).
  { destruct tr; [|cbn [b2z]; rewrite andb_false_r; cbn [one_if map]; rewrite app_nil_r; reflexivity].
    destruct (tr_ok _ _ _ _ _ _ _ _ _ _ _ ref NB (HTR eq_refl)) as (AV & C1 & C2 & S1 & S2 & _). assert (Z8 : zlen C < 8) by (rewrite ZC; clear - L8; cbn [b2z] in L8; lia).
    replace (zlen C <? 8) with true by (clear - Z8; lia). cbn [b2z andb negb Z.eqb].
    destruct (mem_at _ _ _ _ _ _ _ _ _ _ _ ref NB _ _ AV (row_top _ _ _ _ _ _ _ _ _ _ _ NB)) as (b & E1 & E2 & E3 & _ & E5 & E6 & _ & _). replace (by_ - 1 - by_) with (-1) in E1 by lia. rewrite E1. cbn [obind].
    rewrite (sample_ok mi bx by_ b (by_ - 1) (bx + bw4) _ _ _ _ C E2 E3 E5 E6); [reflexivity|clear - C1; lia|clear - C2; lia|exact Z8]. }
  rewrite CTR. clear CTR. cbn [obind].
  assert (ZD : zlen (C ++ map pt (one_if tr (by_ - 1, bx + bw4))) = zlen ts + zlen ls + b2z tl + b2z tr) by (rewrite <- ZC; unfold zlen; rewrite app_length, map_length; destruct tr; cbn [one_if length b2z]; lia).
  rewrite ZD. replace ((0 <? _) && _) with true by (clear - L8; lia). reflexivity.
Qed.

(** ** The points are near the block *)
Lemma places_in : forall p, In p places -> (exists t, In t topl /\ p = posT t) \/ (exists t, In t leftl /\ p = posL t) \/ (hasTL = true /\ p = (by_ - 1, bx - 1)) \/ (hasTR = true /\ p = (by_ - 1, bx + bw4)).
Proof.
  intros p Hp. unfold Masks.places in Hp. apply in_app_or in Hp. destruct Hp as [Hp|Hp].
  { left. apply in_map_iff in Hp. destruct Hp as (t & <- & Ht). exists t. split; [|reflexivity]. unfold Find.Tm in Ht. apply filter_In in Ht. tauto. }
  apply in_app_or in Hp. destruct Hp as [Hp|Hp].
  { right. left. apply in_map_iff in Hp. destruct Hp as (t & <- & Ht). exists t. split; [|reflexivity]. unfold Find.Lm in Ht. apply filter_In in Ht. tauto. }
  apply in_app_or in Hp. destruct Hp as [Hp|Hp]; unfold one_if in Hp.
  - right. right. left. destruct hasTL; [|destruct Hp]. destruct Hp as [<-|[]]. split; reflexivity.
  - right. right. right. destruct hasTR; [|destruct Hp]. destruct Hp as [<-|[]]. split; reflexivity.
Qed.
Lemma near : forall r c, avail r c = true -> (exists X, X = 2 * (cstart r c - bx) + W r c - bw4 /\ -64 <= X <= 64) -> (exists Y, Y = 2 * (rstart r c - by_) + H r c - bh4 /\ -64 <= Y <= 64) -> pt_ok bw4 bh4 (pt (r, c)).
Proof.
  intros r c AV (X & EX & BX) (Y & EY & BY). destruct (nb_mv _ _ _ _ _ _ _ _ _ _ _ NB r c AV) as (V1 & V2). unfold pt_ok, Points.pt, Samples.pt_of, sux, suy. cbn [fst snd p_x p_y p_dx p_dy].
  fold (cstart r c) (rstart r c). split; [exists (2 * X); split; [clear - EX|clear - BX]; lia|]. split; [exists (2 * Y); split; [clear - EY|clear - BY]; lia|]. split; [clear - V1|clear - V2]; lia.
Qed.
Lemma places_ok : forall p, In p places -> pt_ok bw4 bh4 (pt p).
Proof.
  intros p Hp. destruct (nb_bx _ _ _ _ _ _ _ _ _ _ _ NB) as (_ & BX & BM). destruct (nb_by _ _ _ _ _ _ _ _ _ _ _ NB) as (_ & BY & BN). destruct (nb_bw _ _ _ _ _ _ _ _ _ _ _ NB) as (SB & _). destruct (nb_bh _ _ _ _ _ _ _ _ _ _ _ NB) as (SH & _).
  pose proof (size_pos _ SB) as PB. pose proof (size_pos _ SH) as PH.
  destruct (places_in p Hp) as [(t & Ht & ->)|[(t & Ht & ->)|[(E & ->)|(E & ->)]]].
  - pose proof (top_avail _ _ _ _ _ _ _ _ _ _ _ ref NB t Ht) as AV. destruct (top_mem _ _ _ _ _ _ _ _ _ _ _ ref NB t Ht) as (_ & _ & _ & _ & _ & _ & S1 & S2).
    destruct (topl_in _ _ _ _ _ _ _ _ _ _ _ ref NB t Ht) as (_ & R & C). pose proof (size_pos _ S1) as P1. pose proof (size_pos _ S2) as P2.
    apply near; [exact AV| |].
    + eexists. split; [reflexivity|]. destruct C as [(L & ->)|(_ & L & E)].
      * rewrite Z.add_0_r in *. pose proof (size_rem _ _ bx SB S1 L BM) as Q. pose proof (Z.div_mod bx (W (by_ - 1) bx) ltac:(clear - P1; lia)) as D. pose proof (Z.mod_pos_bound bx (W (by_ - 1) bx) ltac:(clear - P1; lia)) as MB.
        unfold Points.cstart. clear - D MB Q PB P1. lia.
      * rewrite E. pose proof (size_half _ _ S1 SB L) as HH. clear - R PB P1 HH. lia.
    + eexists. split; [reflexivity|]. pose proof (top_bottom _ _ _ _ _ _ _ _ _ _ _ NB (bx + t) ltac:(clear - R; lia) AV S2) as TB. unfold Points.rstart. clear - TB P2 PH. lia.
  - pose proof (left_avail _ _ _ _ _ _ _ _ _ _ _ ref NB t Ht) as AV. destruct (left_mem _ _ _ _ _ _ _ _ _ _ _ ref NB t Ht) as (_ & _ & _ & _ & _ & _ & S1 & S2).
    destruct (leftl_in _ _ _ _ _ _ _ _ _ _ _ ref NB t Ht) as (_ & R & C). pose proof (size_pos _ S1) as P1. pose proof (size_pos _ S2) as P2.
    apply near; [exact AV| |].
    + eexists. split; [reflexivity|]. pose proof (left_right _ _ _ _ _ _ _ _ _ _ _ NB (by_ + t) ltac:(clear - R; lia) AV S1) as TB. unfold Points.cstart. clear - TB P1 PB. lia.
    + eexists. split; [reflexivity|]. destruct C as [(L & ->)|(_ & L & E)].
      * rewrite Z.add_0_r in *. pose proof (size_rem _ _ by_ SH S2 L BN) as Q. pose proof (Z.div_mod by_ (H by_ (bx - 1)) ltac:(clear - P2; lia)) as D. pose proof (Z.mod_pos_bound by_ (H by_ (bx - 1)) ltac:(clear - P2; lia)) as MB.
        unfold Points.rstart. clear - D MB Q PH P2. lia.
      * rewrite E. pose proof (size_half _ _ S2 SH L) as HH. clear - R PH P2 HH. lia.
  - destruct (tl_ok _ _ _ _ _ _ _ _ _ _ _ ref NB E) as (AV & C1 & C2 & S1 & S2). pose proof (size_pos _ S1) as P1. pose proof (size_pos _ S2) as P2.
    apply near; [exact AV| |]; (eexists; split; [reflexivity|]); [clear - C1 P1 PB|clear - C2 P2 PH]; lia.
  - destruct (tr_ok _ _ _ _ _ _ _ _ _ _ _ ref NB E) as (AV & C1 & C2 & S1 & S2 & M). pose proof (size_pos _ S1) as P1. pose proof (size_pos _ S2) as P2.
    apply near; [exact AV| |]; (eexists; split; [reflexivity|]); [clear - C1 P1 PB M|clear - C2 P2 PH]; lia.
Qed.
End Derive.

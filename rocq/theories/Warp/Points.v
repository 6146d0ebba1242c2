(** The points of derive_warpmv are those of the blocks at the first eight matching positions. *)
From Coq Require Import ZArith List Bool Lia.
From Verif Require Import Base.CInt Base.Loop Base.Lemmas Mc.ObmcModel Warp.Model Warp.Solve Warp.Samples Warp.Find Warp.Masks.
From Verif Require Warp.Spec.
Import ListNotations.
Open Scope Z_scope.
Local Open Scope outcome_scope.

Lemma xm_one : forall ts, incr 0 32 ts -> xm 0 ts = 1 -> ts = [0].
Proof.
  intros [|t l] I E; [discriminate E|]. destruct I as (I1 & I2). cbn [xm] in E. rewrite Z.sub_0_r in E. pose proof (Z.pow_pos_nonneg 2 t ltac:(lia) ltac:(lia)) as P.
  pose proof (incr_1000 l (t + 1) 32 ltac:(lia) I2) as I3. rewrite (xm_shift l 0 (t + 1) I3 ltac:(lia)) in E.
  destruct l as [|u l].
  - cbn [xm] in E. destruct (Z.eq_dec t 0) as [->|N]; [reflexivity|]. pose proof (Z.pow_le_mono_r 2 1 t ltac:(lia) ltac:(lia)). lia.
  - exfalso. destruct I2 as (I4 & I5). pose proof (xm_bound l (t + 1) 32 (incr_weak l (u + 1) (t + 1) 32 ltac:(lia) I5) ltac:(lia)). cbn [xm] in E.
    pose proof (Z.pow_pos_nonneg 2 (u - (t + 1)) ltac:(lia) ltac:(lia)). pose proof (Z.pow_le_mono_r 2 1 (t + 1 - 0) ltac:(lia) ltac:(lia)). nia.
Qed.
Lemma size_rem : forall a b x, size_ok a -> size_ok b -> a <= b -> x mod a = 0 -> x mod b <= b - a.
Proof. intros a b x [->|[->|[->|[->|[->| ->]]]]] [->|[->|[->|[->|[->| ->]]]]] L H; lia. Qed.
Lemma size_half : forall a b, size_ok a -> size_ok b -> a < b -> 2 * a <= b.
Proof. intros a b [->|[->|[->|[->|[->| ->]]]]] [->|[->|[->|[->|[->| ->]]]]] L; lia. Qed.

Section Points.
Variables (k : warp_in) (mi : Z -> Z -> Spec.mode_info) (avail : Z -> Z -> bool) (have_top have_left : bool).
Variables (bx by_ MiRows MiCols bw4 bh4 ref : Z).
Hypothesis NB : nbhd k mi avail have_top have_left bx by_ MiRows MiCols bw4 bh4.
Notation W := (W mi).
Notation H := (H mi).
Notation mt := (mt mi avail ref).
Notation Tm := (Tm mi avail have_top bx by_ MiCols bw4 ref).
Notation Lm := (Lm mi avail have_left bx by_ MiRows bh4 ref).
Notation topl := (topl mi have_top bx by_ MiCols bw4).
Notation leftl := (leftl mi have_left bx by_ MiRows bh4).
Notation cutL1 := (cutL1 mi have_top bx by_ bw4).
Notation cutL2 := (cutL2 mi have_left bx by_ bh4).
Notation cutR := (cutR mi have_top bx by_ bw4).
Notation posT := (posT bx by_).
Notation posL := (posL bx by_).
Notation hasTL := (hasTL mi avail have_top have_left bx by_ bw4 bh4 ref).
Notation hasTR := (hasTR mi avail have_top bx by_ bw4 bh4 ref).
Notation w4 := (Z.min bw4 (MiCols - bx)).
Notation h4 := (Z.min bh4 (MiRows - by_)).
Notation pt_of := (pt_of mi bx by_).
Definition pt (p : Z * Z) : point := pt_of (fst p) (snd p).
Definition cstart (r c : Z) := c / W r c * W r c.
Definition rstart (r c : Z) := r / H r c * H r c.

(** ** Where the blocks along the sides start *)
Lemma steps_inv : forall size lim (P : Z -> Prop), (forall i, 0 <= i < lim -> 1 <= size i) ->
  (forall i, 0 <= i < lim -> i + size i < lim -> P i -> P (i + size i)) ->
  forall f i, 0 <= i -> (i < lim -> P i) -> forall t, In t (steps size lim f i) -> 0 <= t < lim /\ P t.
Proof.
  intros size lim P SP ST. induction f as [|f IH]; intros i I0 PI t Ht; [destruct Ht|]. cbn [steps] in Ht. destruct (Z.ltb_spec i lim) as [L|L]; [|destruct Ht].
  pose proof (SP i ltac:(lia)). destruct Ht as [<-|Ht]; [split; [lia|exact (PI L)]|]. apply (IH (i + size i)); [lia| |exact Ht]. intros L2. apply ST; [lia|exact L2|exact (PI L)].
Qed.
Lemma topl_in : forall t, In t topl -> have_top = true /\ 0 <= t < w4 /\ (bw4 <= W (by_ - 1) bx /\ t = 0 \/ W (by_ - 1) bx < bw4 /\ W (by_ - 1) (bx + t) < bw4 /\ cstart (by_ - 1) (bx + t) = bx + t).
Proof.
  intros t Ht. unfold Find.topl in Ht. pose proof (w4_pos _ _ _ _ _ _ _ _ _ _ _ NB) as WP. case_eq have_top; intros HT; rewrite HT in Ht; [|destruct Ht]. split; [reflexivity|].
  destruct (Z.leb_spec bw4 (W (by_ - 1) bx)) as [L|L]; [destruct Ht as [<-|[]]; split; [clear - WP; lia|left; split; [exact L|reflexivity]]|].
  destruct (side_top _ _ _ _ _ _ _ _ _ _ _ ref NB HT) as (S1 & S2). destruct (nb_bx _ _ _ _ _ _ _ _ _ _ _ NB) as (_ & B & M). destruct (nb_bw _ _ _ _ _ _ _ _ _ _ _ NB) as (SB & _). pose proof (size_pos _ SB) as PB.
  destruct (steps_inv (sT mi bx by_) w4 (fun t => starts (sizeT mi by_) (bx + t))) with (f := 34%nat) (i := 0) (t := t) as (R & ST); [| |lia| |exact Ht|].
  - intros i Hi. pose proof (size_pos _ (sT_ok _ _ _ _ _ _ _ _ _ _ _ ref NB HT i Hi)) as P. clear - P; lia.
  - intros i Hi Hn P. unfold sT in Hn |- *. rewrite Z.add_assoc.
    apply (side_next (sizeT mi by_) bx (Z.min (bx + bw4) MiCols)) with (c := bx + i); try assumption; [clear - Hi; lia|].
    unfold sizeT. clear - Hn. lia.
  - intros _. rewrite Z.add_0_r. apply (side_start (sizeT mi by_) bx bw4 (Z.min (bx + bw4) MiCols)); try assumption; [clear - B M; lia|clear - B PB; lia].
  - split; [exact R|]. right. split; [exact L|]. split; [|exact ST]. exact (top_small _ _ _ _ _ _ _ _ _ _ _ ref NB HT L t R).
Qed.
Lemma leftl_in : forall t, In t leftl -> have_left = true /\ 0 <= t < h4 /\ (bh4 <= H by_ (bx - 1) /\ t = 0 \/ H by_ (bx - 1) < bh4 /\ H (by_ + t) (bx - 1) < bh4 /\ rstart (by_ + t) (bx - 1) = by_ + t).
Proof.
  intros t Ht. unfold Find.leftl in Ht. pose proof (h4_pos _ _ _ _ _ _ _ _ _ _ _ NB) as WP. case_eq have_left; intros HT; rewrite HT in Ht; [|destruct Ht]. split; [reflexivity|].
  destruct (Z.leb_spec bh4 (H by_ (bx - 1))) as [L|L]; [destruct Ht as [<-|[]]; split; [clear - WP; lia|left; split; [exact L|reflexivity]]|].
  destruct (side_left _ _ _ _ _ _ _ _ _ _ _ ref NB HT) as (S1 & S2). destruct (nb_by _ _ _ _ _ _ _ _ _ _ _ NB) as (_ & B & M). destruct (nb_bh _ _ _ _ _ _ _ _ _ _ _ NB) as (SB & _). pose proof (size_pos _ SB) as PB.
  destruct (steps_inv (sL mi bx by_) h4 (fun t => starts (sizeL mi bx) (by_ + t))) with (f := 34%nat) (i := 0) (t := t) as (R & ST); [| |lia| |exact Ht|].
  - intros i Hi. pose proof (size_pos _ (sL_ok _ _ _ _ _ _ _ _ _ _ _ ref NB HT i Hi)) as P. clear - P; lia.
  - intros i Hi Hn P. unfold sL in Hn |- *. rewrite Z.add_assoc.
    apply (side_next (sizeL mi bx) by_ (Z.min (by_ + bh4) MiRows)) with (c := by_ + i); try assumption; [clear - Hi; lia|].
    unfold sizeL. clear - Hn. lia.
  - intros _. rewrite Z.add_0_r. apply (side_start (sizeL mi bx) by_ bh4 (Z.min (by_ + bh4) MiRows)); try assumption; [clear - B M; lia|clear - B PB; lia].
  - split; [exact R|]. right. split; [exact L|]. split; [|exact ST]. exact (left_small _ _ _ _ _ _ _ _ _ _ _ ref NB HT L t R).
Qed.
Lemma top_avail : forall t, In t topl -> avail (by_ - 1) (bx + t) = true.
Proof. intros t Ht. destruct (topl_in t Ht) as (HT & R & _). apply (nb_top _ _ _ _ _ _ _ _ _ _ _ NB HT). clear - R. lia. Qed.
Lemma left_avail : forall t, In t leftl -> avail (by_ + t) (bx - 1) = true.
Proof. intros t Ht. destruct (leftl_in t Ht) as (HT & R & _). apply (nb_left _ _ _ _ _ _ _ _ _ _ _ NB HT). clear - R. lia. Qed.
Lemma top_mem : forall t, In t topl -> exists b, w_at k (-1) (bx + t) = Ok b /\ bs_w b = Ok (W (by_ - 1) (bx + t)) /\ bs_h b = Ok (H (by_ - 1) (bx + t)) /\
  rb_mvx b = Spec.MvCol (mi (by_ - 1) (bx + t)) /\ rb_mvy b = Spec.MvRow (mi (by_ - 1) (bx + t)) /\ size_ok (W (by_ - 1) (bx + t)) /\ size_ok (H (by_ - 1) (bx + t)).
Proof.
  intros t Ht. destruct (mem_at _ _ _ _ _ _ _ _ _ _ _ ref NB _ _ (top_avail t Ht) (row_top _ _ _ _ _ _ _ _ _ _ _ NB)) as (b & E1 & E2 & E3 & _ & E5 & E6 & S1 & S2).
  replace (by_ - 1 - by_) with (-1) in E1 by lia. exists b. tauto.
Qed.
Lemma left_mem : forall t, In t leftl -> exists b, w_at k t (bx - 1) = Ok b /\ bs_w b = Ok (W (by_ + t) (bx - 1)) /\ bs_h b = Ok (H (by_ + t) (bx - 1)) /\
  rb_mvx b = Spec.MvCol (mi (by_ + t) (bx - 1)) /\ rb_mvy b = Spec.MvRow (mi (by_ + t) (bx - 1)) /\ size_ok (W (by_ + t) (bx - 1)) /\ size_ok (H (by_ + t) (bx - 1)).
Proof.
  intros t Ht. destruct (leftl_in t Ht) as (_ & R & _). destruct (nb_bh _ _ _ _ _ _ _ _ _ _ _ NB) as (SB & _). pose proof (size_pos _ SB) as PB.
  destruct (mem_at _ _ _ _ _ _ _ _ _ _ _ ref NB _ _ (left_avail t Ht) (row_left _ _ _ _ _ _ _ _ _ _ _ NB (by_ + t) ltac:(clear - R PB; lia))) as (b & E1 & E2 & E3 & _ & E5 & E6 & S1 & S2).
  replace (by_ + t - by_) with t in E1 by lia. exists b. tauto.
Qed.

(** ** One sample *)
Lemma sample_ok : forall b r c dx dy sx sy pts, bs_w b = Ok (W r c) -> bs_h b = Ok (H r c) -> rb_mvx b = Spec.MvCol (mi r c) -> rb_mvy b = Spec.MvRow (mi r c) ->
  2 * dx + sx * W r c = 2 * (cstart r c - bx) + W r c -> 2 * dy + sy * H r c = 2 * (rstart r c - by_) + H r c -> zlen pts < 8 ->
  add_sample dx dy sx sy b pts = Ok (pts ++ [pt_of r c]).
Proof.
  intros b r c dx dy sx sy pts E1 E2 E3 E4 EX EY L. unfold add_sample. replace (zlen pts <? 8) with true by (clear - L; lia). rewrite E1, E2. cbn [obind]. rewrite EX, EY, E3, E4.
  unfold Samples.pt_of. fold (cstart r c) (rstart r c). cbv zeta. f_equal. f_equal. f_equal.
  replace (16 * (2 * (cstart r c - bx) + W r c) - 8) with ((cstart r c - bx) * 32 + 16 * W r c - 8) by ring. replace (16 * (2 * (rstart r c - by_) + H r c) - 8) with ((rstart r c - by_) * 32 + 16 * H r c - 8) by ring. reflexivity.
Qed.
Lemma dw_row_ok : forall ts off pts fuel, 0 <= off -> incr off 32 ts -> zlen pts + zlen ts <= 8 -> (length ts < fuel)%nat ->
  (forall t, In t ts -> In t topl /\ cstart (by_ - 1) (bx + t) = bx + t) -> dw_row k fuel off (xm off ts) pts = Ok (pts ++ map pt (map posT ts)).
Proof.
  destruct (nb_bx _ _ _ _ _ _ _ _ _ _ _ NB) as (KX & BX & _).
  induction ts as [|t ts IH]; intros off pts fuel O I L F G; (destruct fuel as [|fuel]; [exfalso; clear - F; cbn in F; lia|]); cbn [dw_row].
  - cbn [xm map]. rewrite andb_false_r, app_nil_r. reflexivity.
  - destruct (mask_step t ts off O I) as (M1 & M2 & M3). assert (ZL : zlen pts < 8) by (clear - L; unfold zlen in *; cbn [length] in L; lia). replace (zlen pts <? 8) with true by (clear - ZL; lia).
    replace (xm off (t :: ts) =? 0) with false by (symmetry; apply Z.eqb_neq; exact M3). cbn [negb andb]. rewrite M1. cbn [obind]. replace (off + (t - off)) with t by lia. rewrite KX, M2.
    destruct (G t (or_introl eq_refl)) as (G1 & G2). destruct (top_mem t G1) as (b & E1 & E2 & E3 & E5 & E6 & S1 & S2). rewrite E1. cbn [obind].
    rewrite (sample_ok b (by_ - 1) (bx + t) t 0 1 (-1) pts E2 E3 E5 E6); [|clear - G2; lia| |exact ZL].
    2:{ pose proof (top_bottom _ _ _ _ _ _ _ _ _ _ _ NB (bx + t) ltac:(destruct I; lia) (top_avail t G1) S2) as TB. unfold rstart. clear - TB. lia. }
    cbn [obind]. destruct I as (I1 & I2). rewrite (IH t); [|clear - O I1; lia|apply incr_weak with (t + 1); [lia|exact I2]| | |intros u Hu; apply G; right; exact Hu].
    + cbn [map]. rewrite <- app_assoc. reflexivity.
    + clear - L. unfold zlen in *. rewrite app_length. cbn [length] in *. lia.
    + clear - F. cbn [length] in F. lia.
Qed.
Lemma dw_col_ok : forall ts off pts fuel, 0 <= off -> incr off 32 ts -> zlen pts + zlen ts <= 8 -> (length ts < fuel)%nat ->
  (forall t, In t ts -> In t leftl /\ rstart (by_ + t) (bx - 1) = by_ + t) -> dw_col k fuel off (xm off ts) pts = Ok (pts ++ map pt (map posL ts)).
Proof.
  destruct (nb_bx _ _ _ _ _ _ _ _ _ _ _ NB) as (KX & BX & _).
  induction ts as [|t ts IH]; intros off pts fuel O I L F G; (destruct fuel as [|fuel]; [exfalso; clear - F; cbn in F; lia|]); cbn [dw_col].
  - cbn [xm map]. rewrite andb_false_r, app_nil_r. reflexivity.
  - destruct (mask_step t ts off O I) as (M1 & M2 & M3). assert (ZL : zlen pts < 8) by (clear - L; unfold zlen in *; cbn [length] in L; lia). replace (zlen pts <? 8) with true by (clear - ZL; lia).
    replace (xm off (t :: ts) =? 0) with false by (symmetry; apply Z.eqb_neq; exact M3). cbn [negb andb]. rewrite M1. cbn [obind]. replace (off + (t - off)) with t by lia. rewrite KX, M2.
    destruct (G t (or_introl eq_refl)) as (G1 & G2). destruct (left_mem t G1) as (b & E1 & E2 & E3 & E5 & E6 & S1 & S2). rewrite E1. cbn [obind].
    rewrite (sample_ok b (by_ + t) (bx - 1) 0 t (-1) 1 pts E2 E3 E5 E6); [| |clear - G2; lia|exact ZL].
    2:{ pose proof (left_right _ _ _ _ _ _ _ _ _ _ _ NB (by_ + t) ltac:(destruct I; lia) (left_avail t G1) S1) as TB. unfold cstart. clear - TB. lia. }
    cbn [obind]. destruct I as (I1 & I2). rewrite (IH t); [|clear - O I1; lia|apply incr_weak with (t + 1); [lia|exact I2]| | |intros u Hu; apply G; right; exact Hu].
    + cbn [map]. rewrite <- app_assoc. reflexivity.
    + clear - L. unfold zlen in *. rewrite app_length. cbn [length] in *. lia.
    + clear - F. cbn [length] in F. lia.
Qed.

(** ** The corners *)
Lemma start_range : forall v s, 1 <= s -> v / s * s <= v < v / s * s + s.
Proof. intros v s P. pose proof (Z.div_mod v s ltac:(lia)). pose proof (Z.mod_pos_bound v s ltac:(lia)). lia. Qed.
Lemma block_in : forall r c r' c', avail r c = true -> size_ok (W r c) -> size_ok (H r c) -> rstart r c <= r' < rstart r c + H r c -> cstart r c <= c' < cstart r c + W r c -> r' < MiRows -> c' < MiCols ->
  avail r' c' = true /\ mi r' c' = mi r c.
Proof.
  intros r c r' c' A S1 S2 R C R' C'. pose proof (size_pos _ S1) as Q1. pose proof (size_pos _ S2) as Q2. pose proof (start_range r (H r c) (proj1 Q2)) as Q3. pose proof (start_range c (W r c) (proj1 Q1)) as Q4. apply (nb_tile _ _ _ _ _ _ _ _ _ _ _ NB r c r' c' A); try assumption.
  - apply (same_div r r' (H r c) (r / H r c)); [clear - Q2; lia|exact Q3|exact R].
  - apply (same_div c c' (W r c) (c / W r c)); [clear - Q1; lia|exact Q4|exact C].
Qed.
Lemma mult_mod : forall v s n, 1 <= s -> v / s * s < n < v / s * s + s -> n mod s <> 0.
Proof. intros v s n P R E. apply Z.div_exact in E; [|lia]. assert (v / s < n / s < v / s + 1) by nia. lia. Qed.
Lemma tl_ok : hasTL = true -> avail (by_ - 1) (bx - 1) = true /\ cstart (by_ - 1) (bx - 1) + W (by_ - 1) (bx - 1) = bx /\ rstart (by_ - 1) (bx - 1) + H (by_ - 1) (bx - 1) = by_ /\
  size_ok (W (by_ - 1) (bx - 1)) /\ size_ok (H (by_ - 1) (bx - 1)).
Proof.
  intros E. unfold Masks.hasTL in E. apply andb_prop in E. destruct E as (E & EM). apply andb_prop in E. destruct E as (E1 & E2). apply negb_true_iff in E1, E2.
  assert (AV : avail (by_ - 1) (bx - 1) = true) by (unfold Samples.mt in EM; apply andb_prop in EM; destruct EM as (EM & _); apply andb_prop in EM; tauto).
  destruct (mem_at _ _ _ _ _ _ _ _ _ _ _ ref NB _ _ AV (row_top _ _ _ _ _ _ _ _ _ _ _ NB)) as (b & _ & _ & _ & _ & _ & _ & S1 & S2).
  pose proof (nb_tl _ _ _ _ _ _ _ _ _ _ _ NB) as TL. rewrite AV in TL. symmetry in TL. apply andb_prop in TL. destruct TL as (HT & HL).
  pose proof (size_pos _ S1) as P1. pose proof (size_pos _ S2) as P2.
  destruct (nb_bx _ _ _ _ _ _ _ _ _ _ _ NB) as (_ & B & M). destruct (nb_by _ _ _ _ _ _ _ _ _ _ _ NB) as (_ & B' & M').
  destruct (nb_bw _ _ _ _ _ _ _ _ _ _ _ NB) as (SB & _). destruct (nb_bh _ _ _ _ _ _ _ _ _ _ _ NB) as (SH & _).
  pose proof (start_range (bx - 1) (W (by_ - 1) (bx - 1)) (proj1 P1)) as RC. pose proof (start_range (by_ - 1) (H (by_ - 1) (bx - 1)) (proj1 P2)) as RR. fold (cstart (by_ - 1) (bx - 1)) in RC. fold (rstart (by_ - 1) (bx - 1)) in RR.
  split; [exact AV|]. split; [|split; [|split; assumption]].
  - destruct (Z.eq_dec (cstart (by_ - 1) (bx - 1) + W (by_ - 1) (bx - 1)) bx) as [e|N]; [exact e|exfalso].
    destruct (block_in (by_ - 1) (bx - 1) (by_ - 1) bx AV S1 S2 RR ltac:(clear - RC N; lia) ltac:(clear - B'; lia) ltac:(clear - B; lia)) as (_ & MI).
    assert (EW : W (by_ - 1) bx = W (by_ - 1) (bx - 1)) by (unfold Samples.W; rewrite MI; reflexivity).
    assert (NZ : bx mod W (by_ - 1) bx <> 0) by (rewrite EW; apply (mult_mod (bx - 1)); [clear - P1; lia|unfold cstart in *; clear - RC N; lia]).
    unfold Find.cutL1 in E1. rewrite HT in E1. cbn [andb] in E1. rewrite <- EW in S1, P1. apply andb_false_iff in E1. destruct E1 as [E1|E1].
    + apply Z.leb_gt in E1. apply NZ. apply (size_dvd _ bw4); [exact S1|exact SB|clear - E1; lia|exact M].
    + apply Z.ltb_ge in E1. pose proof (Z.mod_pos_bound bx (W (by_ - 1) bx) ltac:(clear - P1; lia)) as MB. clear - E1 MB NZ. lia.
  - destruct (Z.eq_dec (rstart (by_ - 1) (bx - 1) + H (by_ - 1) (bx - 1)) by_) as [e|N]; [exact e|exfalso].
    destruct (block_in (by_ - 1) (bx - 1) by_ (bx - 1) AV S1 S2 ltac:(clear - RR N; lia) RC ltac:(clear - B'; lia) ltac:(clear - B; lia)) as (_ & MI).
    assert (EW : H by_ (bx - 1) = H (by_ - 1) (bx - 1)) by (unfold Samples.H; rewrite MI; reflexivity).
    assert (NZ : by_ mod H by_ (bx - 1) <> 0) by (rewrite EW; apply (mult_mod (by_ - 1)); [clear - P2; lia|unfold rstart in *; clear - RR N; lia]).
    unfold Find.cutL2 in E2. rewrite HL in E2. cbn [andb] in E2. rewrite <- EW in S2, P2. apply andb_false_iff in E2. destruct E2 as [E2|E2].
    + apply Z.leb_gt in E2. apply NZ. apply (size_dvd _ bh4); [exact S2|exact SH|clear - E2; lia|exact M'].
    + apply Z.ltb_ge in E2. pose proof (Z.mod_pos_bound by_ (H by_ (bx - 1)) ltac:(clear - P2; lia)) as MB. clear - E2 MB NZ. lia.
Qed.
Lemma tr_ok : hasTR = true -> avail (by_ - 1) (bx + bw4) = true /\ cstart (by_ - 1) (bx + bw4) = bx + bw4 /\ rstart (by_ - 1) (bx + bw4) + H (by_ - 1) (bx + bw4) = by_ /\
  size_ok (W (by_ - 1) (bx + bw4)) /\ size_ok (H (by_ - 1) (bx + bw4)) /\ Z.max bw4 bh4 <= 16.
Proof.
  intros E. unfold Masks.hasTR in E. apply andb_prop in E. destruct E as (E & EM). apply andb_prop in E. destruct E as (E1 & E2). apply negb_true_iff in E1. apply Z.leb_le in E2.
  assert (AV : avail (by_ - 1) (bx + bw4) = true) by (unfold Samples.mt in EM; apply andb_prop in EM; destruct EM as (EM & _); apply andb_prop in EM; tauto).
  destruct (mem_at _ _ _ _ _ _ _ _ _ _ _ ref NB _ _ AV (row_top _ _ _ _ _ _ _ _ _ _ _ NB)) as (b & _ & _ & _ & _ & _ & _ & S1 & S2).
  pose proof (nb_tr _ _ _ _ _ _ _ _ _ _ _ NB E2) as TR. rewrite AV in TR. symmetry in TR. apply andb_prop in TR. destruct TR as (TR & _). apply andb_prop in TR. destruct TR as (HT & CE).
  pose proof (size_pos _ S1) as P1. pose proof (size_pos _ S2) as P2.
  destruct (nb_bx _ _ _ _ _ _ _ _ _ _ _ NB) as (_ & B & M). destruct (nb_by _ _ _ _ _ _ _ _ _ _ _ NB) as (_ & B' & M').
  destruct (nb_bw _ _ _ _ _ _ _ _ _ _ _ NB) as (SB & _). pose proof (size_pos _ SB) as PB.
  pose proof (start_range (bx + bw4) (W (by_ - 1) (bx + bw4)) (proj1 P1)) as RC. pose proof (start_range (by_ - 1) (H (by_ - 1) (bx + bw4)) (proj1 P2)) as RR. fold (cstart (by_ - 1) (bx + bw4)) in RC. fold (rstart (by_ - 1) (bx + bw4)) in RR.
  split; [exact AV|]. split; [|split; [|split; [exact S1|split; [exact S2|exact E2]]]].
  2:{ exact (top_bottom _ _ _ _ _ _ _ _ _ _ _ NB (bx + bw4) ltac:(clear - PB; lia) AV S2). }
  destruct (Z.eq_dec (cstart (by_ - 1) (bx + bw4)) (bx + bw4)) as [e|N]; [exact e|exfalso].
  destruct (nb_pos _ _ _ _ _ _ _ _ _ _ _ NB _ _ AV) as (_ & CB).
  assert (M2 : (bx + bw4) mod bw4 = 0) by (rewrite <- Zplus_mod_idemp_r, Z.mod_same, Z.add_0_r by (clear - PB; lia); exact M).
  assert (NZ : (bx + bw4) mod W (by_ - 1) (bx + bw4) <> 0).
  { apply (mult_mod (bx + bw4)); [clear - P1; lia|unfold cstart in *; clear - RC N; lia]. }
  destruct (Z_le_gt_dec (W (by_ - 1) (bx + bw4)) bw4) as [L|L]; [apply NZ; apply (size_dvd _ bw4); assumption|].
  assert (SL : cstart (by_ - 1) (bx + bw4) <= bx).
  { pose proof (size_rem _ _ (bx + bw4) SB S1 ltac:(clear - L; lia) M2) as Q. pose proof (Z.div_mod (bx + bw4) (W (by_ - 1) (bx + bw4)) ltac:(clear - P1; lia)) as D.
    assert (G : bw4 <= (bx + bw4) mod W (by_ - 1) (bx + bw4)).
    { pose proof (Z.mod_pos_bound (bx + bw4) (W (by_ - 1) (bx + bw4)) ltac:(clear - P1; lia)) as MB.
      assert (MM : ((bx + bw4) mod W (by_ - 1) (bx + bw4)) mod bw4 = 0).
      { revert S1 L M2. clear - SB. generalize (W (by_ - 1) (bx + bw4)), (bx + bw4). intros w v S1 L M2. destruct SB as [->|[->|[->|[->|[->| ->]]]]]; destruct S1 as [->|[->|[->|[->|[->| ->]]]]]; lia. }
      pose proof (Z.div_mod ((bx + bw4) mod W (by_ - 1) (bx + bw4)) bw4 ltac:(clear - PB; lia)) as D2. rewrite MM in D2. clear - D2 MB NZ PB. revert D2 MB NZ. generalize ((bx + bw4) mod W (by_ - 1) (bx + bw4)). intros v. generalize (v / bw4). intros q D2 MB NZ. destruct (Z_le_gt_dec q 0); nia. }
    unfold cstart. clear - D G. lia. }
  destruct (block_in (by_ - 1) (bx + bw4) (by_ - 1) bx AV S1 S2 RR ltac:(clear - RC SL PB; lia) ltac:(clear - B'; lia) ltac:(clear - B; lia)) as (_ & MI).
  assert (EW : W (by_ - 1) bx = W (by_ - 1) (bx + bw4)) by (unfold Samples.W; rewrite MI; reflexivity).
  unfold Find.cutR in E1. rewrite HT in E1. cbn [andb] in E1. rewrite EW in E1. replace (bw4 <=? _) with true in E1 by (clear - L; lia). cbn [andb] in E1. apply Z.ltb_ge in E1.
  pose proof (Z.div_mod bx (W (by_ - 1) (bx + bw4)) ltac:(clear - P1; lia)) as D.
  assert (DE : bx / W (by_ - 1) (bx + bw4) = (bx + bw4) / W (by_ - 1) (bx + bw4)).
  { apply same_div with ((bx + bw4) / W (by_ - 1) (bx + bw4)); [clear - P1; lia| |]; fold (cstart (by_ - 1) (bx + bw4)); clear - RC SL PB; lia. }
  rewrite DE in D. unfold cstart in *. clear - D E1 RC. lia.
Qed.
End Points.

(** The masks of find_matching_ref are those of the samples of the specification. *)
From Coq Require Import ZArith List Bool Lia.
From Verif Require Import Base.CInt Base.Loop Base.Lemmas Mc.ObmcModel Warp.Model Warp.Samples.
From Verif Require Warp.Spec.
Import ListNotations.
Open Scope Z_scope.
Local Open Scope outcome_scope.

Lemma u32_id : forall v, 0 <= v < 2 ^ 32 -> u32 v = v. Proof. intros v H. apply Z.mod_small. exact H. Qed.
(** The places visited along one side *)
Fixpoint steps (size : Z -> Z) (lim : Z) (fuel : nat) (i : Z) : list Z :=
  match fuel with
  | O => []
  | S fuel => if i <? lim then i :: steps size lim fuel (i + size i) else []
  end.
Lemma steps_fuel : forall size lim, (forall i, 0 <= i < lim -> 1 <= size i) -> forall f f' i, 0 <= i -> lim - i <= Z.of_nat f -> lim - i <= Z.of_nat f' ->
  steps size lim f i = steps size lim f' i.
Proof.
  intros size lim P. induction f as [|f IH]; intros f' i I0 F F'.
  - destruct f' as [|f']; [reflexivity|]. cbn [steps]. replace (i <? lim) with false by lia. reflexivity.
  - destruct f' as [|f']; cbn [steps]; destruct (Z.ltb_spec i lim) as [L|L]; try reflexivity; [cbn in F'; lia|]. f_equal. pose proof (P i ltac:(lia)). apply IH; lia.
Qed.
Lemma steps_incr : forall size lim, (forall i, 0 <= i < lim -> 1 <= size i) -> forall f i, 0 <= i -> incr i lim (steps size lim f i).
Proof.
  intros size lim P. induction f as [|f IH]; intros i I0; [exact I|]. cbn [steps]. destruct (Z.ltb_spec i lim) as [L|L]; [|exact I].
  pose proof (P i ltac:(lia)). split; [lia|]. apply incr_weak with (i + size i); [lia|]. apply IH. lia.
Qed.

Section Find.
Variables (k : warp_in) (mi : Z -> Z -> Spec.mode_info) (avail : Z -> Z -> bool) (have_top have_left : bool).
Variables (bx by_ MiRows MiCols bw4 bh4 ref : Z).
Hypothesis NB : nbhd k mi avail have_top have_left bx by_ MiRows MiCols bw4 bh4.
Notation W := (W mi).
Notation H := (H mi).
Notation mt := (mt mi avail ref).
Definition sT (i : Z) := W (by_ - 1) (bx + i).
Definition sL (i : Z) := H (by_ + i) (bx - 1).
Definition mtT (i : Z) := mt (by_ - 1) (bx + i).
Definition mtL (i : Z) := mt (by_ + i) (bx - 1).
Notation w4 := (Z.min bw4 (MiCols - bx)).
Notation h4 := (Z.min bh4 (MiRows - by_)).

Lemma sT_ok : have_top = true -> forall i, 0 <= i < w4 -> size_ok (sT i).
Proof.
  intros HT i Hi. assert (A : avail (by_ - 1) (bx + i) = true) by (apply (nb_top _ _ _ _ _ _ _ _ _ _ _ NB HT); clear - Hi; lia).
  destruct (mem_at _ _ _ _ _ _ _ _ _ _ _ ref NB _ _ A (row_top _ _ _ _ _ _ _ _ _ _ _ NB)) as (b & _ & _ & _ & _ & _ & _ & S1 & _). exact S1.
Qed.
Lemma sL_ok : have_left = true -> forall i, 0 <= i < h4 -> size_ok (sL i).
Proof.
  intros HT i Hi. assert (A : avail (by_ + i) (bx - 1) = true) by (apply (nb_left _ _ _ _ _ _ _ _ _ _ _ NB HT); clear - Hi; lia).
  destruct (nb_bh _ _ _ _ _ _ _ _ _ _ _ NB) as (SB & _). pose proof (size_pos _ SB) as PB.
  destruct (mem_at _ _ _ _ _ _ _ _ _ _ _ ref NB _ _ A (row_left _ _ _ _ _ _ _ _ _ _ _ NB (by_ + i) ltac:(clear - Hi PB; lia))) as (b & _ & _ & _ & _ & _ & _ & _ & S2). exact S2.
Qed.
Definition sizeT (c : Z) := W (by_ - 1) c.
Definition sizeL (r : Z) := H r (bx - 1).
Lemma side_top : have_top = true ->
  (forall c, bx <= c < Z.min (bx + bw4) MiCols -> size_ok (sizeT c)) /\
  (forall c c', bx <= c < Z.min (bx + bw4) MiCols -> bx <= c' < Z.min (bx + bw4) MiCols -> c' / sizeT c = c / sizeT c -> sizeT c' = sizeT c).
Proof.
  intros HT. split.
  - intros c Hc. pose proof (sT_ok HT (c - bx) ltac:(clear - Hc; lia)) as S0. unfold sT in S0. replace (bx + (c - bx)) with c in S0 by lia. exact S0.
  - intros c c' Hc Hc' E. pose proof (nb_top _ _ _ _ _ _ _ _ _ _ _ NB HT c Hc) as A. destruct (nb_by _ _ _ _ _ _ _ _ _ _ _ NB) as (_ & B & _).
    destruct (nb_tile _ _ _ _ _ _ _ _ _ _ _ NB (by_ - 1) c (by_ - 1) c' A eq_refl E ltac:(clear - B; lia) ltac:(clear - Hc'; lia)) as (_ & M).
    unfold sizeT, Samples.W. rewrite M. reflexivity.
Qed.
Lemma side_left : have_left = true ->
  (forall r, by_ <= r < Z.min (by_ + bh4) MiRows -> size_ok (sizeL r)) /\
  (forall r r', by_ <= r < Z.min (by_ + bh4) MiRows -> by_ <= r' < Z.min (by_ + bh4) MiRows -> r' / sizeL r = r / sizeL r -> sizeL r' = sizeL r).
Proof.
  intros HT. split.
  - intros r Hr. pose proof (sL_ok HT (r - by_) ltac:(clear - Hr; lia)) as S0. unfold sL in S0. replace (by_ + (r - by_)) with r in S0 by lia. exact S0.
  - intros c c' Hc Hc' E. pose proof (nb_left _ _ _ _ _ _ _ _ _ _ _ NB HT c Hc) as A. destruct (nb_bx _ _ _ _ _ _ _ _ _ _ _ NB) as (_ & B & _).
    destruct (nb_tile _ _ _ _ _ _ _ _ _ _ _ NB c (bx - 1) c' (bx - 1) A E eq_refl ltac:(clear - Hc'; lia) ltac:(clear - B; lia)) as (_ & M).
    unfold sizeL, Samples.H. rewrite M. reflexivity.
Qed.
Lemma top_small : have_top = true -> W (by_ - 1) bx < bw4 -> forall i, 0 <= i < w4 -> sT i < bw4.
Proof.
  intros HT SM i Hi. destruct (side_top HT) as (S1 & S2). destruct (nb_bx _ _ _ _ _ _ _ _ _ _ _ NB) as (_ & B & M). destruct (nb_bw _ _ _ _ _ _ _ _ _ _ _ NB) as (SB & _). pose proof (size_pos _ SB) as PB.
  apply (side_small sizeT bx bw4 (Z.min (bx + bw4) MiCols) SB); [clear - B M; lia|clear - B PB; lia|exact S1|exact S2|exact SM|clear - Hi; lia].
Qed.
Lemma left_small : have_left = true -> H by_ (bx - 1) < bh4 -> forall i, 0 <= i < h4 -> sL i < bh4.
Proof.
  intros HT SM i Hi. destruct (side_left HT) as (S1 & S2). destruct (nb_by _ _ _ _ _ _ _ _ _ _ _ NB) as (_ & B & M). destruct (nb_bh _ _ _ _ _ _ _ _ _ _ _ NB) as (SB & _). pose proof (size_pos _ SB) as PB.
  apply (side_small sizeL by_ bh4 (Z.min (by_ + bh4) MiRows) SB); [clear - B M; lia|clear - B PB; lia|exact S1|exact S2|exact SM|clear - Hi; lia].
Qed.

Lemma fmr_row_ok : have_top = true -> W (by_ - 1) bx < bw4 -> forall fuel x aw4 c mask s, 0 < x -> Z.max (w4 - x) 0 < Z.of_nat fuel -> c + aw4 = bx + x ->
  (x < 32 -> mask = 2 ^ x) -> 0 <= f_m0 s < 2 ^ x -> 0 <= f_count s < 8 ->
  let ms := filter mtT (steps sT w4 fuel x) in
  let got := firstn (Z.to_nat (8 - f_count s)) ms in
  fmr_row k w4 ref fuel x aw4 c mask s =
  Ok (8 <=? f_count s + zlen ms, {| f_count := f_count s + zlen got; f_m0 := f_m0 s + xm 0 got; f_m1 := f_m1 s; f_tl := f_tl s; f_tr := f_tr s |}).
Proof.
  intros HT SM. induction fuel as [|fuel IH]; intros x aw4 c mask s X0 FU C MK M0 CN; [exfalso; clear - FU; cbn in FU; lia|].
  cbn [steps fmr_row]. destruct (Z.ltb_spec x w4) as [L|L].
  2:{ cbv zeta. cbn [filter]. rewrite firstn_nil. unfold zlen. cbn [length xm]. rewrite !Z.add_0_r. replace (8 <=? f_count s) with false by (clear - CN; lia). destruct s; reflexivity. }
  destruct (nb_bx _ _ _ _ _ _ _ _ _ _ _ NB) as (_ & BX & BM). destruct (nb_bw _ _ _ _ _ _ _ _ _ _ _ NB) as (SB & B2). pose proof (size_pos _ SB) as PB.
  assert (X32 : x < 32) by (clear - L PB; lia).
  assert (AV : avail (by_ - 1) (bx + x) = true) by (apply (nb_top _ _ _ _ _ _ _ _ _ _ _ NB HT); clear - X0 L; lia).
  rewrite C. replace (w_at k (-1) (bx + x)) with (w_at k (by_ - 1 - by_) (bx + x)) by (rewrite ?(proj1 (nb_bx _ _ _ _ _ _ _ _ _ _ _ NB)); f_equal; lia).
  destruct (mem_at _ _ _ _ _ _ _ _ _ _ _ ref NB (by_ - 1) (bx + x) AV (row_top _ _ _ _ _ _ _ _ _ _ _ NB)) as (b & E1 & E2 & E3 & E4 & _ & _ & S1 & S2).
  change (matches ref b = mtT x) in E4. change (bs_w b = Ok (sT x)) in E2.
  rewrite  E1. cbn [obind]. unfold found0. rewrite E4. cbv zeta. cbn [filter]. specialize (MK X32). subst mask.
  pose proof (size_pos (sT x) S1) as P1.
  assert (SMx : sT x < bw4) by (apply (top_small HT SM x); clear - X0 L; lia).
  assert (NX : forall s', 0 <= f_m0 s' < 2 ^ (x + sT x) -> 0 <= f_count s' < 8 -> let ms := filter mtT (steps sT w4 fuel (x + sT x)) in
    let got := firstn (Z.to_nat (8 - f_count s')) ms in
    fmr_row k w4 ref fuel (x + sT x) (sT x) (bx + x) (u32 (Z.shiftl (2 ^ x) (sT x))) s' =
    Ok (8 <=? f_count s' + zlen ms, {| f_count := f_count s' + zlen got; f_m0 := f_m0 s' + xm 0 got; f_m1 := f_m1 s'; f_tl := f_tl s'; f_tr := f_tr s' |})).
  { intros s' A1 A2. apply IH; [clear - X0 P1; lia|clear - FU P1 L; lia|lia| |exact A1|exact A2].
    intros Y. rewrite Z.shiftl_mul_pow2, <- Z.pow_add_r by (clear - X0 P1; lia). apply u32_id. split; [apply Z.pow_nonneg; lia|]. apply Z.pow_lt_mono_r; clear - Y X0 P1; lia. }
  assert (PX : 0 < 2 ^ x) by (apply Z.pow_pos_nonneg; clear - X0; lia).
  assert (PP : 2 * 2 ^ x <= 2 ^ (x + sT x)).
  { rewrite <- Z.pow_succ_r by (clear - X0; lia). apply Z.pow_le_mono_r; clear - P1 X0; lia. }
  destruct (mtT x) eqn:MT.
  - rewrite lor_new by (first [exact M0|clear - X0; lia]). destruct (Z.leb_spec 8 (f_count s + 1)) as [C8|C8].
    + replace (8 - f_count s) with 1 by (clear - C8 CN; lia). change (Z.to_nat 1) with 1%nat. cbn [firstn]. unfold zlen. cbn [length xm]. rewrite !Z.sub_0_r, !Z.add_0_r.
      match goal with |- _ = Ok (?t, _) => replace t with true by (clear - C8; lia) end. reflexivity.
    + rewrite E2. cbn [obind]. replace (sT x <? 32) with true by (clear - SMx PB; lia).
      rewrite NX; [|cbn [f_m0]; clear - M0 PP PX; lia|cbn [f_count]; clear - CN C8; lia]. cbn [f_count f_m0 f_m1 f_tl f_tr].
      replace (Z.to_nat (8 - f_count s)) with (Datatypes.S (Z.to_nat (8 - (f_count s + 1)))) by (clear - C8 CN; lia). cbn [firstn xm]. unfold zlen. cbn [length].
      f_equal. f_equal; [f_equal; lia|]. f_equal; rewrite ?Z.sub_0_r; lia.
  - rewrite E2. cbn [obind]. replace (sT x <? 32) with true by (clear - SMx PB; lia).
    rewrite NX; [reflexivity| |exact CN]. clear - M0 PP PX. lia.
Qed.

Lemma fmr_col_ok : have_left = true -> H by_ (bx - 1) < bh4 -> forall fuel x aw4 c mask s, 0 < x -> Z.max (h4 - x) 0 < Z.of_nat fuel -> c + aw4 = 0 + x ->
  (x < 32 -> mask = 2 ^ x) -> 0 <= f_m1 s < 2 ^ x -> 0 <= f_count s < 8 ->
  let ms := filter mtL (steps sL h4 fuel x) in
  let got := firstn (Z.to_nat (8 - f_count s)) ms in
  fmr_col k h4 ref fuel x aw4 c mask s =
  Ok (8 <=? f_count s + zlen ms, {| f_count := f_count s + zlen got; f_m0 := f_m0 s; f_m1 := f_m1 s + xm 0 got; f_tl := f_tl s; f_tr := f_tr s |}).
Proof.
  intros HT SM. induction fuel as [|fuel IH]; intros x aw4 c mask s X0 FU C MK M0 CN; [exfalso; clear - FU; cbn in FU; lia|].
  cbn [steps fmr_col]. destruct (Z.ltb_spec x h4) as [L|L].
  2:{ cbv zeta. cbn [filter]. rewrite firstn_nil. unfold zlen. cbn [length xm]. rewrite !Z.add_0_r. replace (8 <=? f_count s) with false by (clear - CN; lia). destruct s; reflexivity. }
  destruct (nb_by _ _ _ _ _ _ _ _ _ _ _ NB) as (_ & BX & BM). destruct (nb_bh _ _ _ _ _ _ _ _ _ _ _ NB) as (SB & B2). pose proof (size_pos _ SB) as PB.
  assert (X32 : x < 32) by (clear - L PB; lia).
  assert (AV : avail (by_ + x) (bx - 1) = true) by (apply (nb_left _ _ _ _ _ _ _ _ _ _ _ NB HT); clear - X0 L; lia).
  rewrite C. replace (w_at k (0 + x) (w_bx k - 1)) with (w_at k (by_ + x - by_) (bx - 1)) by (rewrite ?(proj1 (nb_bx _ _ _ _ _ _ _ _ _ _ _ NB)); f_equal; lia).
  destruct (mem_at _ _ _ _ _ _ _ _ _ _ _ ref NB (by_ + x) (bx - 1) AV (row_left _ _ _ _ _ _ _ _ _ _ _ NB (by_ + x) ltac:(clear - X0 X32; lia))) as (b & E1 & E2 & E3 & E4 & _ & _ & S1 & S2).
  change (matches ref b = mtL x) in E4. change (bs_h b = Ok (sL x)) in E3.
  rewrite  E1. cbn [obind]. unfold found1. rewrite E4. cbv zeta. cbn [filter]. specialize (MK X32). subst mask.
  pose proof (size_pos (sL x) S2) as P1.
  assert (SMx : sL x < bh4) by (apply (left_small HT SM x); clear - X0 L; lia).
  assert (NX : forall s', 0 <= f_m1 s' < 2 ^ (x + sL x) -> 0 <= f_count s' < 8 -> let ms := filter mtL (steps sL h4 fuel (x + sL x)) in
    let got := firstn (Z.to_nat (8 - f_count s')) ms in
    fmr_col k h4 ref fuel (x + sL x) (sL x) (0 + x) (u32 (Z.shiftl (2 ^ x) (sL x))) s' =
    Ok (8 <=? f_count s' + zlen ms, {| f_count := f_count s' + zlen got; f_m0 := f_m0 s'; f_m1 := f_m1 s' + xm 0 got; f_tl := f_tl s'; f_tr := f_tr s' |})).
  { intros s' A1 A2. apply IH; [clear - X0 P1; lia|clear - FU P1 L; lia|lia| |exact A1|exact A2].
    intros Y. rewrite Z.shiftl_mul_pow2, <- Z.pow_add_r by (clear - X0 P1; lia). apply u32_id. split; [apply Z.pow_nonneg; lia|]. apply Z.pow_lt_mono_r; clear - Y X0 P1; lia. }
  assert (PX : 0 < 2 ^ x) by (apply Z.pow_pos_nonneg; clear - X0; lia).
  assert (PP : 2 * 2 ^ x <= 2 ^ (x + sL x)).
  { rewrite <- Z.pow_succ_r by (clear - X0; lia). apply Z.pow_le_mono_r; clear - P1 X0; lia. }
  destruct (mtL x) eqn:MT.
  - rewrite lor_new by (first [exact M0|clear - X0; lia]). destruct (Z.leb_spec 8 (f_count s + 1)) as [C8|C8].
    + replace (8 - f_count s) with 1 by (clear - C8 CN; lia). change (Z.to_nat 1) with 1%nat. cbn [firstn]. unfold zlen. cbn [length xm]. rewrite !Z.sub_0_r, !Z.add_0_r.
      match goal with |- _ = Ok (?t, _) => replace t with true by (clear - C8; lia) end. reflexivity.
    + rewrite E3. cbn [obind]. replace (sL x <? 32) with true by (clear - SMx PB; lia).
      rewrite NX; [|cbn [f_m1]; clear - M0 PP PX; lia|cbn [f_count]; clear - CN C8; lia]. cbn [f_count f_m0 f_m1 f_tl f_tr].
      replace (Z.to_nat (8 - f_count s)) with (Datatypes.S (Z.to_nat (8 - (f_count s + 1)))) by (clear - C8 CN; lia). cbn [firstn xm]. unfold zlen. cbn [length].
      f_equal. f_equal; [f_equal; lia|]. f_equal; rewrite ?Z.sub_0_r; lia.
  - rewrite E3. cbn [obind]. replace (sL x <? 32) with true by (clear - SMx PB; lia).
    rewrite NX; [reflexivity| |exact CN]. clear - M0 PP PX. lia.
Qed.
Lemma steps_S : forall s w f x, steps s w (Datatypes.S f) x = if x <? w then x :: steps s w f (x + s x) else [].
Proof. reflexivity. Qed.
Lemma size_31 : forall a b, size_ok a -> size_ok b -> a < b -> (a <? 31) = true.
Proof. intros a b A B L. apply Z.ltb_lt. destruct A as [->|[->|[->|[->|[->| ->]]]]]; destruct B as [->|[->|[->|[->|[->| ->]]]]]; lia. Qed.
Definition topl : list Z := if have_top then if bw4 <=? W (by_ - 1) bx then [0] else steps sT w4 34 0 else [].
Definition leftl : list Z := if have_left then if bh4 <=? H by_ (bx - 1) then [0] else steps sL h4 34 0 else [].
Definition Tm : list Z := filter mtT topl.
Definition Lm : list Z := filter mtL leftl.
Definition cutL1 : bool := have_top && ((bw4 <=? W (by_ - 1) bx) && (- (bx mod W (by_ - 1) bx) <? 0)).
Definition cutR : bool := have_top && ((bw4 <=? W (by_ - 1) bx) && (bw4 <? - (bx mod W (by_ - 1) bx) + W (by_ - 1) bx)).
Definition cutL2 : bool := have_left && ((bh4 <=? H by_ (bx - 1)) && (- (by_ mod H by_ (bx - 1)) <? 0)).
Lemma w4_pos : 1 <= w4 <= 32.
Proof. destruct (nb_bx _ _ _ _ _ _ _ _ _ _ _ NB) as (_ & B & _). destruct (nb_bw _ _ _ _ _ _ _ _ _ _ _ NB) as (SB & B2). pose proof (size_pos _ SB). lia. Qed.
Lemma h4_pos : 1 <= h4 <= 32.
Proof. destruct (nb_by _ _ _ _ _ _ _ _ _ _ _ NB) as (_ & B & _). destruct (nb_bh _ _ _ _ _ _ _ _ _ _ _ NB) as (SB & B2). pose proof (size_pos _ SB). lia. Qed.
Lemma and_not_if : forall b c : bool, (if c then false else b) = b && negb c. Proof. intros [] []; reflexivity. Qed.
Lemma neq0_lt : forall a n, 0 < n -> negb (a mod n =? 0) = (- (a mod n) <? 0).
Proof. intros a n P. pose proof (Z.mod_pos_bound a n P). destruct (Z.eqb_spec (a mod n) 0); destruct (Z.ltb_spec (- (a mod n)) 0); try reflexivity; lia. Qed.
Lemma fmr_top_ok : forall tl tr,
  fmr_top k bw4 w4 have_top ref {| f_count := 0; f_m0 := 0; f_m1 := 0; f_tl := tl; f_tr := tr |} =
  Ok (8 <=? zlen Tm, {| f_count := zlen (firstn 8 Tm); f_m0 := xm 0 (firstn 8 Tm); f_m1 := 0; f_tl := tl && negb cutL1; f_tr := tr && negb cutR |}).
Proof.
  intros tl tr. unfold fmr_top, Tm, topl, cutL1, cutR. destruct (ex_intro (fun n => n = 33%nat) 33%nat eq_refl) as (fu & EF). rewrite <- EF. case_eq have_top; intros HT; [|cbn [filter firstn xm andb negb]; rewrite !andb_true_r; reflexivity].
  destruct (nb_bx _ _ _ _ _ _ _ _ _ _ _ NB) as (KX & BX & BM). rewrite KX. pose proof w4_pos as WP.
  assert (AV : avail (by_ - 1) bx = true) by (apply (nb_top _ _ _ _ _ _ _ _ _ _ _ NB HT); clear - WP; lia).
  destruct (mem_at _ _ _ _ _ _ _ _ _ _ _ ref NB _ _ AV (row_top _ _ _ _ _ _ _ _ _ _ _ NB)) as (b & E1 & E2 & E3 & E4 & _ & _ & S1 & S2).
  replace (by_ - 1 - by_) with (-1) in E1 by lia. rewrite E1. cbn [obind]. rewrite E2. cbn [obind]. pose proof (size_pos _ S1) as P1.
  unfold found0. rewrite E4. cbn [f_count f_m0 f_m1 f_tl f_tr]. change (Z.lor 0 1) with 1. change (0 + 1) with 1. change (8 <=? 1) with false.
  assert (EM : mt (by_ - 1) bx = mtT 0) by (unfold mtT; rewrite Z.add_0_r; reflexivity). rewrite EM.
  destruct (Z.leb_spec bw4 (W (by_ - 1) bx)) as [L|L].
  - rewrite land_size by (first [exact S1|clear - BX; lia]). unfold cut_tl, cut_tr. rewrite !and_not_if, neq0_lt by (clear - P1; lia). cbn [filter]. rewrite Z.add_opp_l. cbn [andb].
    destruct (mtT 0); cbn [snd f_count f_m0 f_m1 f_tl f_tr]; reflexivity.
  - destruct (nb_bw _ _ _ _ _ _ _ _ _ _ _ NB) as (SB & B2). pose proof (size_pos _ SB) as PB. replace (W (by_ - 1) bx <? 31) with true by (symmetry; exact (size_31 _ _ S1 SB L)).
    cbn [andb negb]. rewrite !andb_true_r.
    set (st := snd (if mtT 0 then _ else _)). assert (ST : st = {| f_count := b2z (mtT 0); f_m0 := b2z (mtT 0); f_m1 := 0; f_tl := tl; f_tr := tr |}) by (unfold st; clear; destruct (mtT 0); cbn; reflexivity).
    rewrite ST. clear st ST. rewrite Z.shiftl_1_l.
    assert (W2 : 2 <= 2 ^ W (by_ - 1) bx) by (change 2 with (2 ^ 1) at 1; apply Z.pow_le_mono_r; clear - P1; lia).
    rewrite fmr_row_ok; [|exact HT|exact L|clear - P1; lia|clear - WP P1 EF; rewrite EF; change (Z.of_nat 33) with 33; lia|reflexivity|reflexivity|cbn [f_m0]; clear - W2; destruct (mtT 0); cbn [b2z]; lia|cbn [f_count]; destruct (mtT 0); cbn [b2z]; lia].
    cbn [f_count f_m0 f_m1 f_tl f_tr]. rewrite (steps_S sT w4 fu 0). replace (0 <? w4) with true by (clear - WP; lia).
    replace (0 + sT 0) with (W (by_ - 1) bx) by (unfold sT; rewrite Z.add_0_r; reflexivity). cbn [filter]. generalize (filter mtT (steps sT w4 fu (W (by_ - 1) bx))). intros rest. destruct (mtT 0); cbn [b2z].
    + change (Z.to_nat (8 - 1)) with 7%nat. cbn [firstn xm]. unfold zlen. cbn [length]. rewrite !Nat2Z.inj_succ, <- !Z.add_1_l. reflexivity.
    + change (Z.to_nat (8 - 0)) with 8%nat. rewrite !Z.add_0_l. reflexivity.
Qed.
Lemma fmr_left_ok : forall n m tl tr, 0 <= n < 8 -> exists tl',
  fmr_left k bh4 h4 have_left ref {| f_count := n; f_m0 := m; f_m1 := 0; f_tl := tl; f_tr := tr |} =
  Ok (8 <=? n + zlen Lm, {| f_count := n + zlen (firstn (Z.to_nat (8 - n)) Lm); f_m0 := m; f_m1 := xm 0 (firstn (Z.to_nat (8 - n)) Lm); f_tl := tl'; f_tr := tr |}) /\
  (n + zlen Lm < 8 -> tl' = tl && negb cutL2).
Proof.
  intros n m tl tr N. unfold fmr_left, Lm, leftl, cutL2. destruct (ex_intro (fun n => n = 33%nat) 33%nat eq_refl) as (fu & EF). rewrite <- EF. case_eq have_left; intros HT.
  2:{ exists tl. cbn [filter]. rewrite firstn_nil. unfold zlen. cbn [xm andb negb length]. rewrite !Z.add_0_r, !andb_true_r. replace (8 <=? n) with false by (clear - N; lia). split; reflexivity. }
  destruct (nb_by _ _ _ _ _ _ _ _ _ _ _ NB) as (KY & BY & BM). destruct (nb_bx _ _ _ _ _ _ _ _ _ _ _ NB) as (KX & _ & _). rewrite KX, KY. pose proof h4_pos as WP.
  assert (AV : avail by_ (bx - 1) = true) by (apply (nb_left _ _ _ _ _ _ _ _ _ _ _ NB HT); clear - WP; lia).
  destruct (mem_at _ _ _ _ _ _ _ _ _ _ _ ref NB _ _ AV (row_left _ _ _ _ _ _ _ _ _ _ _ NB by_ ltac:(lia))) as (b & E1 & E2 & E3 & E4 & _ & _ & S1 & S2).
  replace (by_ - by_) with 0 in E1 by lia. rewrite E1. cbn [obind]. pose proof (size_pos _ S2) as P1.
  unfold found1. rewrite E4. cbn [f_count f_m0 f_m1 f_tl f_tr]. change (Z.lor 0 1) with 1.
  assert (EM : mt by_ (bx - 1) = mtL 0) by (unfold mtL; rewrite Z.add_0_r; reflexivity). rewrite EM.
  set (G := fun s => let! lh4 := bs_h b in (if bh4 <=? lh4 then Ok (false, cut_tl (negb (Z.land by_ (lh4 - 1) =? 0)) s) else guard! lh4 <? 31 in fmr_col k h4 ref fu lh4 lh4 0 (Z.shiftl 1 lh4) s)).
  assert (GOAL : forall (c : bool), n + b2z c < 8 -> exists tl',
    G {| f_count := n + b2z c; f_m0 := m; f_m1 := b2z c; f_tl := tl; f_tr := tr |} =
    Ok (8 <=? n + b2z c + zlen (if bh4 <=? H by_ (bx - 1) then [] else filter mtL (steps sL h4 fu (H by_ (bx - 1)))),
        {| f_count := n + b2z c + zlen (firstn (Z.to_nat (8 - (n + b2z c))) (if bh4 <=? H by_ (bx - 1) then [] else filter mtL (steps sL h4 fu (H by_ (bx - 1)))));
           f_m0 := m; f_m1 := b2z c + xm 0 (firstn (Z.to_nat (8 - (n + b2z c))) (if bh4 <=? H by_ (bx - 1) then [] else filter mtL (steps sL h4 fu (H by_ (bx - 1))))); f_tl := tl'; f_tr := tr |}) /\
    tl' = tl && negb ((bh4 <=? H by_ (bx - 1)) && (- (by_ mod H by_ (bx - 1)) <? 0))).
  { intros c NC. unfold G. rewrite E3. cbn [obind]. destruct (Z.leb_spec bh4 (H by_ (bx - 1))) as [L|L].
    - rewrite land_size by (first [exact S2|clear - BY; lia]). unfold cut_tl. rewrite !and_not_if, neq0_lt by (clear - P1; lia). cbn [f_count f_m0 f_m1 f_tl f_tr]. rewrite firstn_nil. unfold zlen. cbn [xm length andb]. rewrite !Z.add_0_r.
      replace (8 <=? n + b2z c) with false by (clear - NC; lia). eexists. split; reflexivity.
    - destruct (nb_bh _ _ _ _ _ _ _ _ _ _ _ NB) as (SB & B2). pose proof (size_pos _ SB) as PB. replace (H by_ (bx - 1) <? 31) with true by (symmetry; exact (size_31 _ _ S2 SB L)).
      rewrite Z.shiftl_1_l. assert (W2 : 2 <= 2 ^ H by_ (bx - 1)) by (change 2 with (2 ^ 1) at 1; apply Z.pow_le_mono_r; clear - P1; lia).
      exists tl. cbn [andb negb]. rewrite andb_true_r. split; [|reflexivity].
      rewrite fmr_col_ok; [reflexivity|exact HT|exact L|clear - P1; lia|clear - WP P1 EF; rewrite EF; change (Z.of_nat 33) with 33; lia|reflexivity|reflexivity|cbn [f_m1]; clear - W2; destruct c; cbn [b2z]; lia|cbn [f_count]; clear - N NC; destruct c; cbn [b2z] in *; lia]. }
  assert (LL : filter mtL (if bh4 <=? H by_ (bx - 1) then [0] else steps sL h4 (Datatypes.S fu) 0) = (if mtL 0 then [0] else []) ++ (if bh4 <=? H by_ (bx - 1) then [] else filter mtL (steps sL h4 fu (H by_ (bx - 1))))).
  { destruct (bh4 <=? H by_ (bx - 1)); [cbn [filter]; destruct (mtL 0); reflexivity|]. rewrite (steps_S sL h4 fu 0). replace (0 <? h4) with true by (clear - WP; lia).
    replace (0 + sL 0) with (H by_ (bx - 1)) by (unfold sL; rewrite Z.add_0_r; reflexivity). cbn [filter]. destruct (mtL 0); reflexivity. }
  rewrite LL. clear LL. fold (cut_tl). generalize dependent (if bh4 <=? H by_ (bx - 1) then [] else filter mtL (steps sL h4 fu (H by_ (bx - 1)))). intros rest GOAL.
  destruct (mtL 0); cbn [app].
  - destruct (Z.leb_spec 8 (n + 1)) as [C8|C8].
    + exists tl. assert (n = 7) by (clear - N C8; lia). subst n. change (Z.to_nat (8 - 7)) with 1%nat. cbn [firstn xm]. unfold zlen. cbn [length].
      split; [|intros; lia]. assert (B8 : (8 <=? 7 + Z.of_nat (Datatypes.S (length rest))) = true) by (apply Z.leb_le; lia). rewrite B8. reflexivity.
    + destruct (GOAL true C8) as (tl' & E & ET). exists tl'. cbn [b2z] in *. split; [|intros _; exact ET]. fold (G {| f_count := n + 1; f_m0 := m; f_m1 := 1; f_tl := tl; f_tr := tr |}). rewrite E.
      replace (Z.to_nat (8 - n)) with (Datatypes.S (Z.to_nat (8 - (n + 1)))) by (clear - C8 N; lia). cbn [firstn xm]. unfold zlen. cbn [length]. rewrite !Nat2Z.inj_succ, <- !Z.add_1_l, !Z.add_assoc. reflexivity.
  - destruct (GOAL false ltac:(cbn [b2z]; lia)) as (tl' & E & ET). exists tl'. cbn [b2z] in *. rewrite Z.add_0_r in E. split; [|intros _; exact ET]. fold (G {| f_count := n; f_m0 := m; f_m1 := 0; f_tl := tl; f_tr := tr |}). rewrite E. reflexivity.
Qed.
End Find.

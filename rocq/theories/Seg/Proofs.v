(** Proofs about segment ids. *)
From Coq Require Import ZArith List Bool Lia.
From Verif Require Import Base.CInt Base.Lemmas Seg.Model Seg.Spec.
Import ListNotations.
Open Scope Z_scope.

Lemma land1 : forall d, z2b (Z.land d 1) = Z.odd d.
Proof.
  intros d. change 1 with (Z.ones 1). rewrite Z.land_ones by lia. change (2 ^ 1) with 2.
  rewrite Zmod_odd. unfold z2b. destruct (Z.odd d); reflexivity.
Qed.
Lemma nd_spec : forall d r m, neg_deinterleave d r m = deinterleave d r m.
Proof.
  intros d r m. unfold neg_deinterleave, deinterleave. rewrite !land1, !shiftr_div by lia.
  change (2 ^ 1) with 2. rewrite Z.geb_leb. reflexivity.
Qed.
Lemma odd_cases : forall d, (Z.odd d = true /\ exists k, d = 2 * k + 1) \/ (Z.odd d = false /\ exists k, d = 2 * k).
Proof.
  intros d. rewrite (Zdiv2_odd_eqn d). generalize (Z.div2 d). intros k. destruct (Z.odd d) eqn:E.
  - left. split; [|exists k; lia]. rewrite Z.odd_add, Z.odd_mul. reflexivity.
  - right. split; [|exists k; lia]. rewrite Z.odd_add, Z.odd_mul. reflexivity.
Qed.
(** The inverse: the symbol that codes id [x]. *)
Definition interleave (x r m : Z) : Z :=
  if r =? 0 then x
  else if m - 1 <=? r then m - x - 1
  else if 2 * r <? m then
    if 2 * r <? x then x else if r <? x then 2 * (x - r) - 1 else 2 * (r - x)
  else
    if x <=? 2 * r - m then m - 1 - x else if r <? x then 2 * (x - r) - 1 else 2 * (r - x).
Ltac ifs := repeat match goal with |- context [if ?c then _ else _] =>
  lazymatch c with Z.odd _ => fail | _ => destruct c eqn:? end end.
Ltac bools := repeat match goal with
  | H : (_ =? _) = true |- _ => apply Z.eqb_eq in H
  | H : (_ =? _) = false |- _ => apply Z.eqb_neq in H
  | H : (_ <? _) = true |- _ => apply Z.ltb_lt in H
  | H : (_ <? _) = false |- _ => apply Z.ltb_ge in H
  | H : (_ <=? _) = true |- _ => apply Z.leb_le in H
  | H : (_ <=? _) = false |- _ => apply Z.leb_gt in H
  | H : (_ >=? _) = _ |- _ => rewrite Z.geb_leb in H end.
Lemma half_odd : forall k, (2 * k + 1 + 1) / 2 = k + 1. Proof. intros. replace (2 * k + 1 + 1) with ((k + 1) * 2) by lia. apply Z.div_mul. lia. Qed.
Lemma half_even : forall k, (2 * k) / 2 = k. Proof. intros. rewrite Z.mul_comm. apply Z.div_mul. lia. Qed.
Lemma dei_range : forall d r m, 0 <= r < m -> 0 <= d < m -> 0 <= deinterleave d r m < m.
Proof.
  intros d r m R D. unfold deinterleave.
  destruct (odd_cases d) as [(O & k & ->)|(O & k & ->)]; rewrite O; rewrite ?half_odd, ?half_even; ifs; bools; lia.
Qed.
Lemma dei_inter : forall d r m, 0 <= r < m -> 0 <= d < m -> interleave (deinterleave d r m) r m = d.
Proof.
  intros d r m R D. unfold deinterleave.
  destruct (odd_cases d) as [(O & k & ->)|(O & k & ->)]; rewrite O; rewrite ?half_odd, ?half_even;
    unfold interleave; ifs; bools; lia.
Qed.
Lemma odd_m1 : forall k, Z.odd (2 * k - 1) = true. Proof. intros. rewrite Z.odd_sub, Z.odd_mul. reflexivity. Qed.
Lemma odd_ev : forall k, Z.odd (2 * k) = false. Proof. intros. rewrite Z.odd_mul. reflexivity. Qed.
Lemma half_m1 : forall k, (2 * k - 1 + 1) / 2 = k. Proof. intros. replace (2 * k - 1 + 1) with (k * 2) by lia. apply Z.div_mul. lia. Qed.
Lemma inter_dei : forall x r m, 0 <= r < m -> 0 <= x < m -> deinterleave (interleave x r m) r m = x.
Proof.
  intros x r m R X. unfold interleave. ifs; bools; unfold deinterleave;
    rewrite ?odd_m1, ?odd_ev, ?half_m1, ?half_even; ifs; bools; try lia.
Qed.
Lemma inter_range : forall x r m, 0 <= r < m -> 0 <= x < m -> 0 <= interleave x r m < m.
Proof. intros x r m R X. unfold interleave. ifs; bools; lia. Qed.

(** Explicitly coded ids. *)
Lemma coded_eq : forall d r l, 0 <= l <= 7 -> 0 <= r <= l -> 0 <= d <= 7 ->
  coded_seg_id d r l = let x := deinterleave d r (l + 1) in if (0 <=? x) && (x <=? l) then x else 0.
Proof.
  intros d r l L R D. unfold coded_seg_id. rewrite (u32_id l) by lia. rewrite (u32_id (l + 1)) by lia.
  rewrite !s32_id by lia. rewrite nd_spec. cbv zeta. set (x := deinterleave d r (l + 1)).
  assert (B : -16 <= x <= 16).
  { unfold x, deinterleave. assert (0 <= d / 2 <= 4) by (split; [apply Z.div_pos|apply Z.div_le_upper_bound]; lia).
    assert (0 <= (d + 1) / 2 <= 4) by (split; [apply Z.div_pos|apply Z.div_le_upper_bound]; lia).
    ifs; bools; try lia; destruct (Z.odd d); lia. }
  destruct (Z.leb_spec 0 x) as [P|P]; cbn [andb].
  - rewrite u8_id by (change (2 ^ 8) with 256; lia). destruct (Z.ltb_spec l x), (Z.leb_spec x l); try lia.
    + reflexivity.
    + destruct (Z.leb_spec 8 x); lia.
  - assert (E : u8 x = x + 256). { unfold u8. change (2 ^ 8) with 256. replace x with ((x + 256) + (-1) * 256) at 1 by lia. rewrite Z.mod_add by lia. apply Z.mod_small. lia. }
    rewrite E. destruct (Z.ltb_spec l (x + 256)); [reflexivity|lia].
Qed.
Lemma coded_in_range : forall d r l, 0 <= l <= 7 -> 0 <= r <= l -> 0 <= d <= l ->
  coded_seg_id d r l = spec_coded d r l.
Proof.
  intros d r l L R D. rewrite coded_eq by lia. cbv zeta. unfold spec_coded, Clip3.
  pose proof (dei_range d r (l + 1) ltac:(lia) ltac:(lia)) as X.
  destruct (Z.leb_spec 0 (deinterleave d r (l + 1))), (Z.leb_spec (deinterleave d r (l + 1)) l),
    (Z.ltb_spec (deinterleave d r (l + 1)) 0), (Z.ltb_spec l (deinterleave d r (l + 1))); cbn [andb]; lia.
Qed.
Lemma coded_range : forall d r l, 0 <= l <= 7 -> 0 <= r <= l -> 0 <= d <= 7 -> 0 <= coded_seg_id d r l <= l.
Proof.
  intros d r l L R D. rewrite coded_eq by lia. cbv zeta.
  destruct (Z.leb_spec 0 (deinterleave d r (l + 1))), (Z.leb_spec (deinterleave d r (l + 1)) l); cbn [andb]; lia.
Qed.

(** Maps as arrays. *)
Section Map.
Variables (map : list Z) (stride rows : Z).
Hypothesis (ST : 0 < stride) (LEN : zlen map = stride * rows) (RNG : Forall (fun v => 0 <= v <= 7) map).
Definition at_map (y x : Z) : Z := nth (Z.to_nat (y * stride + x)) map 0.
Lemma pos_ok : forall y x, 0 <= y < rows -> 0 <= x < stride -> 0 <= y * stride + x < zlen map.
Proof. intros y x Y X. rewrite LEN. nia. Qed.
Lemma rd_map : forall y x, 0 <= y < rows -> 0 <= x < stride -> rd_at map (y * stride + x) = Ok (at_map y x).
Proof. intros y x Y X. unfold at_map. apply rd_at_nth. apply pos_ok; auto. Qed.
Lemma at_range : forall y x, 0 <= y < rows -> 0 <= x < stride -> 0 <= at_map y x <= 7.
Proof.
  intros y x Y X. unfold at_map. pose proof (pos_ok y x Y X) as P.
  apply (Forall_nth_Z _ (fun v => 0 <= v <= 7) map (y * stride + x) 0 RNG P).
Qed.
Lemma cur_ok : forall y x (t l : bool), 0 <= y < rows -> 0 <= x < stride -> (t = true -> 1 <= y) -> (l = true -> 1 <= x) ->
  cur_segid y x t l map stride =
    Ok (let u := if t then at_map (y - 1) x else -1 in
        let lf := if l then at_map y (x - 1) else -1 in
        let ul := if t && l then at_map (y - 1) (x - 1) else -1 in
        (spec_pred ul u lf, spec_ctx ul u lf)).
Proof.
  intros y x t l Y X T L. unfold cur_segid.
  assert (PL : l = true -> rd_at map (x + y * stride - 1) = Ok (at_map y (x - 1))).
  { intros E. specialize (L E). replace (x + y * stride - 1) with (y * stride + (x - 1)) by lia. apply rd_map; lia. }
  assert (PT : t = true -> rd_at map (x + y * stride - stride) = Ok (at_map (y - 1) x)).
  { intros E. specialize (T E). replace (x + y * stride - stride) with ((y - 1) * stride + x) by lia. apply rd_map; lia. }
  assert (PTL : t = true -> l = true -> rd_at map (x + y * stride - (stride + 1)) = Ok (at_map (y - 1) (x - 1))).
  { intros E1 E2. specialize (T E1). specialize (L E2).
    replace (x + y * stride - (stride + 1)) with ((y - 1) * stride + (x - 1)) by lia. apply rd_map; lia. }
  assert (RL : l = true -> 0 <= at_map y (x - 1)) by (intros E; specialize (L E); apply at_range; lia).
  assert (RT : t = true -> 0 <= at_map (y - 1) x) by (intros E; specialize (T E); apply at_range; lia).
  assert (RTL : t = true -> l = true -> 0 <= at_map (y - 1) (x - 1)) by (intros E E2; specialize (T E); specialize (L E2); apply at_range; lia).
  destruct t, l; cbn [andb].
  - rewrite PL, PT, PTL by auto. cbn [obind]. f_equal. unfold spec_pred, spec_ctx. f_equal.
    + specialize (RL eq_refl). specialize (RT eq_refl).
      destruct (Z.eqb_spec (at_map (y - 1) x) (-1)), (Z.eqb_spec (at_map y (x - 1)) (-1)); try lia.
      rewrite (Z.eqb_sym (at_map (y - 1) (x - 1))). reflexivity.
    + specialize (RTL eq_refl eq_refl). destruct (Z.ltb_spec (at_map (y - 1) (x - 1)) 0); [lia|].
      rewrite (Z.eqb_sym (at_map (y - 1) (x - 1)) (at_map (y - 1) x)), (Z.eqb_sym (at_map y (x - 1)) (at_map (y - 1) x)).
      destruct (Z.eqb_spec (at_map (y - 1) x) (at_map y (x - 1))) as [E|E],
               (Z.eqb_spec (at_map (y - 1) (x - 1)) (at_map y (x - 1))) as [E2|E2],
               (Z.eqb_spec (at_map (y - 1) x) (at_map (y - 1) (x - 1))) as [E3|E3]; cbn; try reflexivity; lia.
  - rewrite PT by auto. cbn [obind]. f_equal. unfold spec_pred, spec_ctx. cbn. specialize (RT eq_refl).
    destruct (Z.eqb_spec (at_map (y - 1) x) (-1)); [lia|reflexivity].
  - rewrite PL by auto. cbn [obind]. f_equal. unfold spec_pred, spec_ctx. cbn. specialize (RL eq_refl).
    destruct (Z.eqb_spec (at_map y (x - 1)) (-1)); [lia|reflexivity].
  - reflexivity.
Qed.
(** Minimum over a block. *)
Lemma row_ok : forall w y x acc, 0 <= y < rows -> 0 <= x -> x + Z.of_nat w <= stride -> exists v,
  min_row w map (y * stride + x) acc = Ok v /\ v <= acc /\ (0 <= acc -> 0 <= v) /\
  (forall i, 0 <= i < Z.of_nat w -> v <= at_map y (x + i)) /\
  (v = acc \/ exists i, 0 <= i < Z.of_nat w /\ at_map y (x + i) = v).
Proof.
  induction w as [|w IH]; intros y x acc Y X W; cbn [min_row].
  - exists acc. split; [auto|]. split; [lia|]. split; [auto|]. split; [intros; lia|auto].
  - rewrite rd_map by lia. cbn [obind]. pose proof (at_range y x Y ltac:(lia)) as R.
    replace (y * stride + x + 1) with (y * stride + (x + 1)) by lia.
    destruct (IH y (x + 1) (Z.min acc (at_map y x)) Y ltac:(lia) ltac:(lia)) as (v & E & V1 & V2 & V3 & V4).
    exists v. split; [exact E|]. split; [lia|]. split; [intros; apply V2; lia|]. split.
    + intros i I. destruct (Z.eq_dec i 0) as [->|N]; [rewrite Z.add_0_r; lia|].
      replace (x + i) with (x + 1 + (i - 1)) by lia. apply V3. lia.
    + destruct V4 as [->|(i & I & <-)].
      * destruct (Z.min_spec acc (at_map y x)) as [(_ & ->)|(_ & ->)]; [auto|]. right. exists 0. rewrite Z.add_0_r. split; [lia|auto].
      * right. exists (i + 1). split; [lia|]. f_equal. lia.
Qed.
Lemma rows_ok : forall h w y x acc, 0 <= y -> y + Z.of_nat h < rows -> 0 <= x -> 0 < w -> x + w <= stride -> 0 <= acc -> exists v,
  min_rows h w stride map (y * stride + x) acc = Ok v /\ 0 <= v <= acc /\
  (forall j i, 0 <= j <= Z.of_nat h -> 0 <= i < w -> v <= at_map (y + j) (x + i)) /\
  (v = acc \/ exists j i, 0 <= j <= Z.of_nat h /\ 0 <= i < w /\ at_map (y + j) (x + i) = v).
Proof.
  induction h as [|h IH]; intros w y x acc Y H X W XW A; cbn [min_rows];
    destruct (row_ok (Z.to_nat w) y x acc ltac:(lia) X ltac:(lia)) as (v & E & V1 & V2 & V3 & V4); rewrite E; cbn [obind];
    rewrite Z2Nat.id in V3, V4 by lia; specialize (V2 A).
  - exists v. split; [auto|]. split; [lia|]. split.
    + intros j i J I. replace (y + j) with y by lia. auto.
    + destruct V4 as [->|(i & I & <-)]; [auto|]. right. exists 0, i. rewrite Z.add_0_r. repeat split; lia.
  - destruct (Z.eqb_spec v 0) as [->|N]; cbn [negb].
    + exists 0. split; [auto|]. split; [lia|]. split; [intros; apply at_range; lia|].
      destruct V4 as [<-|(i & I & EI)]; [auto|]. right. exists 0, i. rewrite Z.add_0_r. repeat split; lia.
    + replace (y * stride + x + stride) with ((y + 1) * stride + x) by lia.
      destruct (IH w (y + 1) x v ltac:(lia) ltac:(lia) X W XW V2) as (v' & E' & U1 & U2 & U3).
      exists v'. split; [auto|]. split; [lia|]. split.
      * intros j i J I. destruct (Z.eq_dec j 0) as [->|NJ]; [rewrite Z.add_0_r; specialize (V3 i I); lia|].
        replace (y + j) with (y + 1 + (j - 1)) by lia. apply U2; lia.
      * destruct U3 as [->|(j & i & J & I & <-)].
        { destruct V4 as [->|(i & I & <-)]; [auto|]. right. exists 0, i. rewrite Z.add_0_r. repeat split; lia. }
        { right. exists (j + 1), i. split; [lia|]. split; [lia|]. f_equal. lia. }
Qed.
Lemma prev_ok : forall y x w h, 0 <= y -> 0 < h -> y + h <= rows -> 0 <= x -> 0 < w -> x + w <= stride ->
  exists v, prev_segid y x w h map stride = Ok v /\ 0 <= v <= 7 /\ smallest at_map y x h w v.
Proof.
  intros y x w h Y H1 H2 X W XW. unfold prev_segid.
  destruct (rows_ok (Z.to_nat (h - 1)) w y x 8 Y ltac:(lia) X W XW ltac:(lia)) as (v & E & V1 & V2 & V3).
  rewrite E. cbn [obind]. rewrite Z2Nat.id in V2, V3 by lia.
  assert (V7 : v <= 7). { specialize (V2 0 0 ltac:(lia) ltac:(lia)). pose proof (at_range (y + 0) (x + 0) ltac:(lia) ltac:(lia)). lia. }
  destruct (Z.ltb_spec v 8); [|lia]. exists v. split; [auto|]. split; [lia|]. split.
  - destruct V3 as [->|(j & i & J & I & E1)]; [lia|]. exists j, i. repeat split; auto; lia.
  - intros j i J I. apply V2; lia.
Qed.
End Map.

(** The strengths: dav1d_calc_eih and dav1d_calc_lf_values. *)
From Coq Require Import ZArith List Bool Lia.
From Verif Require Import Base.CInt Base.Lemmas Base.Loop Lf.Model Lf.Strip.
From Verif Require Lf.Spec.
Import ListNotations.
Open Scope Z_scope.
Local Open Scope outcome_scope.

(** * Limits *)
Definition eih_limit (sharp level : Z) : Z := Z.max (if sharp >? 0 then Z.min (Z.shiftr level (Z.shiftr (sharp + 3) 2)) (9 - sharp) else level) 1.
Lemma eih_val : forall sharp level, 0 <= sharp <= 7 -> 0 <= level < 64 ->
  u8 (eih_limit sharp level) = Spec.limit sharp level /\ u8 (2 * (level + 2) + eih_limit sharp level) = Spec.blimit sharp level.
Proof.
  assert (K : forallb (fun s => forallb (fun l => (u8 (eih_limit (Z.of_nat s) (Z.of_nat l)) =? Spec.limit (Z.of_nat s) (Z.of_nat l)) && (u8 (2 * (Z.of_nat l + 2) + eih_limit (Z.of_nat s) (Z.of_nat l)) =? Spec.blimit (Z.of_nat s) (Z.of_nat l))) (seq 0 64)) (seq 0 8) = true) by (vm_compute; reflexivity).
  intros s l Hs Hl. rewrite forallb_forall in K. specialize (K (Z.to_nat s) ltac:(apply in_seq; lia)). rewrite forallb_forall in K. specialize (K (Z.to_nat l) ltac:(apply in_seq; lia)).
  rewrite !Z2Nat.id in K by lia. apply andb_true_iff in K. destruct K as [K1 K2]. apply Z.eqb_eq in K1, K2. split; assumption.
Qed.
Lemma eih_ok : forall sharp t0, 0 <= sharp <= 7 -> exists t, calc_eih sharp t0 = Ok t /\ lut_ok sharp t.
Proof.
  intros sharp t0 Hs. unfold calc_eih.
  edestruct (for_inv _ (fun k (t : lut) => forall L, 0 <= L < k -> fst t L = Some (Spec.blimit sharp L) /\ snd t L = Some (Spec.limit sharp L))) as (t & E & I); [| | |exists t; split; [exact E|]].
  - lia.
  - intros L HL. lia.
  - intros k [e i] Hk I. cbn [fst snd] in *. fold (eih_limit sharp k). destruct (eih_val sharp k Hs Hk) as [-> ->]. rewrite !wr1_ok by lia. cbn [obind].
    eexists. split; [reflexivity|]. intros L HL. cbn [fst snd]. unfold set1. destruct (Z.eqb_spec L k) as [->|N]; [split; reflexivity|]. apply I. lia.
  - intros L HL. destruct (I L HL) as [I1 I2]. unfold rd1. rewrite I1, I2. unfold ck. destruct (Z.leb_spec 0 L), (Z.ltb_spec L 64); try lia. split; reflexivity.
Qed.

(** * Levels *)
(** The header [H] of the specification for dav1d's [h]: an absent feature of a segment has value 0. *)
Definition feature (H : Spec.header) (s f : Z) : Z := if Spec.FeatureEnabled H s f then Spec.FeatureData H s f else 0.
Definition same_header (h : hdr) (H : Spec.header) : Prop :=
  Spec.loop_filter_level H 0 = level_y h 0 /\ Spec.loop_filter_level H 1 = level_y h 1 /\
  Spec.loop_filter_level H 2 = level_u h /\ Spec.loop_filter_level H 3 = level_v h /\
  Spec.delta_lf_multi H = lf_multi h /\ Spec.segmentation_enabled H = seg_enabled h /\ Spec.loop_filter_delta_enabled H = mode_ref_delta_enabled h /\
  (forall r, 0 <= r < 8 -> Spec.loop_filter_ref_deltas H r = ref_delta h r) /\ (forall m, 0 <= m < 2 -> Spec.loop_filter_mode_deltas H m = mode_delta h m) /\
  (forall s, 0 <= s < 8 -> delta_lf_y_v h s = feature H s 1 /\ delta_lf_y_h h s = feature H s 2 /\ delta_lf_u h s = feature H s 3 /\ delta_lf_v h s = feature H s 4).

Lemma iclip63 : forall x, iclip x 0 63 = Spec.Clip3 0 63 x.
Proof. intros x. unfold iclip, Spec.Clip3. rewrite Z.gtb_ltb. reflexivity. Qed.
Lemma clip_range : forall x, 0 <= Spec.Clip3 0 63 x <= 63.
Proof. intros x. unfold Spec.Clip3. rewrite Z.gtb_ltb. destruct (Z.ltb_spec x 0); [lia|]. destruct (Z.ltb_spec 63 x); lia. Qed.
Lemma clip_id : forall x, 0 <= x <= 63 -> Spec.Clip3 0 63 x = x.
Proof. intros x H. unfold Spec.Clip3. rewrite Z.gtb_ltb. destruct (Z.ltb_spec x 0); [lia|]. destruct (Z.ltb_spec 63 x); lia. Qed.
Lemma u8_id : forall x, 0 <= x <= 63 -> u8 x = x.
Proof. intros x H. unfold u8. apply Z.mod_small. change (2 ^ 8) with 256. lia. Qed.

(** What calc_lf_value stores *)
Definition val (h : hdr) (base r m : Z) : Z :=
  if mode_ref_delta_enabled h then
    let sh := b2z (base >=? 32) in
    Spec.Clip3 0 63 (if r =? 0 then base + ref_delta h 0 * 2 ^ sh else base + (mode_delta h m + ref_delta h r) * 2 ^ sh)
  else base.
Lemma value_ok : forall h s i bl ld sd v, exists v', calc_lf_value h s i bl ld sd v = Ok v' /\
  forall s' i' r m, 0 <= r < 8 -> 0 <= m < 2 -> v' s' i' r m =
    if (s' =? s) && (i' =? i) then Some (val h (Spec.Clip3 0 63 (Spec.Clip3 0 63 (bl + ld) + sd)) r m) else v s' i' r m.
Proof.
  intros h s i bl ld sd v. unfold calc_lf_value. rewrite !iclip63. set (base := Spec.Clip3 0 63 (Spec.Clip3 0 63 (bl + ld) + sd)). assert (Hb : 0 <= base <= 63) by apply clip_range. unfold val.
  destruct (mode_ref_delta_enabled h); cbn [negb].
  2:{ eexists. split; [reflexivity|]. intros s' i' r m Hr Hm. unfold fill_lvl. rewrite u8_id by exact Hb. destruct (Z.leb_spec 0 r), (Z.ltb_spec r 8), (Z.leb_spec 0 m), (Z.ltb_spec m 2); try lia. rewrite !andb_true_r. reflexivity. }
  set (sh := b2z (base >=? 32)).
  set (f := fun r m => Spec.Clip3 0 63 (if r =? 0 then base + ref_delta h 0 * 2 ^ sh else base + (mode_delta h m + ref_delta h r) * 2 ^ sh)).
  assert (Hf : forall r m, u8 (f r m) = f r m) by (intros; apply u8_id, clip_range).
  edestruct (for_inv _ (fun k (w : lvl_values) => forall s' i' r m, 0 <= r < 8 -> 0 <= m < 2 -> w s' i' r m = if (s' =? s) && (i' =? i) && (r <? k) then Some (f r m) else v s' i' r m)) as (v' & E & Iv); [| | |exists v'; split; [exact E|]].
  - lia.
  - intros s' i' r m Hr Hm. unfold set_lvl. destruct ((s' =? s) && (i' =? i)); cbn [andb]; [|reflexivity].
    destruct (Z.eqb_spec r 0) as [->|N]; cbn [andb]; [|destruct (Z.ltb_spec r 1); [lia|reflexivity]].
    change (Spec.Clip3 0 63 (base + ref_delta h 0 * 2 ^ sh)) with (f 0 m). rewrite Hf. destruct (Z.eqb_spec m 0); [reflexivity|]. destruct (Z.eqb_spec m 1); [reflexivity|lia].
  - intros k w Hk Iw.
    edestruct (for_inv _ (fun j (w : lvl_values) => forall s' i' r m, 0 <= r < 8 -> 0 <= m < 2 -> w s' i' r m = if (s' =? s) && (i' =? i) && ((r <? k) || (r =? k) && (m <? j)) then Some (f r m) else v s' i' r m)) as (w' & E & Iw'); [| | |exists w'; split; [exact E|]].
    + lia.
    + intros s' i' r m Hr Hm. rewrite Iw by assumption. destruct (Z.ltb_spec m 0); [lia|]. rewrite andb_false_r, orb_false_r. reflexivity.
    + intros j w2 Hj I2. eexists. split; [reflexivity|]. intros s' i' r m Hr Hm. unfold set_lvl. rewrite I2 by assumption. rewrite iclip63.
      replace (Spec.Clip3 0 63 (base + (mode_delta h j + ref_delta h k) * 2 ^ sh)) with (f k j) by (unfold f; destruct (Z.eqb_spec k 0); [lia|reflexivity]). rewrite Hf.
      destruct ((s' =? s) && (i' =? i)); cbn [andb]; [|reflexivity].
      destruct (Z.eqb_spec r k) as [->|N]; cbn [andb orb].
      * destruct (Z.ltb_spec k k); [lia|]. cbn [orb]. destruct (Z.eqb_spec m j) as [->|N]; [destruct (Z.ltb_spec j (j + 1)); [reflexivity|lia]|].
        destruct (Z.ltb_spec m j), (Z.ltb_spec m (j + 1)); try lia; reflexivity.
      * reflexivity.
    + intros s' i' r m Hr Hm. rewrite Iw' by assumption. destruct (Z.ltb_spec m 2); [|lia]. rewrite andb_true_r. destruct (Z.eqb_spec r k), (Z.ltb_spec r k), (Z.ltb_spec r (k + 1)); try lia; reflexivity.
  - intros s' i' r m Hr Hm. rewrite Iv by assumption. destruct (Z.ltb_spec r 8); [|lia]. rewrite andb_true_r. reflexivity.
Qed.
Lemma value_chroma_ok : forall h s i bl ld sd v, exists v', calc_lf_value_chroma h s i bl ld sd v = Ok v' /\
  forall s' i' r m, 0 <= r < 8 -> 0 <= m < 2 -> v' s' i' r m =
    if (s' =? s) && (i' =? i) then Some (if bl =? 0 then 0 else val h (Spec.Clip3 0 63 (Spec.Clip3 0 63 (bl + ld) + sd)) r m) else v s' i' r m.
Proof.
  intros h s i bl ld sd v. unfold calc_lf_value_chroma. destruct (bl =? 0); [|apply value_ok].
  eexists. split; [reflexivity|]. intros s' i' r m Hr Hm. unfold fill_lvl. change (u8 0) with 0. destruct (Z.leb_spec 0 r), (Z.ltb_spec r 8), (Z.leb_spec 0 m), (Z.ltb_spec m 2); try lia. rewrite !andb_true_r. reflexivity.
Qed.

Lemma val_level : forall h H lf i s r m sd, 0 <= r < 8 -> 0 <= m < 2 -> 
  Spec.loop_filter_delta_enabled H = mode_ref_delta_enabled h ->
  (forall r, 0 <= r < 8 -> Spec.loop_filter_ref_deltas H r = ref_delta h r) -> (forall m, 0 <= m < 2 -> Spec.loop_filter_mode_deltas H m = mode_delta h m) ->
  sd = (if Spec.segmentation_enabled H then feature H s (1 + i) else 0) ->
  val h (Spec.Clip3 0 63 (Spec.Clip3 0 63 (Spec.loop_filter_level H i + lf (if Spec.delta_lf_multi H then i else 0)) + sd)) r m = Spec.level H lf i s r m.
Proof.
  intros h H lf i s r m sd Hr Hm E1 E2 E3 E4. unfold Spec.level, val, Spec.SEG_LVL_ALT_LF_Y_V. rewrite E1, (Z.add_comm (lf _)).
  set (b := Spec.Clip3 0 63 (Spec.loop_filter_level H i + lf (if Spec.delta_lf_multi H then i else 0))). assert (Hb : 0 <= b <= 63) by apply clip_range.
  assert (Q : Spec.Clip3 0 63 (b + sd) = if Spec.segmentation_enabled H && Spec.FeatureEnabled H s (1 + i) then Spec.Clip3 0 63 (b + Spec.FeatureData H s (1 + i)) else b).
  { rewrite E4. unfold feature. destruct (Spec.segmentation_enabled H); cbn [andb]; [|rewrite Z.add_0_r; apply clip_id, Hb]. destruct (Spec.FeatureEnabled H s (1 + i)); [reflexivity|]. rewrite Z.add_0_r. apply clip_id, Hb. }
  rewrite <- Q. pose proof (clip_range (b + sd)) as Hc. set (c := Spec.Clip3 0 63 (b + sd)) in *. destruct (mode_ref_delta_enabled h); [|reflexivity].
  replace (c / 32) with (b2z (c >=? 32)). 2:{ rewrite Z.geb_leb. destruct (Z.leb_spec 32 c); cbn [b2z]; [apply (Z.div_unique c 32 1 (c - 32)); lia|symmetry; apply Z.div_small; lia]. }
  rewrite !E2, E3 by (try assumption; lia). destruct (r =? 0); [reflexivity|]. f_equal. ring.
Qed.

Lemma levels_ok : forall h H lf v, same_header h H -> exists v', calc_lf_values h lf v = Ok v' /\
  forall s i r m, 0 <= s < (if seg_enabled h then 8 else 1) -> 0 <= i < 4 -> 0 <= r < 8 -> 0 <= m < 2 ->
    v' s i r m = Some (if Spec.filtered H i then Spec.level H lf i s r m else 0).
Proof.
  intros h H lf v (L0 & L1 & L2 & L3 & Em & Es & Ed & Er & Emd & Ef). unfold calc_lf_values. set (n := if seg_enabled h then 8 else 1). assert (Hn : 1 <= n <= 8) by (unfold n; destruct (seg_enabled h); lia).
  destruct ((level_y h 0 =? 0) && (level_y h 1 =? 0)) eqn:Z0.
  - eexists. split; [reflexivity|]. intros s i r m H1 H2 H3 H4. cbv beta.
    destruct (Z.leb_spec 0 s), (Z.ltb_spec s n), (Z.leb_spec 0 i), (Z.ltb_spec i 4), (Z.leb_spec 0 r), (Z.ltb_spec r 8), (Z.leb_spec 0 m), (Z.ltb_spec m 2); try lia. cbn [andb].
    unfold Spec.filtered. rewrite L0, L1. apply andb_true_iff in Z0. destruct Z0 as [-> ->]. reflexivity.
  - edestruct (for_inv _ (fun k (w : lvl_values) => forall s i r m, 0 <= s < k -> 0 <= i < 4 -> 0 <= r < 8 -> 0 <= m < 2 -> w s i r m = Some (if Spec.filtered H i then Spec.level H lf i s r m else 0))) as (v' & E & Iv); [| | |exists v'; split; [exact E|exact Iv]].
    + lia.
    + intros s i r m Hs. lia.
    + intros k w Hk Iw. cbv beta zeta.
      destruct (value_ok h k 0 (level_y h 0) (lf 0) (if seg_enabled h then delta_lf_y_v h k else 0) w) as (w1 & -> & I1). cbn [obind].
      destruct (value_ok h k 1 (level_y h 1) (lf (if lf_multi h then 1 else 0)) (if seg_enabled h then delta_lf_y_h h k else 0) w1) as (w2 & -> & I2). cbn [obind].
      destruct (value_chroma_ok h k 2 (level_u h) (lf (if lf_multi h then 2 else 0)) (if seg_enabled h then delta_lf_u h k else 0) w2) as (w3 & -> & I3). cbn [obind].
      destruct (value_chroma_ok h k 3 (level_v h) (lf (if lf_multi h then 3 else 0)) (if seg_enabled h then delta_lf_v h k else 0) w3) as (w4 & -> & I4).
      exists w4. split; [reflexivity|]. intros s i r m Hs Hi Hr Hm. rewrite I4, I3, I2, I1 by assumption.
      destruct (Z.eqb_spec s k) as [->|N]; cbn [andb]; [|apply Iw; try assumption; lia].
      destruct (Ef k ltac:(lia)) as (F0 & F1 & F2 & F3).
      assert (Fy : Spec.filtered H 0 = true /\ Spec.filtered H 1 = true) by (unfold Spec.filtered; rewrite L0, L1; clear - Z0; destruct (level_y h 0 =? 0), (level_y h 1 =? 0); try discriminate Z0; split; reflexivity).
      assert (Fu : Spec.filtered H 2 = negb (level_u h =? 0) /\ Spec.filtered H 3 = negb (level_v h =? 0)).
      { unfold Spec.filtered. rewrite L0, L1, L2, L3. clear - Z0. destruct (level_y h 0 =? 0), (level_y h 1 =? 0); try discriminate Z0; split; reflexivity. }
      assert (C : i = 0 \/ i = 1 \/ i = 2 \/ i = 3) by lia. destruct C as [-> | [-> | [-> | ->]]]; cbn [Z.eqb Pos.eqb].
      * rewrite (proj1 Fy). f_equal. rewrite <- L0. replace (lf 0) with (lf (if Spec.delta_lf_multi H then 0 else 0)) by (destruct (Spec.delta_lf_multi H); reflexivity). apply val_level; try assumption. rewrite Es. destruct (seg_enabled h); [exact F0|reflexivity].
      * rewrite (proj2 Fy). f_equal. rewrite <- L1, <- Em. apply val_level; try assumption. rewrite Es. destruct (seg_enabled h); [exact F1|reflexivity].
      * rewrite (proj1 Fu). destruct (level_u h =? 0); [reflexivity|]. cbn [negb]. f_equal. rewrite <- L2, <- Em. apply val_level; try assumption. rewrite Es. destruct (seg_enabled h); [exact F2|reflexivity].
      * rewrite (proj2 Fu). destruct (level_v h =? 0); [reflexivity|]. cbn [negb]. f_equal. rewrite <- L3, <- Em. apply val_level; try assumption. rewrite Es. destruct (seg_enabled h); [exact F3|reflexivity].
Qed.

(** Intra prediction of a block: the edges and the prediction together. *)
From Coq Require Import ZArith List Bool Lia.
From Verif Require Import Base.CInt Base.Lemmas Base.Loop Cdef.Block Mc.Blocks Ipred.Model Ipred.Kernels Ipred.Edge Ipred.Arrays Ipred.Dir Ipred.Zones Ipred.Zone2 Ipred.Recur Ipred.Cfl.
From Verif Require Ipred.Spec.
Import ListNotations.
Open Scope Z_scope.
Local Open Scope outcome_scope.

Lemma filled_ext : forall d0 d w h u v, (forall i j, 0 <= i < h -> 0 <= j < w -> u i j = v i j) -> filled d0 d w h 0 0 u -> filled d0 d w h 0 0 v.
Proof. intros d0 d w h u v E (F1 & F2). split; [|exact F2]. intros i j Hi Hj. rewrite F1 by assumption. f_equal. apply E; assumption. Qed.
Lemma flat_upsample : forall bd n e p, depth bd -> 4 <= n -> 0 <= p <= 2 * n - 2 -> (forall i, pixel bd (e i)) -> (forall i, 0 <= i -> e i = e 0) -> (e (-1) = e 0 \/ e (-1) = e 0 + 1 \/ e (-1) = e 0 - 1) ->
  Spec.upsample bd n e p = e 0.
Proof.
  intros bd n e p Hd Hn Hp HP F C. rewrite spec_upsample by lia.
  assert (G : forall k, 0 <= k -> e (iclip k (-1) (n - 1)) = e 0) by (intros k Hk; apply F; unfold iclip; destruct (Z.ltb_spec k (-1)); [lia|]; destruct (Z.ltb_spec (n - 1) k); lia).
  assert (Q : 0 <= p / 2) by (apply Z.div_pos; lia). destruct (Z.odd p); [|apply G; exact Q].
  unfold ukern. rewrite (G (p / 2 + 1 - 1)), (G (p / 2 + 2 - 1)), (G (p / 2 + 3 - 1)) by lia.
  assert (G0 : e (iclip (p / 2 + 0 - 1) (-1) (n - 1)) = e 0 \/ e (iclip (p / 2 + 0 - 1) (-1) (n - 1)) = e (-1)).
  { destruct (Z.eq_dec (p / 2) 0) as [->|]; [right; apply (f_equal e); unfold iclip; destruct (Z.ltb_spec (0 + 0 - 1) (-1)); [lia|]; destruct (Z.ltb_spec (n - 1) (0 + 0 - 1)); lia|left; apply G; lia]. }
  set (a := e (iclip (p / 2 + 0 - 1) (-1) (n - 1))) in *. clearbody a.
  assert (R : Spec.Round2 (- a + 9 * e 0 + 9 * e 0 - e 0) 4 = e 0) by (unfold Spec.Round2; cbn [Z.eqb]; change (2 ^ (4 - 1)) with 8; change (2 ^ 4) with 16; lia).
  rewrite R. apply clip_id. apply HP.
Qed.

Lemma q_base : forall i d n j u, 0 <= i -> 0 <= d -> 0 < n -> 0 <= j -> 0 <= u -> 0 <= (i + 1) * d / n + j * u.
Proof. intros i d n j u H1 H2 H3 H4 H5. assert (0 <= (i + 1) * d / n) by (apply Z.div_pos; [apply Z.mul_nonneg_nonneg; lia|lia]). assert (0 <= j * u) by (apply Z.mul_nonneg_nonneg; lia). lia. Qed.
Lemma pow_pos6 : forall u, 0 < 2 ^ (6 - u) \/ 6 < u.
Proof. intros u. destruct (Z.le_gt_cases u 6); [left; apply Z.pow_pos_nonneg; lia|right; lia]. Qed.
Lemma z3_bound : forall i j dy up w h, up = 0 \/ up = 1 -> 0 <= j < w -> 0 <= i < h -> 0 < dy < 64 ->
  0 <= (j + 1) * dy / 2 ^ (6 - up) + i * 2 ^ up < (h + w - 1) * 2 ^ up.
Proof.
  intros i j dy up w h U Hj Hi Hd. assert (Q : (j + 1) * dy <= w * 63) by (apply Z.mul_le_mono_nonneg; lia). assert (0 <= (j + 1) * dy) by (apply Z.mul_nonneg_nonneg; lia).
  set (k := (j + 1) * dy) in *. clearbody k. destruct U as [->| ->].
  - change (2 ^ (6 - 0)) with 64. change (2 ^ 0) with 1. assert (0 <= k / 64) by (apply Z.div_pos; lia). assert (k / 64 < w) by (apply Z.div_lt_upper_bound; lia). lia.
  - change (2 ^ (6 - 1)) with 32. change (2 ^ 1) with 2. assert (0 <= k / 32) by (apply Z.div_pos; lia). assert (k / 32 < w * 2) by (apply Z.div_lt_upper_bound; lia). lia.
Qed.
Lemma last_range : forall up n, up = 0 \/ up = 1 -> 4 <= n -> 3 <= (n - 1) * 2 ^ up <= 2 * n - 2.
Proof. intros up n [->| ->] Hn; [change (2 ^ 0) with 1|change (2 ^ 1) with 2]; lia. Qed.
Lemma step_max : forall d up, up = 0 \/ up = 1 -> 0 < d <= 1023 -> 0 < d * 2 ^ up <= 4096.
Proof. intros d up [->| ->] H; [change (2 ^ 0) with 1|change (2 ^ 1) with 2]; lia. Qed.

Section Intra.
  Variables (bd c : Z).
  Hypothesis Hd : depth bd.
  Variable cur : Z -> Z -> Z.
  Hypothesis Hcur : forall r k, pixel bd (cur r k).
  Variables (lw lh : Z).
  Hypothesis Hsz : size lw lh.
  Notation w := (2 ^ lw).
  Notation h := (2 ^ lh).
  Variables (x y tw th maxX maxY : Z).
  Variables (have_left have_top tr bl : bool).
  Hypothesis Hx : 0 <= x < tw.
  Hypothesis Hy : 0 <= y < th.
  Hypothesis HX : 4 * tw = maxX + 1 \/ 4 * tw <= maxX + 1 /\ (x + 2 ^ (lw - 2) = tw \/ x + 2 * 2 ^ (lw - 2) <= tw).
  Hypothesis HY : 4 * th = maxY + 1 \/ 4 * th <= maxY + 1 /\ (y + 2 ^ (lh - 2) = th \/ y + 2 * 2 ^ (lh - 2) <= th).
  Notation har := (haveAboveRt lw x tw tr).
  Notation hbl := (haveBelowLft lh y th bl).
  Notation Above := (Spec.AboveRow bd cur maxX (4 * x) (4 * y) have_left have_top har lw).
  Notation Left := (Spec.LeftCol bd cur maxY (4 * x) (4 * y) have_left have_top hbl lh).
  Notation Corner := (Spec.corner bd cur (4 * x) (4 * y) have_left have_top).
  Notation mx := (maxX - 4 * x + 1).
  Notation my := (maxY - 4 * y + 1).

  Lemma mx_pos : 1 <= mx.
  Proof. lia. Qed.
  Lemma my_pos : 1 <= my.
  Proof. lia. Qed.
  Lemma PA : forall i, pixel bd (Above i).
  Proof. intros i. apply above_pixel; assumption. Qed.
  Lemma PL : forall i, pixel bd (Left i).
  Proof. intros i. apply left_pixel; assumption. Qed.
  Lemma corner_above : Above (-1) = Corner.
  Proof. reflexivity. Qed.
  Lemma corner_left : Left (-1) = Corner.
  Proof. reflexivity. Qed.
  Lemma tailA : forall i, 2 * w - 1 <= i -> Above i = Above (2 * w - 1).
  Proof.
    intros i Hi. pose proof (w_range lw lh Hsz). unfold Spec.AboveRow. destruct (Z.eqb_spec i (-1)), (Z.eqb_spec (2 * w - 1) (-1)); try lia.
    destruct (negb have_top && have_left); [reflexivity|]. destruct (negb have_top && negb have_left); [reflexivity|].
    destruct (Z.ltb_spec i w), (Z.ltb_spec (2 * w - 1) w); try lia. rewrite (Z.min_r i), (Z.min_r (2 * w - 1)) by lia. reflexivity.
  Qed.
  Lemma tailL : forall i, 2 * h - 1 <= i -> Left i = Left (2 * h - 1).
  Proof.
    intros i Hi. pose proof (h_range lw lh Hsz). unfold Spec.LeftCol. destruct (Z.eqb_spec i (-1)), (Z.eqb_spec (2 * h - 1) (-1)); try lia.
    destruct (negb have_left && have_top); [reflexivity|]. destruct (negb have_left && negb have_top); [reflexivity|].
    destruct (Z.ltb_spec i h), (Z.ltb_spec (2 * h - 1) h); try lia. rewrite (Z.min_r i), (Z.min_r (2 * h - 1)) by lia. reflexivity.
  Qed.
  Lemma edgeA : mx < w -> forall i, mx - 1 <= i -> Above i = Above (mx - 1).
  Proof.
    intros L i Hi. pose proof (w_range lw lh Hsz). unfold Spec.AboveRow. destruct (Z.eqb_spec i (-1)), (Z.eqb_spec (mx - 1) (-1)); try lia.
    destruct (negb have_top && have_left); [reflexivity|]. destruct (negb have_top && negb have_left); [reflexivity|].
    destruct (Z.ltb_spec (mx - 1) w); [|lia]. replace (Z.min maxX (4 * x + (mx - 1))) with maxX by lia.
    destruct (i <? w); [f_equal; lia|]. destruct har; f_equal; lia.
  Qed.
  Lemma edgeL : my < h -> forall i, my - 1 <= i -> Left i = Left (my - 1).
  Proof.
    intros L i Hi. pose proof (h_range lw lh Hsz). unfold Spec.LeftCol. destruct (Z.eqb_spec i (-1)), (Z.eqb_spec (my - 1) (-1)); try lia.
    destruct (negb have_left && have_top); [reflexivity|]. destruct (negb have_left && negb have_top); [reflexivity|].
    destruct (Z.ltb_spec (my - 1) h); [|lia]. replace (Z.min maxY (4 * y + (my - 1))) with maxY by lia.
    destruct (i <? h); [f_equal; lia|]. destruct hbl; f_equal; lia.
  Qed.
  Lemma first_above : have_top = true -> Above 0 = cur (4 * y - 1) (4 * x).
  Proof. intros E. pose proof (w_range lw lh Hsz). unfold Spec.AboveRow. rewrite E. cbn [negb andb]. cbn [Z.eqb]. destruct (Z.ltb_spec 0 w); [|lia]. f_equal. lia. Qed.
  Lemma first_left : have_left = true -> Left 0 = cur (4 * y) (4 * x - 1).
  Proof. intros E. pose proof (h_range lw lh Hsz). unfold Spec.LeftCol. rewrite E. cbn [negb andb]. cbn [Z.eqb]. destruct (Z.ltb_spec 0 h); [|lia]. f_equal. lia. Qed.
  (** The edges that are not there *)
  Lemma flatA : have_top = false -> (forall i, 0 <= i -> Above i = Above 0) /\ (if have_left then Corner = Above 0 /\ Left 0 = Above 0 else Corner = 2 ^ (bd - 1) /\ Above 0 = Corner - 1 /\ Left 0 = Corner + 1).
  Proof.
    intros E. split.
    - intros i Hi. rewrite !above_none by (assumption || lia). reflexivity.
    - pose proof first_left as FL. rewrite above_none by (assumption || lia). unfold Spec.corner. rewrite E. destruct have_left eqn:EL; cbn [andb].
      + split; [reflexivity|]. apply FL. reflexivity.
      + split; [reflexivity|]. split; [reflexivity|]. rewrite left_none by (reflexivity || assumption || lia). rewrite ?E; reflexivity.
  Qed.
  Lemma flatL : have_left = false -> (forall i, 0 <= i -> Left i = Left 0) /\ (if have_top then Corner = Left 0 /\ Above 0 = Left 0 else Corner = 2 ^ (bd - 1) /\ Left 0 = Corner + 1 /\ Above 0 = Corner - 1).
  Proof.
    intros E. split.
    - intros i Hi. rewrite !left_none by (assumption || lia). reflexivity.
    - pose proof first_above as FA. rewrite left_none by (assumption || lia). unfold Spec.corner. rewrite E. destruct have_top eqn:EL; cbn [andb].
      + split; [reflexivity|]. apply FA. reflexivity.
      + split; [reflexivity|]. split; [reflexivity|]. rewrite above_none by (reflexivity || assumption || lia). rewrite ?E; reflexivity.
  Qed.

  (** ** The arrays of the directional process *)
  Variables (en sm : bool).
  Notation SpecA := (Spec.above_edge bd cur maxX maxY (4 * x) (4 * y) have_left have_top har hbl lw lh en sm).
  Notation SpecL := (Spec.left_edge bd cur maxX maxY (4 * x) (4 * y) have_left have_top har hbl lw lh en sm).
  Notation SpecD := (Spec.directional bd cur maxX maxY (4 * x) (4 * y) have_left have_top har hbl lw lh en sm).
  Notation FC a e := (Spec.filtered_corner bd cur maxX maxY (4 * x) (4 * y) have_left have_top har hbl lw lh a e).
  Notation strA a := (Spec.strength w h sm (a - 90)).
  Notation strL a := (Spec.strength w h sm (a - 180)).
  Notation upA a := (Spec.useUpsample w h sm (a - 90)).
  Notation upL a := (Spec.useUpsample w h sm (a - 180)).

  Lemma fc_same : forall a e i, ~ (90 < a < 180) -> FC a e i = e i.
  Proof.
    intros a e i N. unfold Spec.filtered_corner. destruct (Z.ltb_spec 90 a), (Z.ltb_spec a 180); try lia; rewrite ?andb_false_r; reflexivity.
  Qed.
  Lemma specA_z1 : forall a p, a < 90 -> have_top = true -> -1 <= p <= 2 * (w + h) - 2 -> SpecA a p = SA bd w h mx Above (strA a) (upA a) en p.
  Proof.
    intros a p La HT Hp. pose proof (w_range lw lh Hsz). pose proof (h_range lw lh Hsz). pose proof mx_pos. unfold Spec.above_edge, SA. cbv zeta.
    destruct (Z.eqb_spec a 90); [lia|]. destruct (Z.eqb_spec a 180); [lia|]. destruct (Z.ltb_spec a 90); [|lia]. 
    assert (F : forall i, FC a Above i = Above i) by (intros; apply fc_same; lia). rewrite HT in F |- *. cbn [negb]. rewrite !andb_true_r.
    destruct en; cbn [andb]; [|reflexivity]. destruct (upA a).
    - apply spec_upsample_ext; [|lia|lia]. intros i Hi. apply spec_filter_ext; [intros; apply F|exact Hi|lia].
    - apply spec_filter_ext; [intros; apply F|lia|lia].
  Qed.
  Lemma specL_z3 : forall a p, 180 < a -> have_left = true -> -1 <= p <= 2 * (w + h) - 2 -> SpecL a p = SA bd h w my Left (strL a) (upL a) en p.
  Proof.
    intros a p La HT Hp. pose proof (w_range lw lh Hsz). pose proof (h_range lw lh Hsz). pose proof my_pos. unfold Spec.left_edge, SA. cbv zeta.
    destruct (Z.eqb_spec a 90); [lia|]. destruct (Z.eqb_spec a 180); [lia|]. destruct (Z.ltb_spec 180 a); [|lia]. 
    assert (F : forall i, FC a Left i = Left i) by (intros; apply fc_same; lia). rewrite HT in F |- *. cbn [negb]. rewrite !andb_true_r.
    destruct en; cbn [andb]; [|reflexivity]. destruct (upL a).
    - apply spec_upsample_ext; [|lia|lia]. intros i Hi. apply spec_filter_ext; [intros; apply F|exact Hi|lia].
    - apply spec_filter_ext; [intros; apply F|lia|lia].
  Qed.
  Definition A2 (a : Z) : Z -> Z := if en then FC a Above else Above.
  Definition L2 (a : Z) : Z -> Z := if en then FC a Left else Left.
  Lemma specA_z2 : forall a p, 90 < a < 180 -> SpecA a p = SB bd w mx (A2 a) (strA a) (upA a) en have_top p.
  Proof.
    intros a p La. unfold Spec.above_edge, SB, A2. cbv zeta. destruct (Z.eqb_spec a 90); [lia|]. destruct (Z.eqb_spec a 180); [lia|]. destruct (Z.ltb_spec a 90); [lia|].
    cbn [negb]. rewrite !andb_true_r. rewrite (Z.add_0_r w). destruct (en && upA a), (en && have_top); reflexivity.
  Qed.
  Lemma specL_z2 : forall a p, 90 < a < 180 -> SpecL a p = SB bd h my (L2 a) (strL a) (upL a) en have_left p.
  Proof.
    intros a p La. unfold Spec.left_edge, SB, L2. cbv zeta. destruct (Z.eqb_spec a 90); [lia|]. destruct (Z.eqb_spec a 180); [lia|]. destruct (Z.ltb_spec 180 a); [lia|].
    cbn [negb]. rewrite !andb_true_r. rewrite (Z.add_0_r h). destruct (en && upL a), (en && have_left); reflexivity.
  Qed.
  Notation filtered := ((24 <=? w + h) && en).
  Notation Cof := (corner_of bd cur lw lh x y tw th maxX maxY have_left have_top tr bl).
  Lemma A2_rest : forall a i, i <> -1 -> A2 a i = Above i.
  Proof. intros a i Hi. unfold A2. destruct en; [|reflexivity]. unfold Spec.filtered_corner. destruct (Z.eqb_spec i (-1)); [lia|reflexivity]. Qed.
  Lemma L2_rest : forall a i, i <> -1 -> L2 a i = Left i.
  Proof. intros a i Hi. unfold L2. destruct en; [|reflexivity]. unfold Spec.filtered_corner. destruct (Z.eqb_spec i (-1)); [lia|reflexivity]. Qed.
  Lemma A2_corner : forall a, 90 < a < 180 -> A2 a (-1) = Cof filtered /\ L2 a (-1) = Cof filtered.
  Proof.
    intros a La. unfold A2, L2, corner_of. destruct en; [|rewrite andb_false_r; split; reflexivity]. rewrite andb_true_r. unfold Spec.filtered_corner.
    destruct (Z.ltb_spec 90 a); [|lia]. destruct (Z.ltb_spec a 180); [|lia]. cbn [Z.eqb Pos.eqb andb]. destruct (24 <=? w + h); split; reflexivity.
  Qed.
  Lemma Cof_pixel : forall f, pixel bd (Cof f).
  Proof.
    intros f. apply (corner_of_pixel bd Hd cur Hcur lw lh x y tw th maxX maxY have_left have_top tr bl (fun i _ => Ok (cur (4 * y + i) (4 * x - 1))) (fun j => Ok (cur (4 * y - 1) (4 * x + j)))); intros; reflexivity.
  Qed.
  Lemma Cof_flat : forall f, (have_top = false -> Cof f = Above 0 \/ Cof f = Above 0 + 1 \/ Cof f = Above 0 - 1) /\ (have_left = false -> Cof f = Left 0 \/ Cof f = Left 0 + 1 \/ Cof f = Left 0 - 1).
  Proof.
    intros f. unfold corner_of. rewrite corner_above.
    assert (R : forall a b e, a = b /\ e = b \/ a = b + 1 /\ e = b - 1 -> Spec.Round2 (a * 5 + b * 6 + e * 5) 4 = b).
    { intros a b e H. unfold Spec.Round2. cbn [Z.eqb]. change (2 ^ (4 - 1)) with 8. change (2 ^ 4) with 16. lia. }
    split; intros E.
    - destruct (flatA E) as (_ & F). destruct f.
      + rewrite R; destruct have_left; lia.
      + destruct have_left; lia.
    - destruct (flatL E) as (_ & F). destruct f.
      + rewrite R; destruct have_top; lia.
      + destruct have_top; lia.
  Qed.

  (** ** The zones *)
  Lemma b2z_or : forall b, b2z b = 0 \/ b2z b = 1.
  Proof. intros [|]; cbn; lia. Qed.
  Lemma z1_ok : forall (tl : Z -> outcome Z) a d, valid_angle a -> a < 90 -> have_top = true -> tl 0 = Ok Corner -> (forall i, 0 <= i < 2 * w -> tl (1 + i) = Ok (Above i)) ->
    exists d', ipred_z1 bd w h tl (flags a sm en) d = Ok d' /\ filled d d' w h 0 0 (SpecD a).
  Proof.
    intros tl a d Ha La HT HC HA. pose proof (w_range lw lh Hsz). pose proof (h_range lw lh Hsz). destruct (angle_z1 a Ha La) as (A0 & D1 & D2).
    assert (IN : forall k, -1 <= k < 2 * w -> tl (1 + k) = Ok (Above k)).
    { intros k Hk. destruct (Z.eq_dec k (-1)) as [->|]; [exact HC|apply HA; lia]. }
    destruct (z1_edge_ok bd lw lh Hd Hsz tl mx sm en a Ha Above PA mx_pos tailA edgeA IN La) as (top & T & maxb & E & HTop & (M0 & MP & ML)).
    unfold ipred_z1. rewrite E. cbn [obind]. set (up := b2z (en && upA a)) in *. assert (U : up = 0 \/ up = 1) by apply b2z_or.
    assert (P2 : 2 ^ up = 1 + up) by (apply pow_up; exact U).
    destruct (z1_all bd lw lh Hd Hsz top T maxb up (Spec.Dr_Intra_Derivative a * 2 ^ up) d M0 U (step_max _ up U D2) (fun k Hk => conj (HTop k Hk) (MP k Hk))) as (d' & xp & E2 & F).
    rewrite E2. cbn [obind]. exists d'. split; [reflexivity|]. revert F. apply filled_ext. intros i j Hi Hj.
    assert (SP : forall p, -1 <= p <= 2 * (w + h) - 2 -> SpecA a p = SA bd w h mx Above (strA a) (upA a) en p) by (intros; apply specA_z1; assumption).
    unfold Spec.directional. cbv zeta. destruct (Z.ltb_spec a 90); [|lia]. change (Z.b2z (en && upA a)) with up. clear HX HY E E2 HTop MP IN HA HC.
    cbv zeta in ML. fold up in ML. pose proof (step_max _ up U D2) as SM. rewrite ML by (apply q_base; lia).
    rewrite Z.mul_assoc. rewrite (pos_base _ up U). rewrite <- P2. set (dx := Spec.Dr_Intra_Derivative a). set (base := (i + 1) * dx / 2 ^ (6 - up) + j * 2 ^ up).
    assert (B0 : 0 <= base) by (unfold base; apply q_base; [lia|unfold dx; lia|destruct (pow_pos6 up); lia|lia|lia]). pose proof (last_range up (w + h) U ltac:(lia)) as LR.
    destruct (Z.ltb_spec base ((w + h - 1) * 2 ^ up)).
    - apply interp_ext; symmetry; apply SP; lia.
    - symmetry. apply SP; lia.
  Qed.
  Lemma z3_ok : forall (tl : Z -> outcome Z) a d, valid_angle a -> 180 < a -> have_left = true -> tl 0 = Ok Corner -> (forall i, 0 <= i < 2 * h -> tl (-(1 + i)) = Ok (Left i)) ->
    exists d', ipred_z3 bd w h tl (flags a sm en) d = Ok d' /\ filled d d' w h 0 0 (SpecD a).
  Proof.
    intros tl a d Ha La HT HC HA. pose proof (w_range lw lh Hsz). pose proof (h_range lw lh Hsz). destruct (angle_z3 a Ha La) as (A0 & (D1 & D2) & D3).
    assert (IN : forall k, -1 <= k < 2 * h -> tl (-(1 + k)) = Ok (Left k)).
    { intros k Hk. destruct (Z.eq_dec k (-1)) as [->|]; [exact HC|apply HA; lia]. }
    destruct (z3_edge_ok bd lw lh Hd Hsz tl my sm en a Ha Left PL my_pos tailL edgeL IN La) as (lft & T & maxb & E & HTop & (M0 & MP & ML)).
    unfold ipred_z3. rewrite E. cbn [obind]. set (up := b2z (en && upL a)) in *. assert (U : up = 0 \/ up = 1) by apply b2z_or.
    assert (P2 : 2 ^ up = 1 + up) by (apply pow_up; exact U).
    destruct (z3_all bd lw lh Hd Hsz lft T maxb up (Spec.Dr_Intra_Derivative (270 - a) * 2 ^ up) d M0 U (step_max _ up U D2) (fun k Hk => conj (HTop k Hk) (MP k Hk))) as (d' & xp & E2 & F).
    rewrite E2. cbn [obind]. exists d'. split; [reflexivity|]. revert F. apply filled_ext. intros i j Hi Hj.
    unfold Spec.directional. cbv zeta. destruct (Z.ltb_spec a 90); [lia|]. destruct (Z.eqb_spec a 90); [lia|]. destruct (Z.ltb_spec a 180); [lia|]. destruct (Z.eqb_spec a 180); [lia|].
    assert (SP : forall p, -1 <= p <= 2 * (w + h) - 2 -> SpecL a p = SA bd h w my Left (strL a) (upL a) en p) by (intros; apply specL_z3; assumption).
    change (Z.b2z (en && upL a)) with up. clear HX HY E E2 HTop MP IN HA HC.
    cbv zeta in ML. fold up in ML. pose proof (step_max _ up U D2) as SM. rewrite ML by (apply q_base; lia).
    rewrite Z.mul_assoc. rewrite (pos_base _ up U). rewrite <- P2. set (dy := Spec.Dr_Intra_Derivative (270 - a)) in *. set (base := (j + 1) * dy / 2 ^ (6 - up) + i * 2 ^ up).
    assert (B2 : 0 <= base < (h + w - 1) * 2 ^ up) by (apply z3_bound; lia). pose proof (last_range up (h + w) U ltac:(lia)) as LR.
    destruct (Z.ltb_spec base ((h + w - 1) * 2 ^ up)); [|lia].
    apply interp_ext; symmetry; apply SP; lia.
  Qed.
  Lemma z2_ok : forall (tl : Z -> outcome Z) a d, valid_angle a -> 90 < a < 180 -> tl 0 = Ok (Cof filtered) -> (forall i, 0 <= i < w -> tl (1 + i) = Ok (Above i)) -> (forall i, 0 <= i < h -> tl (-(1 + i)) = Ok (Left i)) ->
    exists d', ipred_z2 bd w h tl (flags a sm en) mx my d = Ok d' /\ filled d d' w h 0 0 (SpecD a).
  Proof.
    intros tl a d Ha La HC HA HL. pose proof (w_range lw lh Hsz) as RW. pose proof (h_range lw lh Hsz) as RH. destruct (angle_z2 a Ha La) as ((D1 & D2) & (D3 & D4) & D5).
    destruct (A2_corner a La) as (CA & CL). pose proof (Cof_flat filtered) as (FA & FL).
    assert (PA2 : forall i, pixel bd (A2 a i)).
    { intros i. destruct (Z.eq_dec i (-1)) as [->|]; [rewrite CA; apply Cof_pixel|rewrite A2_rest by assumption; apply PA]. }
    assert (PL2 : forall i, pixel bd (L2 a i)).
    { intros i. destruct (Z.eq_dec i (-1)) as [->|]; [rewrite CL; apply Cof_pixel|rewrite L2_rest by assumption; apply PL]. }
    pose proof mx_pos as MX. pose proof my_pos as MY.
    destruct (z2_edge_ok bd lw lh Hd Hsz tl mx my sm en a Ha La (A2 a) (L2 a) have_top have_left PA2 PL2 MX MY) as (b & E & BA & BL).
    - intros i Hi. rewrite !A2_rest by lia. apply tailA. exact Hi.
    - intros L i Hi. rewrite !A2_rest by lia. apply edgeA; assumption.
    - intros E. destruct (flatA E) as (F & _). split; [intros i Hi; rewrite !A2_rest by lia; apply F; exact Hi|]. rewrite CA. rewrite A2_rest by lia. apply FA. exact E.
    - intros i Hi. rewrite !L2_rest by lia. apply tailL. exact Hi.
    - intros L i Hi. rewrite !L2_rest by lia. apply edgeL; assumption.
    - intros E. destruct (flatL E) as (F & _). split; [intros i Hi; rewrite !L2_rest by lia; apply F; exact Hi|]. rewrite CL. rewrite L2_rest by lia. apply FL. exact E.
    - intros k Hk. destruct (Z.eq_dec k (-1)) as [->|]; [rewrite CA; exact HC|rewrite A2_rest by assumption; apply HA; lia].
    - intros k Hk. destruct (Z.eq_dec k (-1)) as [->|]; [rewrite CL; exact HC|rewrite L2_rest by assumption; apply HL; lia].
    - rewrite CA, CL. reflexivity.
    - unfold ipred_z2. rewrite E. cbn [obind]. cbv zeta.
      destruct (z2_all bd lw lh Hd Hsz _ _ _ _ _ _ b (b2z_or _) (b2z_or _) D4 D2 ltac:(rewrite Z.mul_comm; exact D5) BA BL d) as (d' & xp & E2 & F).
      cbv zeta in E2. rewrite E2. cbn [obind]. exists d'. split; [reflexivity|]. revert F. apply filled_ext. intros i j Hi Hj.
      unfold z2_of, Spec.directional. cbv zeta. destruct (Z.ltb_spec a 90); [lia|]. destruct (Z.eqb_spec a 90); [lia|]. destruct (Z.ltb_spec a 180); [|lia].
      change (Z.b2z (en && upA a)) with (b2z (en && upA a)). change (Z.b2z (en && upL a)) with (b2z (en && upL a)).
      destruct (_ <=? _); unfold Spec.interp; rewrite ?specA_z2, ?specL_z2 by exact La; reflexivity.
  Qed.
  (** Zones 1 and 3 without the samples *)
  Lemma z1_flat : forall a i j, valid_angle a -> a < 90 -> have_top = false -> 0 <= i < h -> 0 <= j < w -> SpecD a i j = Above j.
  Proof.
    intros a i j Ha La HT Hi Hj. pose proof (w_range lw lh Hsz). pose proof (h_range lw lh Hsz). destruct (angle_z1 a Ha La) as (A0 & D1 & D2).
    destruct (flatA HT) as (F & G). pose proof (Cof_flat false) as (FA & _). specialize (FA HT). unfold corner_of in FA.
    assert (V : forall p, 0 <= p <= (w + h - 1) * 2 ^ b2z (en && upA a) -> SpecA a p = Above 0).
    { intros p Hp. unfold Spec.above_edge. cbv zeta. destruct (Z.eqb_spec a 90); [lia|]. destruct (Z.eqb_spec a 180); [lia|]. destruct (Z.ltb_spec a 90); [|lia]. 
      cbn [negb]. rewrite !andb_true_r. replace (en && have_top) with false by (rewrite HT, andb_false_r; reflexivity).
      assert (E : forall k, (if en then FC a Above else Above) k = Above k) by (intros k; destruct en; [apply fc_same; lia|reflexivity]).
      destruct (en && upA a) eqn:EU.
      - cbn [b2z] in Hp. change (2 ^ 1) with 2 in Hp. rewrite (spec_upsample_ext bd (w + h) _ Above p) by (try (intros; apply E); lia).
        apply flat_upsample; try assumption; try lia. exact PA.
      - rewrite E. apply F. lia. }
    rewrite (F j) by lia. clear HX HY F G FA. unfold Spec.directional. cbv zeta. destruct (Z.ltb_spec a 90); [|lia]. change (Z.b2z (en && upA a)) with (b2z (en && upA a)).
    set (up := b2z (en && upA a)) in *. assert (U : up = 0 \/ up = 1) by apply b2z_or. assert (P2 : 2 ^ up = 1 + up) by (apply pow_up; exact U).
    set (dx := Spec.Dr_Intra_Derivative a) in *. set (base := (i + 1) * dx / 2 ^ (6 - up) + j * 2 ^ up).
    assert (B0 : 0 <= base) by (unfold base; apply q_base; [lia|unfold dx; lia|destruct (pow_pos6 up); lia|lia|lia]). pose proof (last_range up (w + h) U ltac:(lia)) as LR.
    destruct (Z.ltb_spec base ((w + h - 1) * 2 ^ up)); [apply interp_const; apply V; lia|apply V; lia].
  Qed.
  Lemma z3_flat : forall a i j, valid_angle a -> 180 < a -> have_left = false -> 0 <= i < h -> 0 <= j < w -> SpecD a i j = Left i.
  Proof.
    intros a i j Ha La HT Hi Hj. pose proof (w_range lw lh Hsz). pose proof (h_range lw lh Hsz). destruct (angle_z3 a Ha La) as (A0 & (D1 & D2) & D3).
    destruct (flatL HT) as (F & G). pose proof (Cof_flat false) as (_ & FA). specialize (FA HT). unfold corner_of in FA.
    assert (V : forall p, 0 <= p <= (h + w - 1) * 2 ^ b2z (en && upL a) -> SpecL a p = Left 0).
    { intros p Hp. unfold Spec.left_edge. cbv zeta. destruct (Z.eqb_spec a 90); [lia|]. destruct (Z.eqb_spec a 180); [lia|]. destruct (Z.ltb_spec 180 a); [|lia]. 
      cbn [negb]. rewrite !andb_true_r. replace (en && have_left) with false by (rewrite HT, andb_false_r; reflexivity).
      assert (E : forall k, (if en then FC a Left else Left) k = Left k) by (intros k; destruct en; [apply fc_same; lia|reflexivity]).
      destruct (en && upL a) eqn:EU.
      - cbn [b2z] in Hp. change (2 ^ 1) with 2 in Hp. rewrite (spec_upsample_ext bd (h + w) _ Left p) by (try (intros; apply E); lia).
        apply flat_upsample; try assumption; try lia. exact PL.
      - rewrite E. apply F. lia. }
    rewrite (F i) by lia. clear HX HY F G FA. unfold Spec.directional. cbv zeta. destruct (Z.ltb_spec a 90); [lia|]. destruct (Z.eqb_spec a 90); [lia|]. destruct (Z.ltb_spec a 180); [lia|]. destruct (Z.eqb_spec a 180); [lia|].
    change (Z.b2z (en && upL a)) with (b2z (en && upL a)).
    set (up := b2z (en && upL a)) in *. assert (U : up = 0 \/ up = 1) by apply b2z_or. assert (P2 : 2 ^ up = 1 + up) by (apply pow_up; exact U).
    set (dy := Spec.Dr_Intra_Derivative (270 - a)) in *. set (base := (j + 1) * dy / 2 ^ (6 - up) + i * 2 ^ up).
    assert (B2 : 0 <= base < (h + w - 1) * 2 ^ up) by (apply z3_bound; lia).
    apply interp_const; apply V; lia.
  Qed.
  Lemma straight_a : forall i j, SpecD 90 i j = Above j.
  Proof.
    intros i j. unfold Spec.directional. cbv zeta. cbn [Z.ltb Z.compare Pos.compare Pos.compare_cont Z.eqb Pos.eqb]. unfold Spec.above_edge. cbv zeta.
    assert (E : upA 90 = false) by reflexivity. rewrite E. rewrite !andb_false_r. reflexivity.
  Qed.
  Lemma straight_l : forall i j, SpecD 180 i j = Left i.
  Proof.
    intros i j. unfold Spec.directional. cbv zeta. cbn [Z.ltb Z.compare Pos.compare Pos.compare_cont Z.eqb Pos.eqb]. unfold Spec.left_edge. cbv zeta.
    assert (E : upL 180 = false) by reflexivity. rewrite E. cbn [Z.eqb Pos.eqb negb]. rewrite !andb_false_r. reflexivity.
  Qed.

  (** ** All of it *)
  Notation SpecI := (Spec.intra_prediction bd cur maxX maxY (4 * x) (4 * y) have_left have_top har hbl lw lh en sm).
  Notation eok := (edges_ok bd c cur lw lh x y tw th maxX maxY have_left have_top tr bl).
  Definition room (m : Z) : Prop := 1 <= c /\ (needs_left m = true -> (if needs_bottomleft m then 2 * h else h) <= c) /\ c + (if needs_topright m then 2 * w else w) <= 256.
  Lemma room_128 : c = 128 -> forall m, room m.
  Proof.
    intros -> m. pose proof (w_range lw lh Hsz). pose proof (h_range lw lh Hsz). unfold room. split; [lia|]. split; [intros _; destruct (needs_bottomleft m); lia|destruct (needs_topright m); lia].
  Qed.
  (** The arguments of dav1d_prepare_intra_edges for a prediction *)
  Definition arg_mode (filt : option Z) (mode : Z) : Z := match filt with Some _ => FILTER_PRED | None => mode end.
  Definition arg_angle (filt : option Z) (delta : Z) : Z := match filt with Some f => f | None => delta end.
  Definition arg_ok (filt : option Z) (mode delta : Z) : Prop := match filt with Some f => 0 <= f < 5 | None => 0 <= mode <= 12 /\ -3 <= delta <= 3 end.
  Notation HasT b := (has_top bd lw (erd c b) Above).
  Notation HasL b := (has_left bd lh (erd c b) Left).
  Lemma has_t : forall m f b, eok m f b -> needs_top m = true -> HasT b.
  Proof.
    intros m f b EO N i Hi. split; [|apply PA]. apply (eo_top _ _ _ _ _ _ _ _ _ _ _ _ _ _ _ _ _ _ EO N). destruct (needs_topright m); lia.
  Qed.
  Lemma has_l : forall m f b, eok m f b -> needs_left m = true -> HasL b.
  Proof.
    intros m f b EO N i Hi. split; [|apply PL]. apply (eo_left _ _ _ _ _ _ _ _ _ _ _ _ _ _ _ _ _ _ EO N). destruct (needs_bottomleft m); lia.
  Qed.
  Lemma fill_to : forall (r : outcome plane) d u v, (exists d', r = Ok d' /\ filled d d' w h 0 0 u) -> (forall i j, 0 <= i < h -> 0 <= j < w -> u i j = v i j) -> exists d', r = Ok d' /\ filled d d' w h 0 0 v.
  Proof. intros r d u v (d' & E & F) H. exists d'. split; [exact E|]. revert F. apply filled_ext. exact H. Qed.
  Notation pred b m a := (intra_pred bd w h (erd c b) m (flags a sm en) mx my).
  (** One mode after the conversion *)
  Lemma dir_pred : forall a d m b, valid_angle a ->
    m = (if a <=? 90 then (if (a <? 90) && have_top then Z1_PRED else VERT_PRED) else if a <? 180 then Z2_PRED else (if (180 <? a) && have_left then Z3_PRED else HOR_PRED)) ->
    eok m ((m =? Z2_PRED) && (24 <=? w + h) && en) b -> exists d', pred b m a d = Ok d' /\ filled d d' w h 0 0 (SpecD a).
  Proof.
    intros a d m b Ha Em EO.
    destruct (Z.leb_spec a 90) as [La|La].
    - destruct (Z.ltb_spec a 90) as [Lb|Lb]; cbn [andb] in Em.
      + assert (ET : have_top = true \/ have_top = false) by (destruct have_top; auto). destruct ET as [ET|ET]; rewrite ET in Em; subst m.
        * unfold intra_pred. cbn [Z.eqb Pos.eqb].  apply z1_ok; try assumption.
          -- exact (eo_corner _ _ _ _ _ _ _ _ _ _ _ _ _ _ _ _ _ _ EO eq_refl).
          -- exact (eo_top _ _ _ _ _ _ _ _ _ _ _ _ _ _ _ _ _ _ EO eq_refl).
        *  pose proof (has_t _ _ _ EO eq_refl) as HT. apply fill_to with (u := fun _ j => Above j).
          -- unfold intra_pred. cbn [Z.eqb Pos.eqb]. apply (v_ok bd lw lh Hd Hsz _ _ (fun _ => 0)). exact HT.
          -- intros i j Hi Hj. symmetry. apply z1_flat; assumption.
      + assert (E : a = 90) by lia. subst a. subst m. pose proof (has_t _ _ _ EO eq_refl) as HT. apply fill_to with (u := fun _ j => Above j).
        * unfold intra_pred. cbn [Z.eqb Pos.eqb]. apply (v_ok bd lw lh Hd Hsz _ _ (fun _ => 0)). exact HT.
        * intros i j Hi Hj. symmetry. apply straight_a.
    - destruct (Z.ltb_spec a 180) as [Lb|Lb].
      + subst m. unfold intra_pred. cbn [Z.eqb Pos.eqb]. apply z2_ok; try assumption; try lia.
        * exact (eo_corner _ _ _ _ _ _ _ _ _ _ _ _ _ _ _ _ _ _ EO eq_refl).
        * exact (eo_top _ _ _ _ _ _ _ _ _ _ _ _ _ _ _ _ _ _ EO eq_refl).
        * exact (eo_left _ _ _ _ _ _ _ _ _ _ _ _ _ _ _ _ _ _ EO eq_refl).
      + destruct (Z.ltb_spec 180 a) as [Lc|Lc]; cbn [andb] in Em.
        * assert (ET : have_left = true \/ have_left = false) by (destruct have_left; auto). destruct ET as [ET|ET]; rewrite ET in Em; subst m.
          -- unfold intra_pred. cbn [Z.eqb Pos.eqb].  apply z3_ok; try assumption.
             ++ exact (eo_corner _ _ _ _ _ _ _ _ _ _ _ _ _ _ _ _ _ _ EO eq_refl).
             ++ exact (eo_left _ _ _ _ _ _ _ _ _ _ _ _ _ _ _ _ _ _ EO eq_refl).
          --  pose proof (has_l _ _ _ EO eq_refl) as HT. apply fill_to with (u := fun i _ => Left i).
             ++ unfold intra_pred. cbn [Z.eqb Pos.eqb]. apply (h_ok bd lw lh Hd Hsz _ (fun _ => 0)). exact HT.
             ++ intros i j Hi Hj. symmetry. apply z3_flat; assumption.
        * assert (E : a = 180) by lia. subst a. subst m. pose proof (has_l _ _ _ EO eq_refl) as HT. apply fill_to with (u := fun i _ => Left i).
          -- unfold intra_pred. cbn [Z.eqb Pos.eqb]. apply (h_ok bd lw lh Hd Hsz _ (fun _ => 0)). exact HT.
          -- intros i j Hi Hj. symmetry. apply straight_l.
  Qed.
  Notation SpecDC := (Spec.dc_pred bd cur maxX maxY (4 * x) (4 * y) have_left have_top har hbl lw lh).
  Lemma dc_pred_ok : forall a d m b f, m = mode_conv DC_PRED have_left have_top -> eok m f b ->
    exists d', pred b m a d = Ok d' /\ filled d d' w h 0 0 (fun _ _ => SpecDC).
  Proof.
    intros a d m b f Em EO. unfold mode_conv in Em. cbn [Z.eqb] in Em.
    assert (EL : have_left = true \/ have_left = false) by (destruct have_left; auto). assert (ET : have_top = true \/ have_top = false) by (destruct have_top; auto).
    destruct EL as [EL|EL], ET as [ET|ET]; rewrite EL, ET in Em; subst m.
    - pose proof (has_t _ _ _ EO eq_refl) as HT. pose proof (has_l _ _ _ EO eq_refl) as HL. unfold intra_pred. cbn [Z.eqb].
      rewrite (dc_ok bd lw lh Hd Hsz _ Above Left HT HL). cbn [obind]. apply fill_to with (u := fun _ _ => dc_both lw lh Above Left).
      + apply (splat_ok bd lw lh Hd Hsz (fun _ => Undef) (fun _ => 0) (fun _ => 0)). apply (dc_both_pixel bd lw lh Hsz _ _ _ HT HL).
      + intros i j _ _. unfold Spec.dc_pred. replace (have_left && have_top) with true by (rewrite EL, ET; reflexivity). reflexivity.
    - pose proof (has_l _ _ _ EO eq_refl) as HL. unfold intra_pred. cbn [Z.eqb Pos.eqb]. rewrite (dc_left_ok bd lw lh Hd Hsz _ (fun _ => 0) Left HL). cbn [obind].
      pose proof (avg_left bd lw lh Hsz _ (fun _ => 0) Left HL) as P. apply fill_to with (u := fun _ _ => (Spec.sum h Left + h / 2) / 2 ^ lh).
      + apply (splat_ok bd lw lh Hd Hsz (fun _ => Undef) (fun _ => 0) (fun _ => 0)). exact P.
      + intros i j _ _. unfold Spec.dc_pred. replace (have_left && have_top) with false by (rewrite EL, ET; reflexivity). rewrite clip_id by exact P. rewrite EL. reflexivity.
    - pose proof (has_t _ _ _ EO eq_refl) as HT. unfold intra_pred. cbn [Z.eqb Pos.eqb]. rewrite (dc_top_ok bd lw lh Hd Hsz _ Above (fun _ => 0) HT). cbn [obind].
      pose proof (avg_top bd lw lh Hsz _ Above (fun _ => 0) HT) as P. apply fill_to with (u := fun _ _ => (Spec.sum w Above + w / 2) / 2 ^ lw).
      + apply (splat_ok bd lw lh Hd Hsz (fun _ => Undef) (fun _ => 0) (fun _ => 0)). exact P.
      + intros i j _ _. unfold Spec.dc_pred. replace (have_left && have_top) with false by (rewrite EL, ET; reflexivity). rewrite clip_id with (v := (Spec.sum w Above + w / 2) / 2 ^ lw) by exact P. rewrite EL, ET. reflexivity.
    - unfold intra_pred. cbn [Z.eqb Pos.eqb]. destruct (dc_128_eq bd lh Hd (fun _ => Undef) (fun _ => 0) (fun _ => 0)) as (-> & P). apply fill_to with (u := fun _ _ => 2 ^ (bd - 1)).
      + apply (splat_ok bd lw lh Hd Hsz (fun _ => Undef) (fun _ => 0) (fun _ => 0)). exact P.
      + intros i j _ _. unfold Spec.dc_pred. rewrite EL, ET. reflexivity.
  Qed.
  Notation SpecP := (Spec.paeth bd cur maxX maxY (4 * x) (4 * y) have_left have_top har hbl lw lh).
  Lemma paeth_pred_ok : forall a d m b, m = mode_conv PAETH_PRED have_left have_top -> eok m false b ->
    exists d', pred b m a d = Ok d' /\ filled d d' w h 0 0 SpecP.
  Proof.
    intros a d m b Em EO. unfold mode_conv in Em. cbn [Z.eqb] in Em.
    assert (EL : have_left = true \/ have_left = false) by (destruct have_left; auto). assert (ET : have_top = true \/ have_top = false) by (destruct have_top; auto).
    assert (EU : forall i j, SpecP i j = paeth_of Above Left i j) by reflexivity.
    destruct EL as [EL|EL], ET as [ET|ET]; rewrite EL, ET in Em; subst m.
    - pose proof (has_t _ _ _ EO eq_refl) as HT. pose proof (has_l _ _ _ EO eq_refl) as HL. apply fill_to with (u := paeth_of Above Left).
      + unfold intra_pred. cbn [Z.eqb Pos.eqb]. apply (paeth_ok bd lw lh Hd Hsz); try assumption. split; [|apply PA].
        exact (eo_corner _ _ _ _ _ _ _ _ _ _ _ _ _ _ _ _ _ _ EO eq_refl).
      + intros i j _ _. reflexivity.
    - pose proof (has_l _ _ _ EO eq_refl) as HL. apply fill_to with (u := fun i _ => Left i).
      + unfold intra_pred. cbn [Z.eqb Pos.eqb]. apply (h_ok bd lw lh Hd Hsz _ (fun _ => 0)). exact HL.
      + intros i j Hi Hj. rewrite EU. destruct (flatA ET) as (F & G). assert (G' : Corner = Above 0) by (clear - G EL; destruct have_left; [apply G|discriminate EL]). unfold paeth_of. cbv zeta. rewrite corner_above. rewrite (F j) by lia. rewrite G'.
        replace (Above 0 + Left i - Above 0 - Left i) with 0 by lia. cbn [Z.abs]. destruct (Z.leb_spec 0 (Z.abs (Above 0 + Left i - Above 0 - Above 0))); [reflexivity|lia].
    - pose proof (has_t _ _ _ EO eq_refl) as HT. apply fill_to with (u := fun _ j => Above j).
      + unfold intra_pred. cbn [Z.eqb Pos.eqb]. apply (v_ok bd lw lh Hd Hsz _ _ (fun _ => 0)). exact HT.
      + intros i j Hi Hj. rewrite EU. destruct (flatL EL) as (F & G). assert (G' : Corner = Left 0) by (clear - G ET; destruct have_top; [apply G|discriminate ET]). unfold paeth_of. cbv zeta. rewrite corner_above. rewrite (F i) by lia. rewrite G'.
        set (q := Above j). set (l := Left 0). replace (q + l - l - l) with (q - l) by lia. replace (q + l - l - q) with 0 by lia. change (Z.abs 0) with 0.
        destruct (Z.leb_spec (Z.abs (q - l)) 0), (Z.leb_spec (Z.abs (q - l)) (Z.abs (q - l))); cbn [andb]; try lia. destruct (Z.leb_spec 0 (Z.abs (q - l))); [reflexivity|lia].
    - unfold intra_pred. cbn [Z.eqb Pos.eqb]. destruct (dc_128_eq bd lh Hd (fun _ => Undef) (fun _ => 0) (fun _ => 0)) as (-> & P). apply fill_to with (u := fun _ _ => 2 ^ (bd - 1)).
      + apply (splat_ok bd lw lh Hd Hsz (fun _ => Undef) (fun _ => 0) (fun _ => 0)). exact P.
      + intros i j Hi Hj. rewrite EU. destruct (flatL EL) as (F & G). assert (G' : Corner = 2 ^ (bd - 1) /\ Left 0 = Corner + 1 /\ Above 0 = Corner - 1) by (clear - G ET; destruct have_top; [discriminate ET|exact G]). destruct (flatA ET) as (F' & _). unfold paeth_of. cbv zeta. rewrite corner_above.
        rewrite (F i), (F' j) by lia. destruct G' as (G1 & G2 & G3). rewrite G2, G3, G1.
        set (k := 2 ^ (bd - 1)). replace (k - 1 + (k + 1) - k - (k + 1)) with (-1) by lia. replace (k - 1 + (k + 1) - k - (k - 1)) with 1 by lia. replace (k - 1 + (k + 1) - k - k) with 0 by lia. reflexivity.
  Qed.
  Lemma flags_low : forall f, 0 <= f < 5 -> Z.land (flags f sm en) 511 = f.
  Proof. intros f Hf. assert (C : f = 0 \/ f = 1 \/ f = 2 \/ f = 3 \/ f = 4) by lia. destruct C as [->|[->|[->|[->| ->]]]]; destruct sm, en; reflexivity. Qed.
  Lemma conv_of : forall filt mode delta, arg_ok filt mode delta -> exists m a, conv_mode (arg_mode filt mode) (arg_angle filt delta) have_left have_top = Ok (m, a).
  Proof.
    intros [f|] mode delta A; cbn [arg_mode arg_angle arg_ok] in *; [exists FILTER_PRED, f; reflexivity|]. unfold conv_mode.
    destruct (Z.leb_spec VERT_PRED mode) as [g1|g1], (Z.leb_spec mode VERT_LEFT_PRED) as [g2|g2]; cbn [andb];
      try (destruct ((mode =? DC_PRED) || (mode =? PAETH_PRED)); do 2 eexists; reflexivity).
    unfold VERT_PRED, VERT_LEFT_PRED in *. destruct (angle_of mode delta ltac:(lia) ltac:(lia)) as (_ & ->). cbn [obind]. do 2 eexists. reflexivity.
  Qed.
  Variable dst : Z -> Z -> outcome Z.
  Variable dst_top : Z -> outcome Z.
  Hypothesis Hdst : have_left = true -> forall i, 0 <= i -> i < 2 * h -> 4 * y + i < 4 * th -> dst i (-1) = Ok (cur (4 * y + i) (4 * x - 1)).
  Hypothesis Htop : have_top = true -> forall j, (if have_left then -1 else 0) <= j -> j < 2 * w -> 4 * x + j < 4 * tw -> dst_top j = Ok (cur (4 * y - 1) (4 * x + j)).
  Lemma intra_ok : forall filt mode delta b0 d, arg_ok filt mode delta ->
    (forall m a, conv_mode (arg_mode filt mode) (arg_angle filt delta) have_left have_top = Ok (m, a) -> room m) ->
    exists m a b d', prepare_intra_edges bd c x have_left y have_top tw th tr bl dst dst_top (arg_mode filt mode) (arg_angle filt delta) (2 ^ (lw - 2)) (2 ^ (lh - 2)) en b0 = Ok (m, a, b) /\
      pred b m a d = Ok d' /\ filled d d' w h 0 0 (SpecI filt mode delta).
  Proof.
    intros filt mode delta b0 d A R. destruct (conv_of filt mode delta A) as (m & a & EC). destruct (R m a EC) as (R1 & R2 & R3).
    destruct (prepare_ok bd c Hd cur Hcur lw lh Hsz x y tw th maxX maxY have_left have_top tr bl Hx Hy HX HY dst dst_top Hdst Htop _ _ m a en b0 EC R1 R2 R3) as (b & EP & EO).
    exists m, a, b. rewrite EP.
    assert (G : exists d', pred b m a d = Ok d' /\ filled d d' w h 0 0 (SpecI filt mode delta)); [|destruct G as (d' & E & F); exists d'; split; [reflexivity|split; assumption]].
    clear EP R R1 R2 R3. destruct filt as [f|]; cbn [arg_mode arg_angle arg_ok] in *.
    - injection EC as <- <-. pose proof (has_t _ _ _ EO eq_refl) as HT. pose proof (has_l _ _ _ EO eq_refl) as HL. unfold intra_pred, Spec.intra_prediction. cbn [Z.eqb Pos.eqb].
      rewrite spec_recursive. apply (filter_ok bd lw lh Hd Hsz); try assumption.
      + exact (eo_corner _ _ _ _ _ _ _ _ _ _ _ _ _ _ _ _ _ _ EO eq_refl).
      + intros i Hi. apply HT; exact Hi.
      + intros i Hi. apply HL; exact Hi.
      + exact PA.
      + exact PL.
      + apply flags_low; exact A.
    - unfold Spec.intra_prediction. unfold conv_mode in EC. destruct (Z.leb_spec VERT_PRED mode) as [g1|g1], (Z.leb_spec mode VERT_LEFT_PRED) as [g2|g2]; cbn [andb] in EC.
      + change ((Spec.V_PRED <=? mode) && (mode <=? Spec.D67_PRED)) with ((1 <=? mode) && (mode <=? 8)). unfold VERT_PRED, VERT_LEFT_PRED in *.
        replace ((1 <=? mode) && (mode <=? 8)) with true by (symmetry; apply andb_true_intro; split; apply Z.leb_le; lia).
        destruct (angle_of mode delta ltac:(lia) ltac:(lia)) as (VA & EM). rewrite EM in EC. cbn [obind] in EC. rewrite (Z.mul_comm 3 delta) in EC.
        injection EC as Em Ea. subst a. apply dir_pred; [exact VA|symmetry; exact Em|exact EO].
      + assert (C : mode = 9 \/ mode = 10 \/ mode = 11 \/ mode = 12) by (unfold VERT_LEFT_PRED in *; lia).
        destruct C as [->|[->|[->| ->]]]; cbn [Z.eqb Pos.eqb orb] in EC.
        * injection EC as <- <-. apply fill_to with (u := smooth_of lw lh Above Left); [|intros; reflexivity].
          apply (smooth_ok bd lw lh Hd Hsz); [exact (has_t _ _ _ EO eq_refl)|exact (has_l _ _ _ EO eq_refl)].
        * injection EC as <- <-. apply fill_to with (u := smooth_v_of lh Above Left); [|intros; reflexivity].
          apply (smooth_v_ok bd lw lh Hd Hsz); [exact (has_t _ _ _ EO eq_refl)|exact (has_l _ _ _ EO eq_refl)].
        * injection EC as <- <-. apply fill_to with (u := smooth_h_of lw Above Left); [|intros; reflexivity].
          apply (smooth_h_ok bd lw lh Hd Hsz); [exact (has_t _ _ _ EO eq_refl)|exact (has_l _ _ _ EO eq_refl)].
        * injection EC as Em <-. apply (paeth_pred_ok _ _ m b (eq_sym Em)).
          replace false with ((m =? Z2_PRED) && (24 <=? w + h) && en); [exact EO|]. replace (m =? Z2_PRED) with false; [reflexivity|].
          subst m. unfold mode_conv. cbn [Z.eqb Pos.eqb]. destruct have_left, have_top; reflexivity.
      + assert (C : mode = 0) by (unfold VERT_PRED in *; lia). subst mode. cbn [Z.eqb orb] in EC. injection EC as Em <-.
        apply (dc_pred_ok _ _ m b _ (eq_sym Em) EO).
      + unfold VERT_PRED, VERT_LEFT_PRED in *. lia.
  Qed.

  (** ** Chroma from luma *)
  Lemma dc_value : forall m b f, m = mode_conv DC_PRED have_left have_top -> eok m f b -> pixel bd SpecDC /\
    (if m =? DC_PRED then dc_gen bd w h (erd c b) else if m =? DC_128_PRED then Ok (dc_128 bd) else if m =? TOP_DC_PRED then dc_gen_top w (erd c b) else if m =? LEFT_DC_PRED then dc_gen_left h (erd c b) else Undef) = Ok SpecDC.
  Proof.
    intros m b f Em EO. unfold mode_conv in Em. cbn [Z.eqb] in Em.
    assert (EL : have_left = true \/ have_left = false) by (destruct have_left; auto). assert (ET : have_top = true \/ have_top = false) by (destruct have_top; auto).
    destruct EL as [EL|EL], ET as [ET|ET]; rewrite EL, ET in Em; subst m; cbn [Z.eqb Pos.eqb].
    - pose proof (has_t _ _ _ EO eq_refl) as HT. pose proof (has_l _ _ _ EO eq_refl) as HL. rewrite (dc_ok bd lw lh Hd Hsz _ Above Left HT HL).
      assert (E : SpecDC = dc_both lw lh Above Left) by (unfold Spec.dc_pred; replace (have_left && have_top) with true by (rewrite EL, ET; reflexivity); reflexivity).
      rewrite E. split; [apply (dc_both_pixel bd lw lh Hsz _ _ _ HT HL)|reflexivity].
    - pose proof (has_l _ _ _ EO eq_refl) as HL. change (LEFT_DC_PRED =? DC_PRED) with false. rewrite (dc_left_ok bd lw lh Hd Hsz _ (fun _ => 0) Left HL).
      pose proof (avg_left bd lw lh Hsz _ (fun _ => 0) Left HL) as P.
      assert (E : SpecDC = (Spec.sum h Left + h / 2) / 2 ^ lh).
      { unfold Spec.dc_pred. replace (have_left && have_top) with false by (rewrite EL, ET; reflexivity). rewrite clip_id by exact P. rewrite EL. reflexivity. }
      rewrite E. split; [exact P|reflexivity].
    - pose proof (has_t _ _ _ EO eq_refl) as HT. rewrite (dc_top_ok bd lw lh Hd Hsz _ Above (fun _ => 0) HT).
      pose proof (avg_top bd lw lh Hsz _ Above (fun _ => 0) HT) as P.
      assert (E : SpecDC = (Spec.sum w Above + w / 2) / 2 ^ lw).
      { unfold Spec.dc_pred. replace (have_left && have_top) with false by (rewrite EL, ET; reflexivity). rewrite clip_id with (v := (Spec.sum w Above + w / 2) / 2 ^ lw) by exact P. rewrite EL, ET. reflexivity. }
      rewrite E. split; [exact P|reflexivity].
    - destruct (dc_128_eq bd lh Hd (fun _ => Undef) (fun _ => 0) (fun _ => 0)) as (-> & P).
      assert (E : SpecDC = 2 ^ (bd - 1)) by (unfold Spec.dc_pred; rewrite EL, ET; reflexivity). rewrite E. split; [exact P|reflexivity].
  Qed.
  Lemma cfl_ok : forall luma ssx ssy w_pad h_pad ypx alpha delta b0 d, c = 128 -> (forall r k, pixel bd (luma r k)) -> 0 <= w_pad /\ 4 * w_pad < w -> 0 <= h_pad /\ 4 * h_pad < h -> -16 <= alpha <= 16 ->
    let MaxLumaW := (4 * x + w - 4 * w_pad) * 2 ^ Z.b2z ssx in let MaxLumaH := (4 * y + h - 4 * h_pad) * 2 ^ Z.b2z ssy in
    (forall r k, 0 <= r -> 0 <= k -> 4 * y * 2 ^ Z.b2z ssy + r < MaxLumaH -> 4 * x * 2 ^ Z.b2z ssx + k < MaxLumaW -> ypx r k = Ok (luma (4 * y * 2 ^ Z.b2z ssy + r) (4 * x * 2 ^ Z.b2z ssx + k))) ->
    exists m a b ac d', prepare_intra_edges bd c x have_left y have_top tw th tr bl dst dst_top DC_PRED delta (2 ^ (lw - 2)) (2 ^ (lh - 2)) en b0 = Ok (m, a, b) /\
      cfl_ac w h ssx ssy w_pad h_pad ypx = Ok ac /\ cfl_pred bd w h (erd c b) m (rd2 h w ac) alpha d = Ok d' /\
      filled d d' w h 0 0 (Spec.cfl bd cur maxX maxY (4 * x) (4 * y) have_left have_top har hbl lw lh luma ssx ssy MaxLumaW MaxLumaH alpha).
  Proof.
    intros luma ssx ssy w_pad h_pad ypx alpha delta b0 d Hc HP Hw Hh Ha ML MH HY'.
    destruct (room_128 Hc (mode_conv DC_PRED have_left have_top)) as (R1 & R2 & R3).
    destruct (prepare_ok bd c Hd cur Hcur lw lh Hsz x y tw th maxX maxY have_left have_top tr bl Hx Hy HX HY dst dst_top Hdst Htop DC_PRED delta _ delta en b0 eq_refl R1 R2 R3) as (b & EP & EO).
    destruct (dc_value _ b _ eq_refl EO) as (PD & ED).
    assert (EW : (4 * x + (w - 4 * w_pad)) * 2 ^ Z.b2z ssx = ML) by (unfold ML; f_equal; lia).
    assert (EH : (4 * y + (h - 4 * h_pad)) * 2 ^ Z.b2z ssy = MH) by (unfold MH; f_equal; lia).
    assert (HYP : forall r k, 0 <= r < (h - 4 * h_pad) * 2 ^ Z.b2z ssy -> 0 <= k < (w - 4 * w_pad) * 2 ^ Z.b2z ssx -> ypx r k = Ok (luma (4 * y * 2 ^ Z.b2z ssy + r) (4 * x * 2 ^ Z.b2z ssx + k))).
    { intros r k Hr Hk. clear - HY' EW EH Hr Hk. apply HY'; lia. }
    destruct (ac_ok bd lw lh Hd Hsz luma (4 * x) (4 * y) ssx ssy w_pad h_pad HP Hw Hh ypx HYP) as (ac & EA & QA & RA).
    destruct (cfl_block_ok bd lw lh Hd Hsz luma (4 * x) (4 * y) ssx ssy w_pad h_pad HP ypx HYP SpecDC (rd2 h w ac) alpha d PD Ha RA) as (d' & EB & F).
    { intros i j Hi Hj. apply rd2_ok; [exact Hi|exact Hj|apply QA; assumption]. }
    exists (mode_conv DC_PRED have_left have_top), delta, b, ac, d'. split; [exact EP|]. split; [exact EA|]. split; [unfold cfl_pred; rewrite ED; exact EB|].
    revert F. apply filled_ext. intros i j Hi Hj. unfold Spec.cfl, avg. rewrite EW, EH. reflexivity.
  Qed.
End Intra.

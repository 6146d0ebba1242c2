(** Units of four lines, strips of 32 units and sequences of strips. *)
From Coq Require Import ZArith List Bool Lia.
From Verif Require Import Base.CInt Base.Lemmas Base.Loop Mc.Kernel Lf.Model Lf.Line Lf.Edge.
From Verif Require Lf.Spec.
Import ListNotations.
Open Scope Z_scope.
Local Open Scope outcome_scope.

Definition lut_ok (sharp : Z) (t : lut) : Prop := forall L, 0 <= L < 64 -> rd1 64 (fst t) L = Ok (Spec.blimit sharp L) /\ rd1 64 (snd t) L = Ok (Spec.limit sharp L).

Lemma limit_range : forall sharp L, 0 <= sharp <= 7 -> 0 <= L < 64 -> 1 <= Spec.limit sharp L <= 63.
Proof.
  intros sharp L H1 H2. assert (Q : 0 <= L / 2 ^ Spec.shift sharp <= L).
  { unfold Spec.shift. rewrite !Z.gtb_ltb. destruct (Z.ltb_spec 4 sharp); [|destruct (Z.ltb_spec 0 sharp)]; [change (2 ^ 2) with 4|change (2 ^ 1) with 2|change (2 ^ 0) with 1];
      (split; [apply Z.div_pos; lia|apply Z.div_le_upper_bound; lia]). }
  unfold Spec.limit, Spec.Clip3. rewrite !Z.gtb_ltb. destruct (Z.ltb_spec 0 sharp); [|lia].
  destruct (Z.ltb_spec (L / 2 ^ Spec.shift sharp) 1); [lia|]. destruct (Z.ltb_spec (9 - sharp) (L / 2 ^ Spec.shift sharp)); lia.
Qed.
Lemma scaled_ck : forall bd x, depth bd -> 0 <= x <= 1000 -> ck (Z.shiftl x (bd - 8)) = Ok (Spec.scaled bd x).
Proof.
  intros bd x Hd Hx. rewrite Z.shiftl_mul_pow2 by (destruct Hd as [->|[->| ->]]; lia). unfold Spec.scaled. apply ck_ok. unfold INT_MIN, INT_MAX.
  destruct (bd_cases bd Hd) as [(_ & _ & E & _)|[(_ & _ & E & _)|(_ & _ & E & _)]]; rewrite E; lia.
Qed.

Section Strip.
Variables (bd rows cols : Z) (hor : bool) (pl sharp : Z) (t : lut).
Notation A := (if hor then rows else cols). Notation B := (if hor then cols else rows).
Hypothesis Hd : depth bd.
Hypothesis Hs : 0 <= sharp <= 7.
Hypothesis Ht : lut_ok sharp t.
Definition good (d : plane) (v : Z -> Z -> Z) : Prop := repr hor A B d v /\ forall a b, 0 <= a < A -> 0 <= b < B -> pixel bd (v a b).

Lemma good_ext : forall d v v', good d v -> (forall a b, 0 <= a < A -> 0 <= b < B -> v' a b = v a b) -> good d v'.
Proof. intros d v v' [R P] E. split; intros a b Ha Hb; rewrite E by assumption; [apply R|apply P]; assumption. Qed.

Lemma four_ok : forall fs lvl a0 b d v, fsize pl fs -> 0 <= lvl < 64 -> good d v -> 0 <= a0 -> a0 + 4 <= A -> reach pl fs <= b -> b + reach pl fs <= B ->
  exists d', loop_filter bd rows cols hor (Spec.blimit sharp lvl) (Spec.limit sharp lvl) (Spec.thresh lvl) (width pl fs) (yof hor a0 b) (xof hor a0 b) d = Ok d' /\
    good d' (fun a => if (a0 <=? a) && (a <? a0 + 4) then fun x => Spec.sample_filter bd pl fs sharp lvl (fun i => v a (b + i)) (x - b) else v a).
Proof.
  intros fs lvl a0 b d v FS HL G H0 H1 Hlo Hhi. pose proof (limit_range sharp lvl Hs HL) as LR. unfold loop_filter.
  rewrite (scaled_ck bd (Spec.blimit sharp lvl)) by (try exact Hd; unfold Spec.blimit; lia). cbn [obind].
  rewrite (scaled_ck bd (Spec.limit sharp lvl)) by (try exact Hd; lia). cbn [obind].
  rewrite (scaled_ck bd (Spec.thresh lvl)) by (try exact Hd; unfold Spec.thresh; (split; [apply Z.div_pos; lia|apply Z.div_le_upper_bound; lia])). cbn [obind].
  set (w := fun k a => if (a0 <=? a) && (a <? a0 + k) then fun x => Spec.sample_filter bd pl fs sharp lvl (fun i => v a (b + i)) (x - b) else v a).
  apply (for_inv _ (fun k (d : plane) => good d (w k))); [lia| |].
  - apply (good_ext d v); [exact G|]. intros a b' _ _. unfold w. destruct (Z.leb_spec a0 a), (Z.ltb_spec a (a0 + 0)); try reflexivity; lia.
  - intros k d1 Hk [R P]. assert (Ea : w k (a0 + k) = v (a0 + k)).
    { unfold w. destruct (Z.leb_spec a0 (a0 + k)), (Z.ltb_spec (a0 + k) (a0 + k)); try reflexivity; lia. }
    assert (Ha : 0 <= a0 + k < A) by lia.
    destruct (line_ok bd rows cols hor (w k) d1 (a0 + k) b Hd R P Ha pl fs sharp lvl Hlo Hhi FS) as (d2 & E & R2).
    assert (P2 := sf_pixel bd rows cols hor (w k) (a0 + k) b Hd P Ha pl fs sharp lvl Hlo Hhi FS).
    exists d2. split. { unfold yof, xof in *. destruct hor; exact E. }
    apply (good_ext d2 (fun a b' => if a =? a0 + k then Spec.sample_filter bd pl fs sharp lvl (fun i => w k (a0 + k) (b + i)) (b' - b) else w k a b')).
    { split; [exact R2|]. intros a b' H2 H3. cbv beta. destruct (a =? a0 + k); [|apply P; assumption]. apply P2. lia. }
    intros a b' _ _. cbv beta. rewrite Ea. unfold w. destruct (Z.eqb_spec a (a0 + k)) as [->|N].
    + destruct (Z.leb_spec a0 (a0 + k)), (Z.ltb_spec (a0 + k) (a0 + (k + 1))); try lia. reflexivity.
    + destruct (Z.leb_spec a0 a), (Z.ltb_spec a (a0 + (k + 1))), (Z.ltb_spec a (a0 + k)); try lia; reflexivity.
Qed.

(** An edge of a unit *)
Notation ef := (Spec.edge_filter bd pl sharp).
Lemma unit_ok : forall fs ocur oprev cur prev a0 b d v, fsize pl fs -> ocur = Ok cur -> oprev = Ok prev -> 0 <= cur < 64 -> 0 <= prev < 64 -> good d v -> 0 <= a0 -> a0 + 4 <= A -> reach pl fs <= b -> b + reach pl fs <= B ->
  exists d', filter_unit bd rows cols t hor ocur oprev (width pl fs) (yof hor a0 b) (xof hor a0 b) d = Ok d' /\
    good d' (fun a => if (a0 <=? a) && (a <? a0 + 4) then ef fs cur prev (v a) b else v a).
Proof.
  intros fs ocur oprev cur prev a0 b d v FS -> -> Hc Hp G H0 H1 Hlo Hhi. unfold filter_unit, Spec.edge_filter. cbn [obind].
  set (L := if cur =? 0 then prev else cur).
  replace (if negb (cur =? 0) then Ok cur else Ok prev) with (@Ok Z L) by (unfold L; destruct (cur =? 0); reflexivity). cbn [obind]. cbv zeta.
  assert (HL : 0 <= L < 64) by (unfold L; destruct (cur =? 0); assumption). rewrite Z.gtb_ltb.
  destruct (Z.eqb_spec L 0) as [E|N].
  - exists d. split; [reflexivity|]. apply (good_ext d v); [exact G|]. intros a b' _ _. destruct (Z.ltb_spec 0 L); [lia|]. destruct ((a0 <=? a) && (a <? a0 + 4)); reflexivity.
  - destruct (Ht L HL) as [-> ->]. cbn [obind]. destruct (Z.ltb_spec 0 L); [|lia].
    replace (Z.shiftr L 4) with (Spec.thresh L) by (unfold Spec.thresh; rewrite Z.shiftr_div_pow2 by lia; reflexivity).
    apply four_ok; assumption.
Qed.

(** A strip: the edge of unit [k] is given by [es k]. *)
Definition step (a0 b : Z) (es : Z -> option Z) (cur prev : Z -> Z) (a : Z) (line : Z -> Z) : Z -> Z :=
  if (a0 <=? a) && (a <? a0 + 128)
  then match es ((a - a0) / 4) with Some fs => ef fs (cur ((a - a0) / 4)) (prev ((a - a0) / 4)) line b | None => line end
  else line.
Lemma strip_ok : forall es ocur oprev cur prev a0 b d v,
  (forall k fs, 0 <= k < 32 -> es k = Some fs -> fsize pl fs /\ ocur k = Ok (cur k) /\ oprev k = Ok (prev k) /\ 0 <= cur k < 64 /\ 0 <= prev k < 64 /\ a0 + 4 * k + 4 <= A /\ reach pl fs <= b /\ b + reach pl fs <= B) ->
  0 <= a0 -> good d v ->
  exists d', for_ 0 32 (fun k d => match es k with Some fs => filter_unit bd rows cols t hor (ocur k) (oprev k) (width pl fs) (yof hor (a0 + 4 * k) b) (xof hor (a0 + 4 * k) b) d | None => Ok d end) d = Ok d' /\
    good d' (fun a => step a0 b es cur prev a (v a)).
Proof.
  intros es ocur oprev cur prev a0 b d v HE H0 G.
  set (w := fun n a => if a <? a0 + 4 * n then step a0 b es cur prev a (v a) else v a).
  destruct (for_inv _ (fun n (d : plane) => good d (w n)) (fun k d => match es k with Some fs => filter_unit bd rows cols t hor (ocur k) (oprev k) (width pl fs) (yof hor (a0 + 4 * k) b) (xof hor (a0 + 4 * k) b) d | None => Ok d end) 0 32 d) as (d' & E & G'); [lia| | |].
  - apply (good_ext d v); [exact G|]. intros a b' _ _. unfold w, step. destruct (Z.ltb_spec a (a0 + 4 * 0)); [|reflexivity]. destruct (Z.leb_spec a0 a); [lia|]. reflexivity.
  - intros k d1 Hk G1.
    assert (Same : es k = None -> forall a b, w (k + 1) a b = w k a b).
    { intros N a b'. unfold w, step. destruct (Z.ltb_spec a (a0 + 4 * (k + 1))), (Z.ltb_spec a (a0 + 4 * k)); try reflexivity; try lia.
      destruct (Z.leb_spec a0 a), (Z.ltb_spec a (a0 + 128)); try reflexivity; try lia. cbn [andb]. replace ((a - a0) / 4) with k by (apply (Z.div_unique (a - a0) 4 k (a - a0 - 4 * k)); lia). rewrite N. reflexivity. }
    destruct (es k) as [fs|] eqn:Ek; [|exists d1; split; [reflexivity|]; apply (good_ext d1 (w k)); [exact G1|]; intros a b' _ _; apply Same; reflexivity].
    destruct (HE k fs Hk Ek) as (FS & E1 & E2 & R1 & R2 & HA & Hlo & Hhi).
    destruct (unit_ok fs (ocur k) (oprev k) (cur k) (prev k) (a0 + 4 * k) b d1 (w k) FS E1 E2 R1 R2 G1) as (d2 & E & G2); [lia|lia|exact Hlo|exact Hhi|].
    exists d2. split; [exact E|]. apply (good_ext d2 _ _ G2). intros a b' _ _. cbv beta.
    destruct (Z.leb_spec (a0 + 4 * k) a) as [Q1|Q1], (Z.ltb_spec a (a0 + 4 * k + 4)) as [Q2|Q2]; cbn [andb].
    + unfold w at 1. destruct (Z.ltb_spec a (a0 + 4 * (k + 1))); [|lia]. unfold step.
      destruct (Z.leb_spec a0 a), (Z.ltb_spec a (a0 + 128)); try lia. cbn [andb].
      replace ((a - a0) / 4) with k by (apply (Z.div_unique (a - a0) 4 k (a - a0 - 4 * k)); lia). rewrite Ek.
      replace (w k a) with (v a); [reflexivity|]. unfold w. destruct (Z.ltb_spec a (a0 + 4 * k)); [lia|reflexivity].
    + unfold w. destruct (Z.ltb_spec a (a0 + 4 * (k + 1))), (Z.ltb_spec a (a0 + 4 * k)); try reflexivity; lia.
    + unfold w. destruct (Z.ltb_spec a (a0 + 4 * (k + 1))), (Z.ltb_spec a (a0 + 4 * k)); try reflexivity; lia.
    + lia.
  - exists d'. split; [exact E|]. apply (good_ext d' _ _ G'). intros a b' _ _. unfold w, step. change (4 * 32) with 128.
    destruct (Z.ltb_spec a (a0 + 128)); [reflexivity|]. rewrite andb_false_r. reflexivity.
Qed.
End Strip.

(** * Bits of masks *)
Lemma bit_eq : forall m k, 0 <= k -> bit m k = Z.testbit m k.
Proof.
  intros m k Hk. unfold bit. destruct (Z.testbit m k) eqn:E.
  - destruct (Z.eqb_spec (Z.land m (2 ^ k)) 0) as [Q|]; [|reflexivity]. apply (f_equal (fun x => Z.testbit x k)) in Q. rewrite Z.land_spec, E, Z.bits_0, Z.pow2_bits_true in Q by lia. discriminate Q.
  - replace (Z.land m (2 ^ k)) with 0; [reflexivity|]. symmetry. apply Z.bits_inj_0. intros j. rewrite Z.land_spec. destruct (Z.eq_dec j k) as [->|N]; [rewrite E; reflexivity|].
    rewrite Z.pow2_bits_false by lia. apply andb_false_r.
Qed.
Lemma left_bit : forall m k, 0 <= k -> left_ m k && bit m k = Z.testbit m k.
Proof.
  intros m k Hk. rewrite bit_eq by exact Hk. destruct (Z.testbit m k) eqn:E; [|apply andb_false_r]. rewrite andb_true_r. unfold left_.
  destruct (Z.eqb_spec (Z.land m (Z.lnot (2 ^ k - 1))) 0) as [Q|]; [|reflexivity]. apply (f_equal (fun x => Z.testbit x k)) in Q.
  rewrite Z.land_spec, E, Z.bits_0, Z.lnot_spec in Q by lia. replace (2 ^ k - 1) with (Z.ones k) in Q by (rewrite Z.ones_equiv; lia). rewrite Z.ones_spec_high in Q by lia. discriminate Q.
Qed.
(** The size of an edge, from bit [k] of the masks *)
Definition sz (uv : bool) (m : Z -> Z) (k : Z) : option Z :=
  if negb uv && Z.testbit (m 2) k then Some 16 else if Z.testbit (m 1) k then Some 8 else if Z.testbit (m 0) k then Some 4 else None.
Lemma sz_size : forall uv pl m k fs, uv = negb (pl =? 0) -> sz uv m k = Some fs -> fsize pl fs.
Proof.
  intros uv pl m k fs -> E. unfold sz, fsize in *. destruct (Z.eqb_spec pl 0); cbn [negb andb] in E; repeat match type of E with (if ?c then _ else _) = _ => destruct c end; try discriminate E; injection E as <-; lia.
Qed.

Lemma for_ext : forall S (f g : Z -> S -> outcome S) lo hi s, (forall i s, lo <= i < hi -> f i s = g i s) -> for_ lo hi f s = for_ lo hi g s.
Proof.
  intros S f g lo hi s E. unfold for_. assert (G : forall n i s, lo <= i -> i + Z.of_nat n <= Z.max lo hi -> ofor n i f s = ofor n i g s).
  { induction n as [|n IH]; intros i s1 H1 H2; [reflexivity|]. cbn [ofor]. rewrite E by lia. destruct (g i s1) as [s2|]; [|reflexivity]. cbn [obind]. apply IH; lia. }
  apply G; lia.
Qed.

Section Kernels.
Variables (bd rows cols : Z) (t : lut) (pl : Z) (l : Z -> Z -> outcome Z) (m : Z -> Z) (y x : Z) (d : plane).
Notation uv := (negb (pl =? 0)).
Notation body hor cur prev a0 b := (for_ 0 32 (fun k d => match sz uv m k with Some fs => filter_unit bd rows cols t hor (cur k) (prev k) (width pl fs) (yof hor (a0 + 4 * k) b) (xof hor (a0 + 4 * k) b) d | None => Ok d end) d).
Lemma h_y : pl = 0 -> loop_filter_h_sb128y bd rows cols t l (m 0) (m 1) (m 2) y x d = body true (fun k => l k 0) (fun k => l k (-1)) y x.
Proof.
  intros E. unfold loop_filter_h_sb128y. apply for_ext. intros k d1 Hk. rewrite E, left_bit, !bit_eq by lia. rewrite !Z.lor_spec. unfold sz, width. change (negb (negb (0 =? 0))) with true. cbn [andb].
  destruct (Z.testbit (m 0) k), (Z.testbit (m 1) k), (Z.testbit (m 2) k); reflexivity.
Qed.
Lemma v_y : pl = 0 -> loop_filter_v_sb128y bd rows cols t l (m 0) (m 1) (m 2) y x d = body false (fun k => l 0 k) (fun k => l (-1) k) x y.
Proof.
  intros E. unfold loop_filter_v_sb128y. apply for_ext. intros k d1 Hk. rewrite E, left_bit, !bit_eq by lia. rewrite !Z.lor_spec. unfold sz, width. change (negb (negb (0 =? 0))) with true. cbn [andb].
  destruct (Z.testbit (m 0) k), (Z.testbit (m 1) k), (Z.testbit (m 2) k); reflexivity.
Qed.
Lemma h_uv : pl <> 0 -> loop_filter_h_sb128uv bd rows cols t l (m 0) (m 1) y x d = body true (fun k => l k 0) (fun k => l k (-1)) y x.
Proof.
  intros E. unfold loop_filter_h_sb128uv. apply for_ext. intros k d1 Hk. rewrite left_bit, !bit_eq by lia. rewrite !Z.lor_spec. unfold sz, width. destruct (Z.eqb_spec pl 0); [contradiction|]. cbn [negb andb].
  destruct (Z.testbit (m 0) k), (Z.testbit (m 1) k); reflexivity.
Qed.
Lemma v_uv : pl <> 0 -> loop_filter_v_sb128uv bd rows cols t l (m 0) (m 1) y x d = body false (fun k => l 0 k) (fun k => l (-1) k) x y.
Proof.
  intros E. unfold loop_filter_v_sb128uv. apply for_ext. intros k d1 Hk. rewrite left_bit, !bit_eq by lia. rewrite !Z.lor_spec. unfold sz, width. destruct (Z.eqb_spec pl 0); [contradiction|]. cbn [negb andb].
  destruct (Z.testbit (m 0) k), (Z.testbit (m 1) k); reflexivity.
Qed.
End Kernels.

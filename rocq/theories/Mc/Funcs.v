(** put_8tap, prep_8tap, put_bilin, prep_bilin and their scaled versions. *)
From Coq Require Import ZArith List Bool Lia.
From Verif Require Import Base.CInt Base.Lemmas Base.Loop Cdef.Block Mc.Model Mc.Kernel Mc.Blocks.
From Verif Require Mc.Spec.
Import ListNotations.
Open Scope Z_scope.

Lemma Subpel_good : forall ty n m, 0 <= ty <= 3 -> 0 <= m <= 15 ->
  exists f, (forall t, 0 <= t < 8 -> Spec.Subpel (Spec.interpFilterIdx ty n) m t = 2 * f t) /\ good f.
Proof.
  intros ty n m Ht Hm. destruct (Z.eq_dec ty 3) as [->|N].
  - exists (fun t => if t =? 3 then 64 - 4 * m else if t =? 4 then 4 * m else 0). split.
    + intros t T. rewrite Subpel_bilin by assumption. destruct (t =? 3), (t =? 4); lia.
    + unfold good, pos_sum, neg_sum, Spec.sum8. cbn [Z.eqb Pos.eqb]. lia.
  - destruct (Z.eq_dec m 0) as [->|M].
    + exists (fun t => if t =? 3 then 64 else 0). split.
      * intros t T. rewrite Subpel_0 by (try apply idx_range; lia). destruct (t =? 3); lia.
      * unfold good, pos_sum, neg_sum, Spec.sum8. cbn [Z.eqb Pos.eqb]. lia.
    + destruct (get_filter_ok n ty m ltac:(lia) ltac:(lia)) as (F & f & _ & H & G). exists f. split; [intros t T; apply (H t T)|exact G].
Qed.

(** The range of the first sum. *)
Definition mid_range (bd v : Z) : Prop := - (if bd =? 8 then 1786 else 7170) <= v <= (if bd =? 8 then 5866 else 23547).
Lemma mid_int16 : forall bd v, depth bd -> mid_range bd v -> int16 v.
Proof. intros bd v D H. apply (bias_int16 bd v D H). Qed.
Lemma mod16 : forall p, 0 <= p mod 16 <= 15.
Proof. intros p. pose proof (Z.mod_pos_bound p 16 ltac:(lia)). lia. Qed.

Section Funcs.
Variables (bd : Z) (P : Z -> Z -> Z) (src : Z -> Z -> outcome Z) (w h tyh tyv : Z).
Hypothesis D : depth bd.
Hypothesis HP : forall y x, pixel bd (P y x).
Hypothesis Hw : 1 <= w <= 128.
Hypothesis Hh : 1 <= h <= 128.
Hypothesis Th : 0 <= tyh <= 3.
Hypothesis Tv : 0 <= tyv <= 3.
Let ih := Spec.interpFilterIdx tyh w.
Let iv := Spec.interpFilterIdx tyv h.

Lemma first_range : forall mx dx r x, mid_range bd (first bd P ih mx dx r x).
Proof.
  intros mx dx r x. unfold first. destruct (Subpel_good tyh w (((mx + dx * x) / 64) mod 16) Th (mod16 _)) as (f & E & G).
  cbv zeta. apply (K1_int16 bd f); auto.
Qed.
Lemma pred_range : forall mx my dx dy y x, int16 (predP bd P ih iv mx my dx dy true y x - prep_bias bd).
Proof.
  intros mx my dx dy y x. unfold predP. destruct (Subpel_good tyv h (((my + dy * y) / 64) mod 16) Tv (mod16 _)) as (f & E & G).
  cbv zeta. apply (K2_range bd f); auto. intros t T. apply first_range.
Qed.

(** Without scaling *)
Definition first1 (m r x : Z) : Z := K1 bd (Spec.Subpel ih m) (fun s => P r (x + s - 3)).
Definition pred1 (c : bool) (mx my y x : Z) : Z := K2 bd c (Spec.Subpel iv my) (fun t => first1 mx (y + t - 3) x).
Lemma frac1 : forall m x, 0 <= m <= 15 -> ((64 * m + 1024 * x) / 64) mod 16 = m /\ (64 * m + 1024 * x) / 1024 = x.
Proof.
  intros m x H. split.
  - replace (64 * m + 1024 * x) with ((m + x * 16) * 64) by ring. rewrite Z.div_mul by lia. rewrite Z.mod_add by lia. apply Z.mod_small. lia.
  - rewrite Z.mul_comm with (n := 1024). rewrite Z.div_add by lia. rewrite Z.div_small by lia. lia.
Qed.
Lemma first1_eq : forall m r x, 0 <= m <= 15 -> first1 m r x = first bd P ih (64 * m) 1024 r x.
Proof. intros m r x H. unfold first, first1. cbv zeta. destruct (frac1 m x H) as (-> & ->). reflexivity. Qed.
Lemma pred1_eq : forall c mx my y x, 0 <= mx <= 15 -> 0 <= my <= 15 -> pred1 c mx my y x = predP bd P ih iv (64 * mx) (64 * my) 1024 1024 c y x.
Proof.
  intros c mx my y x H1 H2. unfold predP, pred1. cbv zeta. destruct (frac1 my y H2) as (-> & ->).
  apply K2_ext. intros t T. rewrite first1_eq by exact H1. reflexivity.
Qed.
Lemma first1_range : forall m r x, 0 <= m <= 15 -> mid_range bd (first1 m r x).
Proof. intros m r x H. rewrite first1_eq by exact H. apply first_range. Qed.
Lemma pred1_range : forall mx my y x, 0 <= mx <= 15 -> 0 <= my <= 15 -> int16 (pred1 true mx my y x - prep_bias bd).
Proof. intros mx my y x H1 H2. rewrite pred1_eq by assumption. apply pred_range. Qed.

Definition src_ok (mx my : Z) : Prop := forall y x,
  (if my =? 0 then 0 else -3) <= y < h + (if my =? 0 then 0 else 4) -> (if mx =? 0 then 0 else -3) <= x < w + (if mx =? 0 then 0 else 4) -> src y x = Ok (P y x).

Lemma K1_0 : forall r x, first1 0 r x = Z.shiftl (P r x) (inter_bits bd).
Proof.
  intros r x. unfold first1. rewrite <- (h_centre bd _ (fun s => P r (x + s - 3)) D).
  - cbv beta. f_equal. f_equal. lia.
  - intros t T. apply Subpel_0; [apply idx_range; exact Th|exact T].
Qed.
Lemma pred1_0 : forall (c : bool) mx y x, pred1 c mx 0 y x = if c then first1 mx y x else Z.shiftr (first1 mx y x + Z.shiftr (Z.shiftl 1 (inter_bits bd)) 1) (inter_bits bd).
Proof.
  intros c mx y x. unfold pred1. rewrite <- (v_centre bd c _ (fun t => first1 mx (y + t - 3) x) D).
  - cbv beta. replace (y + 3 - 3) with y by lia. reflexivity.
  - intros t T. apply Subpel_0; [apply idx_range; exact Tv|exact T].
Qed.
Lemma put_exact : forall y x, pred1 false 0 0 y x = P y x.
Proof. intros y x. rewrite pred1_0, K1_0. bds D; nums; lia. Qed.
Lemma clip_id : forall v, pixel bd v -> Spec.Clip1 bd v = v.
Proof. intros v H. unfold pixel in H. unfold Spec.Clip1, Spec.Clip3. destruct (Z.ltb_spec v 0), (Z.ltb_spec (2 ^ bd - 1) v); lia. Qed.
Lemma pred1_v : forall (c : bool) my f y x, (forall t, 0 <= t < 8 -> Spec.Subpel iv my t = 2 * f t) ->
  pred1 c 0 my y x = rnd (Spec.sum8 (fun t => f t * P (y + t - 3) x)) (if c then 6 - inter_bits bd else 6).
Proof.
  intros c my f y x H. unfold pred1. rewrite (K2_ext bd c _ (Spec.Subpel iv my) _ (fun t => Z.shiftl (P (y + t - 3) x) (inter_bits bd))).
  - destruct c; symmetry; [apply v_prep|apply v_put]; assumption.
  - intros t T. rewrite K1_0. reflexivity.
Qed.

Lemma mid_8tap_ok : forall m F f, 0 < m <= 15 -> (forall t, 0 <= t < 8 -> rd_at F t = Ok (f t)) -> (forall t, 0 <= t < 8 -> Spec.Subpel ih m t = 2 * f t) ->
  (forall y x, -3 <= y < h + 4 -> -3 <= x < w + 4 -> src y x = Ok (P y x)) ->
  exists mid, mid_8tap bd src w h F = Ok mid /\ forall y x, 0 <= y < h + 7 -> 0 <= x < w -> mid y x = Some (first1 m (y - 3) x).
Proof.
  intros m F f Hm HF Hf HS. unfold mid_8tap.
  match goal with |- exists mid, block w (h + 7) ?val _ _ = _ /\ _ =>
    destruct (block_ok w (h + 7) val (st_mid 135) plane0 0 0 int16 (fun y x => first1 m (y - 3) x)) as (mid & E & A & _) end.
  - lia.
  - lia.
  - apply st_mid_ok; lia.
  - intros y x Hy Hx. split; [|apply (mid_int16 bd); [exact D|apply first1_range; lia]].
    rewrite (taps_ok F f _ (fun t => P (y - 3) (x + t - 3)) HF).
    + cbn [obind]. f_equal. unfold first1. apply h_half; assumption.
    + intros t T. rewrite HS by lia. f_equal. f_equal. lia.
  - exists mid. split; [exact E|]. intros y x Hy Hx. apply (A y x Hy Hx).
Qed.
Lemma mid_taps : forall n mid F f m y x, n <= 263 -> (forall t, 0 <= t < 8 -> rd_at F t = Ok (f t)) -> 0 <= y -> y + 7 < n -> 0 <= x < w ->
  (forall t, 0 <= t < 8 -> mid (y + t) x = Some (m t)) ->
  taps F (fun k => rd2 n 128 mid (y + 3 + k) x) = Ok (Spec.sum8 (fun t => f t * m t)).
Proof.
  intros n mid F f m y x Hn HF Hy1 Hy2 Hx HM. apply taps_ok; [exact HF|]. intros t T.
  replace (y + 3 + (t - 3)) with (y + t) by lia. apply rd2_ok; [lia|lia|]. apply HM. exact T.
Qed.

Section Stores.
Variables (st : Z -> Z -> Z -> plane -> outcome plane) (d : plane) (y0 x0 : Z).
Lemma put_8tap_ok : forall mx my, tyh <= 2 -> tyv <= 2 -> 0 <= mx <= 15 -> 0 <= my <= 15 -> src_ok mx my ->
  stores st w h y0 x0 (fun _ => True) ->
  exists d', put_8tap bd src w h mx my (Z.lor tyh (Z.shiftl tyv 2)) st d = Ok d' /\ filled d d' w h y0 x0 (fun y x => Spec.Clip1 bd (pred1 false mx my y x)).
Proof.
  intros mx my T1 T2 Hmx Hmy HS ST. unfold put_8tap.
  assert (EH : h_type (Z.lor tyh (Z.shiftl tyv 2)) = tyh /\ v_type (Z.lor tyh (Z.shiftl tyv 2)) = tyv).
  { assert (tyh = 0 \/ tyh = 1 \/ tyh = 2) as [->|[->| ->]] by lia; assert (tyv = 0 \/ tyv = 1 \/ tyv = 2) as [->|[->| ->]] by lia; split; reflexivity. }
  destruct EH as (-> & ->).
  assert (FH := fir_ok w tyh mx ltac:(lia) Hmx). assert (FV := fir_ok h tyv my ltac:(lia) Hmy).
  change (Spec.interpFilterIdx tyh w) with ih in FH. change (Spec.interpFilterIdx tyv h) with iv in FV.
  destruct FH as [(-> & E1 & C1)|(N1 & F1 & f1 & E1 & HF1 & Hf1 & G1)];
  destruct FV as [(-> & E2 & C2)|(N2 & F2 & f2 & E2 & HF2 & Hf2 & G2)]; rewrite E1, E2; cbn [obind]; unfold src_ok in HS;
  repeat match type of HS with context [?a =? 0] => destruct (Z.eqb_spec a 0); [try lia|try lia] end.
  - unfold put_c. apply (block_ok w h _ _ _ _ _ (fun _ => True)); [lia|lia|exact ST|]. intros y x Hy Hx. split; [|exact I].
    rewrite put_exact, clip_id by apply HP. apply HS; lia.
  - apply (block_ok w h _ _ _ _ _ (fun _ => True)); [lia|lia|exact ST|]. intros y x Hy Hx. split; [|exact I].
    rewrite (taps_ok F2 f2 _ (fun t => P (y + t - 3) x) HF2) by (intros t T; rewrite HS by lia; f_equal; f_equal; lia).
    cbn [obind]. rewrite (pred1_v false my f2 y x Hf2). reflexivity.
  - apply (block_ok w h _ _ _ _ _ (fun _ => True)); [lia|lia|exact ST|]. intros y x Hy Hx. split; [|exact I].
    rewrite (taps_ok F1 f1 _ (fun t => P y (x + t - 3)) HF1) by (intros t T; rewrite HS by lia; f_equal; f_equal; lia).
    cbn [obind]. rewrite h_put, pred1_0 by exact D. unfold first1. rewrite <- (h_half bd f1 _ _ D Hf1). reflexivity.
  - destruct (mid_8tap_ok mx F1 f1 ltac:(lia) HF1 Hf1) as (mid & E & A). { intros y x Hy Hx. apply HS; lia. }
    rewrite E. cbn [obind]. apply (block_ok w h _ _ _ _ _ (fun _ => True)); [lia|lia|exact ST|]. intros y x Hy Hx. split; [|exact I].
    rewrite (mid_taps 135 mid F2 f2 (fun t => first1 mx (y + t - 3) x) y x) by (try lia; try exact HF2; intros t T; apply A; lia).
    cbn [obind]. unfold pred1. rewrite <- (v_half bd false f2 _ _ D Hf2). reflexivity.
Qed.
Lemma prep_8tap_ok : forall mx my, tyh <= 2 -> tyv <= 2 -> 0 <= mx <= 15 -> 0 <= my <= 15 -> src_ok mx my ->
  stores st w h y0 x0 int16 ->
  exists d', prep_8tap bd src w h mx my (Z.lor tyh (Z.shiftl tyv 2)) st d = Ok d' /\ filled d d' w h y0 x0 (fun y x => pred1 true mx my y x - prep_bias bd).
Proof.
  intros mx my T1 T2 Hmx Hmy HS ST. unfold prep_8tap.
  assert (EH : h_type (Z.lor tyh (Z.shiftl tyv 2)) = tyh /\ v_type (Z.lor tyh (Z.shiftl tyv 2)) = tyv).
  { assert (tyh = 0 \/ tyh = 1 \/ tyh = 2) as [->|[->| ->]] by lia; assert (tyv = 0 \/ tyv = 1 \/ tyv = 2) as [->|[->| ->]] by lia; split; reflexivity. }
  destruct EH as (-> & ->).
  assert (PR := fun y x => pred1_range mx my y x Hmx Hmy).
  assert (FH := fir_ok w tyh mx ltac:(lia) Hmx). assert (FV := fir_ok h tyv my ltac:(lia) Hmy).
  change (Spec.interpFilterIdx tyh w) with ih in FH. change (Spec.interpFilterIdx tyv h) with iv in FV.
  destruct FH as [(-> & E1 & C1)|(N1 & F1 & f1 & E1 & HF1 & Hf1 & G1)];
  destruct FV as [(-> & E2 & C2)|(N2 & F2 & f2 & E2 & HF2 & Hf2 & G2)]; rewrite E1, E2; cbn [obind]; unfold src_ok in HS;
  repeat match type of HS with context [?a =? 0] => destruct (Z.eqb_spec a 0); [try lia|try lia] end.
  - unfold prep_c. apply (block_ok w h _ _ _ _ _ int16); [lia|lia|exact ST|]. intros y x Hy Hx. split; [|apply PR].
    rewrite HS by lia. cbn [obind]. rewrite pred1_0, K1_0. reflexivity.
  - apply (block_ok w h _ _ _ _ _ int16); [lia|lia|exact ST|]. intros y x Hy Hx. split; [|apply PR].
    rewrite (taps_ok F2 f2 _ (fun t => P (y + t - 3) x) HF2) by (intros t T; rewrite HS by lia; f_equal; f_equal; lia).
    cbn [obind]. rewrite (pred1_v true my f2 y x Hf2). reflexivity.
  - apply (block_ok w h _ _ _ _ _ int16); [lia|lia|exact ST|]. intros y x Hy Hx. split; [|apply PR].
    rewrite (taps_ok F1 f1 _ (fun t => P y (x + t - 3)) HF1) by (intros t T; rewrite HS by lia; f_equal; f_equal; lia).
    cbn [obind]. rewrite pred1_0. unfold first1. rewrite <- (h_half bd f1 _ _ D Hf1). reflexivity.
  - destruct (mid_8tap_ok mx F1 f1 ltac:(lia) HF1 Hf1) as (mid & E & A). { intros y x Hy Hx. apply HS; lia. }
    rewrite E. cbn [obind]. apply (block_ok w h _ _ _ _ _ int16); [lia|lia|exact ST|]. intros y x Hy Hx. split; [|apply PR].
    rewrite (mid_taps 135 mid F2 f2 (fun t => first1 mx (y + t - 3) x) y x) by (try lia; try exact HF2; intros t T; apply A; lia).
    cbn [obind]. cbv zeta. assert (EQ : rnd (Spec.sum8 (fun t => f2 t * first1 mx (y + t - 3) x)) 6 = pred1 true mx my y x) by exact (v_half bd true f2 _ _ D Hf2).
    rewrite EQ. specialize (PR y x). clear EQ. unfold int16 in PR. generalize dependent (pred1 true mx my y x - prep_bias bd). clear. intros v PR.
    destruct (Z.leb_spec (-32768) v), (Z.leb_spec v 32767); try lia. reflexivity.
Qed.

(** Bilinear *)
Lemma bilin_ok : forall m g a b, g 0 = Ok a -> g 1 = Ok b -> bilin m g = Ok (16 * a + m * (b - a)).
Proof. intros m g a b E1 E2. unfold bilin. rewrite E1, E2. reflexivity. Qed.
Lemma bilin_sum : forall n m G, 0 <= m <= 15 -> Spec.sum8 (fun t => Spec.Subpel (Spec.interpFilterIdx 3 n) m t * G t) = 8 * (16 * G 3 + m * (G 4 - G 3)).
Proof. intros n m G H. unfold Spec.sum8. rewrite !Subpel_bilin by lia. cbn [Z.eqb Pos.eqb]. ring. Qed.
Lemma bilin_h : forall n m G, 0 <= m <= 15 -> rnd (16 * G 3 + m * (G 4 - G 3)) (4 - inter_bits bd) = K1 bd (Spec.Subpel (Spec.interpFilterIdx 3 n) m) G.
Proof. intros n m G H. unfold K1. rewrite bilin_sum by exact H. generalize (16 * G 3 + m * (G 4 - G 3)). intros B. clear - D. bds D; nums; lia. Qed.
Lemma bilin_v : forall (c : bool) n m G, 0 <= m <= 15 -> rnd (16 * G 3 + m * (G 4 - G 3)) (if c then 4 else 4 + inter_bits bd) = K2 bd c (Spec.Subpel (Spec.interpFilterIdx 3 n) m) G.
Proof. intros c n m G H. unfold K2. rewrite bilin_sum by exact H. generalize (16 * G 3 + m * (G 4 - G 3)). intros B. clear - D. bds D; destruct c; nums; lia. Qed.
Lemma pred1_bv : forall (c : bool) my y x, tyv = 3 -> 0 <= my <= 15 ->
  pred1 c 0 my y x = rnd (16 * P y x + my * (P (y + 1) x - P y x)) (if c then 4 - inter_bits bd else 4).
Proof.
  intros c my y x T H. unfold pred1. rewrite (K2_ext bd c _ (Spec.Subpel iv my) _ (fun t => Z.shiftl (P (y + t - 3) x) (inter_bits bd))) by (intros t _; rewrite K1_0; reflexivity).
  unfold K2, iv. rewrite T, bilin_sum by exact H. replace (y + 3 - 3) with y by lia. replace (y + 4 - 3) with (y + 1) by lia.
  replace (16 * Z.shiftl (P y x) (inter_bits bd) + my * (Z.shiftl (P (y + 1) x) (inter_bits bd) - Z.shiftl (P y x) (inter_bits bd)))
    with (2 ^ inter_bits bd * (16 * P y x + my * (P (y + 1) x - P y x))).
  - generalize (16 * P y x + my * (P (y + 1) x - P y x)). intros B. clear - D. bds D; destruct c; nums; lia.
  - rewrite !Z.shiftl_mul_pow2 by (clear - D; bds D; nums; lia). ring.
Qed.
Lemma mid_bilin_ok : forall m, tyh = 3 -> 0 < m <= 15 -> (forall y x, 0 <= y <= h -> 0 <= x <= w -> src y x = Ok (P y x)) ->
  exists mid, mid_bilin bd src w h m = Ok mid /\ forall y x, 0 <= y <= h -> 0 <= x < w -> mid y x = Some (first1 m y x).
Proof.
  intros m T Hm HS. unfold mid_bilin.
  match goal with |- exists mid, block w (h + 1) ?val _ _ = _ /\ _ =>
    destruct (block_ok w (h + 1) val (st_mid 129) plane0 0 0 int16 (fun y x => first1 m y x)) as (mid & E & A & _) end.
  - lia.
  - lia.
  - apply st_mid_ok; lia.
  - intros y x Hy Hx. split; [|apply (mid_int16 bd); [exact D|apply first1_range; lia]].
    rewrite (bilin_ok m _ (P y x) (P y (x + 1))) by (rewrite HS by lia; f_equal; f_equal; lia).
    cbn [obind]. f_equal. unfold first1, ih. rewrite T, <- bilin_h by lia.
    replace (x + 3 - 3) with x by lia. replace (x + 4 - 3) with (x + 1) by lia. reflexivity.
  - exists mid. split; [exact E|]. intros y x Hy Hx. apply (A y x ltac:(lia) Hx).
Qed.
Lemma put_bilin_ok : forall mx my, tyh = 3 -> tyv = 3 -> 0 <= mx <= 15 -> 0 <= my <= 15 -> src_ok mx my ->
  stores st w h y0 x0 (fun _ => True) ->
  exists d', put_bilin bd src w h mx my st d = Ok d' /\ filled d d' w h y0 x0 (fun y x => Spec.Clip1 bd (pred1 false mx my y x)).
Proof.
  intros mx my T1 T2 Hmx Hmy HS ST. unfold put_bilin, src_ok in *. cbv zeta.
  destruct (Z.eqb_spec mx 0) as [->|Nx]; destruct (Z.eqb_spec my 0) as [->|Ny]; cbn [negb].
  - unfold put_c. apply (block_ok w h _ _ _ _ _ (fun _ => True)); [lia|lia|exact ST|]. intros y x Hy Hx. split; [|exact I].
    rewrite put_exact, clip_id by apply HP. apply HS; lia.
  - apply (block_ok w h _ _ _ _ _ (fun _ => True)); [lia|lia|exact ST|]. intros y x Hy Hx. split; [|exact I].
    rewrite (bilin_ok my _ (P y x) (P (y + 1) x)) by (rewrite HS by lia; f_equal; f_equal; lia).
    cbn [obind]. rewrite pred1_bv by assumption. reflexivity.
  - apply (block_ok w h _ _ _ _ _ (fun _ => True)); [lia|lia|exact ST|]. intros y x Hy Hx. split; [|exact I].
    rewrite (bilin_ok mx _ (P y x) (P y (x + 1))) by (rewrite HS by lia; f_equal; f_equal; lia).
    cbn [obind]. rewrite pred1_0. unfold first1, ih. rewrite T1, <- bilin_h by exact Hmx.
    replace (x + 3 - 3) with x by lia. replace (x + 4 - 3) with (x + 1) by lia. reflexivity.
  - destruct (mid_bilin_ok mx T1 ltac:(lia)) as (mid & E & A). { intros y x Hy Hx. apply HS; lia. }
    rewrite E. cbn [obind]. apply (block_ok w h _ _ _ _ _ (fun _ => True)); [lia|lia|exact ST|]. intros y x Hy Hx. split; [|exact I].
    rewrite (bilin_ok my _ (first1 mx y x) (first1 mx (y + 1) x)) by (apply rd2_ok; [lia|lia|rewrite ?Z.add_0_r; apply A; lia]).
    cbn [obind]. unfold pred1, iv. rewrite T2, <- bilin_v by exact Hmy.
    replace (y + 3 - 3) with y by lia. replace (y + 4 - 3) with (y + 1) by lia. reflexivity.
Qed.
Lemma prep_bilin_ok : forall mx my, tyh = 3 -> tyv = 3 -> 0 <= mx <= 15 -> 0 <= my <= 15 -> src_ok mx my ->
  stores st w h y0 x0 int16 ->
  exists d', prep_bilin bd src w h mx my st d = Ok d' /\ filled d d' w h y0 x0 (fun y x => pred1 true mx my y x - prep_bias bd).
Proof.
  intros mx my T1 T2 Hmx Hmy HS ST. unfold prep_bilin, src_ok in *.
  assert (PR := fun y x => pred1_range mx my y x Hmx Hmy).
  destruct (Z.eqb_spec mx 0) as [->|Nx]; destruct (Z.eqb_spec my 0) as [->|Ny]; cbn [negb].
  - unfold prep_c. apply (block_ok w h _ _ _ _ _ int16); [lia|lia|exact ST|]. intros y x Hy Hx. split; [|apply PR].
    rewrite HS by lia. cbn [obind]. rewrite pred1_0, K1_0. reflexivity.
  - apply (block_ok w h _ _ _ _ _ int16); [lia|lia|exact ST|]. intros y x Hy Hx. split; [|apply PR].
    rewrite (bilin_ok my _ (P y x) (P (y + 1) x)) by (rewrite HS by lia; f_equal; f_equal; lia).
    cbn [obind]. rewrite pred1_bv by assumption. reflexivity.
  - apply (block_ok w h _ _ _ _ _ int16); [lia|lia|exact ST|]. intros y x Hy Hx. split; [|apply PR].
    rewrite (bilin_ok mx _ (P y x) (P y (x + 1))) by (rewrite HS by lia; f_equal; f_equal; lia).
    cbn [obind]. rewrite pred1_0. unfold first1, ih. rewrite T1, <- bilin_h by exact Hmx.
    replace (x + 3 - 3) with x by lia. replace (x + 4 - 3) with (x + 1) by lia. reflexivity.
  - destruct (mid_bilin_ok mx T1 ltac:(lia)) as (mid & E & A). { intros y x Hy Hx. apply HS; lia. }
    rewrite E. cbn [obind]. apply (block_ok w h _ _ _ _ _ int16); [lia|lia|exact ST|]. intros y x Hy Hx. split; [|apply PR].
    rewrite (bilin_ok my _ (first1 mx y x) (first1 mx (y + 1) x)) by (apply rd2_ok; [lia|lia|rewrite ?Z.add_0_r; apply A; lia]).
    cbn [obind]. unfold pred1, iv. rewrite T2, <- bilin_v by exact Hmy.
    replace (y + 3 - 3) with y by lia. replace (y + 4 - 3) with (y + 1) by lia. reflexivity.
Qed.

(** Scaled *)
Definition src_ok_s (mx my dx dy : Z) : Prop := forall y x,
  -3 <= y <= (my + dy * (h - 1)) / 1024 + 4 -> -3 <= x <= (mx + dx * (w - 1)) / 1024 + 4 -> src y x = Ok (P y x).
Lemma shift6 : forall p, Z.shiftr (p mod 1024) 6 = (p / 64) mod 16.
Proof.
  intros p. rewrite Z.shiftr_div_pow2 by lia. change (2 ^ 6) with 64. pose proof (Z.div_mod p 1024 ltac:(lia)) as E.
  pose proof (Z.mod_pos_bound p 1024 ltac:(lia)). rewrite E at 2.
  replace (1024 * (p / 1024) + p mod 1024) with (p mod 1024 + (16 * (p / 1024)) * 64) by ring. rewrite Z.div_add by lia.
  replace (p mod 1024 / 64 + 16 * (p / 1024)) with (p mod 1024 / 64 + (p / 1024) * 16) by ring. rewrite Z.mod_add by lia. symmetry. apply Z.mod_small.
  split; [apply Z.div_pos; lia|apply Z.div_lt_upper_bound; lia].
Qed.
Lemma pos_mono : forall m s n x, 0 <= m < 1024 -> 0 <= s -> 0 <= x <= n -> 0 <= (m + s * x) / 1024 <= (m + s * n) / 1024.
Proof. intros m s n x Hm Hs Hx. split; [apply Z.div_pos; nia|apply Z.div_le_mono; nia]. Qed.
Lemma last_row : forall m s n, 0 <= m < 1024 -> 0 <= s <= 2048 -> 0 <= n <= 127 -> (m + s * n) / 1024 <= 254.
Proof. intros m s n Hm Hs Hn. assert (m + s * n < 1024 * 255) by nia. apply Z.lt_succ_r. apply Z.div_lt_upper_bound; lia. Qed.

Section Scaled.
Variables (mx my dx dy : Z).
Hypothesis Hmx : 0 <= mx < 1024.
Hypothesis Hmy : 0 <= my < 1024.
Hypothesis Hdx : 0 <= dx <= 2048.
Hypothesis Hdy : 0 <= dy <= 2048.
Hypothesis HS : src_ok_s mx my dx dy.
Let fst' := first bd P ih mx dx.
Let pr := predP bd P ih iv mx my dx dy.

Lemma tmp_h : Z.shiftr ((h - 1) * dy + my) 10 = (my + dy * (h - 1)) / 1024.
Proof. rewrite Z.shiftr_div_pow2 by lia. f_equal. ring. Qed.
Lemma mid_8tap_scaled_ok : tyh <= 2 ->
  exists mid, mid_8tap_scaled bd src w h mx my dx dy (Z.lor tyh (Z.shiftl tyv 2)) = Ok mid /\
    forall y x, 0 <= y < (my + dy * (h - 1)) / 1024 + 8 -> 0 <= x < w -> mid y x = Some (fst' (y - 3) x).
Proof.
  intros T1. unfold mid_8tap_scaled. rewrite tmp_h.
  assert (EH : h_type (Z.lor tyh (Z.shiftl tyv 2)) = tyh).
  { assert (tyh = 0 \/ tyh = 1 \/ tyh = 2) as [->|[->| ->]] by lia; assert (tyv = 0 \/ tyv = 1 \/ tyv = 2 \/ tyv = 3) as [->|[->|[->| ->]]] by lia; reflexivity. }
  rewrite EH. pose proof (last_row my dy (h - 1) Hmy Hdy ltac:(lia)). pose proof (pos_mono my dy (h - 1) 0 Hmy ltac:(lia) ltac:(lia)).
  apply scaled_rows_ok; [lia|lia|exact Hmx|]. intros y x Hy Hx. split; [|apply (mid_int16 bd); [exact D|apply first_range]].
  pose proof (pos_mono mx dx (w - 1) x Hmx ltac:(lia) ltac:(lia)). unfold fst', first. cbv zeta.
  rewrite shift6. set (p := mx + dx * x) in *. assert (FH := fir_ok w tyh ((p / 64) mod 16) ltac:(lia) (mod16 _)). change (Spec.interpFilterIdx tyh w) with ih in FH.
  destruct FH as [(Z1 & E1 & C1)|(N1 & F1 & f1 & E1 & HF1 & Hf1 & G1)]; rewrite E1; cbn [obind].
  - rewrite HS by lia. cbn [obind]. rewrite <- (h_centre bd _ (fun s => P (y - 3) (p / 1024 + s - 3)) D C1). cbv beta.
    replace (p / 1024 + 3 - 3) with (p / 1024) by lia. reflexivity.
  - rewrite (taps_ok F1 f1 _ (fun t => P (y - 3) (p / 1024 + t - 3)) HF1) by (intros t T; rewrite HS by lia; f_equal; f_equal; lia).
    cbn [obind]. rewrite (h_half bd f1 _ _ D Hf1). reflexivity.
Qed.
Lemma mid_bilin_scaled_ok : tyh = 3 ->
  exists mid, mid_bilin_scaled bd src w h mx my dx dy = Ok mid /\
    forall y x, 0 <= y < (my + dy * (h - 1)) / 1024 + 2 -> 0 <= x < w -> mid y x = Some (fst' y x).
Proof.
  intros T1. unfold mid_bilin_scaled. rewrite tmp_h.
  pose proof (last_row my dy (h - 1) Hmy Hdy ltac:(lia)). pose proof (pos_mono my dy (h - 1) 0 Hmy ltac:(lia) ltac:(lia)).
  apply scaled_rows_ok; [lia|lia|exact Hmx|]. intros y x Hy Hx. split; [|apply (mid_int16 bd); [exact D|apply first_range]].
  pose proof (pos_mono mx dx (w - 1) x Hmx ltac:(lia) ltac:(lia)). unfold fst', first. cbv zeta.
  rewrite shift6. set (p := mx + dx * x) in *.
  rewrite (bilin_ok _ _ (P y (p / 1024)) (P y (p / 1024 + 1))) by (rewrite HS by lia; f_equal; f_equal; lia).
  cbn [obind]. unfold ih. rewrite T1, <- bilin_h by apply mod16.
  replace (p / 1024 + 3 - 3) with (p / 1024) by lia. replace (p / 1024 + 4 - 3) with (p / 1024 + 1) by lia. reflexivity.
Qed.
Lemma put_8tap_scaled_ok : tyh <= 2 -> tyv <= 2 -> stores st w h y0 x0 (fun _ => True) ->
  exists d', put_8tap_scaled bd src w h mx my dx dy (Z.lor tyh (Z.shiftl tyv 2)) st d = Ok d' /\ filled d d' w h y0 x0 (fun y x => Spec.Clip1 bd (pr false y x)).
Proof.
  intros T1 T2 ST. unfold put_8tap_scaled. destruct (mid_8tap_scaled_ok T1) as (mid & E & A). rewrite E. cbn [obind].
  assert (EV : v_type (Z.lor tyh (Z.shiftl tyv 2)) = tyv).
  { assert (tyh = 0 \/ tyh = 1 \/ tyh = 2) as [->|[->| ->]] by lia; assert (tyv = 0 \/ tyv = 1 \/ tyv = 2) as [->|[->| ->]] by lia; reflexivity. }
  rewrite EV. pose proof (last_row my dy (h - 1) Hmy Hdy ltac:(lia)).
  apply (scaled_cols_ok _ _ _ _ _ _ _ _ _ _ (fun _ => True)); [lia|lia|exact Hmy|exact ST|]. intros y x Hy Hx. split; [|exact I].
  pose proof (pos_mono my dy (h - 1) y Hmy ltac:(lia) ltac:(lia)). unfold pr, predP. cbv zeta. rewrite shift6. set (q := my + dy * y) in *.
  assert (FV := fir_ok h tyv ((q / 64) mod 16) ltac:(lia) (mod16 _)). change (Spec.interpFilterIdx tyv h) with iv in FV.
  destruct FV as [(Z1 & E1 & C1)|(N1 & F1 & f1 & E1 & HF1 & Hf1 & G1)]; rewrite E1; cbn [obind].
  - rewrite (rd2_ok 263 128 mid (3 + q / 1024) x (fst' (q / 1024) x)) by (try lia; rewrite A by lia; f_equal; f_equal; lia).
    cbn [obind]. rewrite <- (v_centre bd false _ _ D C1). cbv beta. replace (q / 1024 + 3 - 3) with (q / 1024) by lia. reflexivity.
  - rewrite Z.add_comm with (n := 3).
    rewrite (mid_taps 263 mid F1 f1 (fun t => fst' (q / 1024 + t - 3) x)) by (try lia; try exact HF1; intros t T; apply A; lia).
    cbn [obind]. rewrite <- (v_half bd false f1 _ _ D Hf1). reflexivity.
Qed.
Lemma prep_8tap_scaled_ok : tyh <= 2 -> tyv <= 2 -> stores st w h y0 x0 int16 ->
  exists d', prep_8tap_scaled bd src w h mx my dx dy (Z.lor tyh (Z.shiftl tyv 2)) st d = Ok d' /\ filled d d' w h y0 x0 (fun y x => pr true y x - prep_bias bd).
Proof.
  intros T1 T2 ST. unfold prep_8tap_scaled. destruct (mid_8tap_scaled_ok T1) as (mid & E & A). rewrite E. cbn [obind].
  assert (EV : v_type (Z.lor tyh (Z.shiftl tyv 2)) = tyv).
  { assert (tyh = 0 \/ tyh = 1 \/ tyh = 2) as [->|[->| ->]] by lia; assert (tyv = 0 \/ tyv = 1 \/ tyv = 2) as [->|[->| ->]] by lia; reflexivity. }
  rewrite EV. pose proof (last_row my dy (h - 1) Hmy Hdy ltac:(lia)).
  apply (scaled_cols_ok _ _ _ _ _ _ _ _ _ _ int16); [lia|lia|exact Hmy|exact ST|]. intros y x Hy Hx. split; [|apply pred_range].
  pose proof (pos_mono my dy (h - 1) y Hmy ltac:(lia) ltac:(lia)). unfold pr, predP. cbv zeta. rewrite shift6. set (q := my + dy * y) in *.
  assert (FV := fir_ok h tyv ((q / 64) mod 16) ltac:(lia) (mod16 _)). change (Spec.interpFilterIdx tyv h) with iv in FV.
  destruct FV as [(Z1 & E1 & C1)|(N1 & F1 & f1 & E1 & HF1 & Hf1 & G1)]; rewrite E1; cbn [obind].
  - rewrite (rd2_ok 263 128 mid (3 + q / 1024) x (fst' (q / 1024) x)) by (try lia; rewrite A by lia; f_equal; f_equal; lia).
    cbn [obind]. rewrite <- (v_centre bd true _ _ D C1). cbv beta. replace (q / 1024 + 3 - 3) with (q / 1024) by lia. reflexivity.
  - rewrite Z.add_comm with (n := 3).
    rewrite (mid_taps 263 mid F1 f1 (fun t => fst' (q / 1024 + t - 3) x)) by (try lia; try exact HF1; intros t T; apply A; lia).
    cbn [obind]. rewrite <- (v_half bd true f1 _ _ D Hf1). reflexivity.
Qed.
Lemma put_bilin_scaled_ok : tyh = 3 -> tyv = 3 -> stores st w h y0 x0 (fun _ => True) ->
  exists d', put_bilin_scaled bd src w h mx my dx dy st d = Ok d' /\ filled d d' w h y0 x0 (fun y x => Spec.Clip1 bd (pr false y x)).
Proof.
  intros T1 T2 ST. unfold put_bilin_scaled. destruct (mid_bilin_scaled_ok T1) as (mid & E & A). rewrite E. cbn [obind].
  pose proof (last_row my dy (h - 1) Hmy Hdy ltac:(lia)).
  apply (scaled_cols_ok _ _ _ _ _ _ _ _ _ _ (fun _ => True)); [lia|lia|exact Hmy|exact ST|]. intros y x Hy Hx. split; [|exact I].
  pose proof (pos_mono my dy (h - 1) y Hmy ltac:(lia) ltac:(lia)). unfold pr, predP. cbv zeta. rewrite shift6. set (q := my + dy * y) in *.
  rewrite (bilin_ok _ _ (fst' (q / 1024) x) (fst' (q / 1024 + 1) x)) by (apply rd2_ok; [lia|lia|rewrite A by lia; f_equal; f_equal; lia]).
  cbn [obind]. unfold iv. rewrite T2, <- bilin_v by apply mod16.
  replace (q / 1024 + 3 - 3) with (q / 1024) by lia. replace (q / 1024 + 4 - 3) with (q / 1024 + 1) by lia. reflexivity.
Qed.
Lemma prep_bilin_scaled_ok : tyh = 3 -> tyv = 3 -> stores st w h y0 x0 int16 ->
  exists d', prep_bilin_scaled bd src w h mx my dx dy st d = Ok d' /\ filled d d' w h y0 x0 (fun y x => pr true y x - prep_bias bd).
Proof.
  intros T1 T2 ST. unfold prep_bilin_scaled. destruct (mid_bilin_scaled_ok T1) as (mid & E & A). rewrite E. cbn [obind].
  pose proof (last_row my dy (h - 1) Hmy Hdy ltac:(lia)).
  apply (scaled_cols_ok _ _ _ _ _ _ _ _ _ _ int16); [lia|lia|exact Hmy|exact ST|]. intros y x Hy Hx. split; [|apply pred_range].
  pose proof (pos_mono my dy (h - 1) y Hmy ltac:(lia) ltac:(lia)). unfold pr, predP. cbv zeta. rewrite shift6. set (q := my + dy * y) in *.
  rewrite (bilin_ok _ _ (fst' (q / 1024) x) (fst' (q / 1024 + 1) x)) by (apply rd2_ok; [lia|lia|rewrite A by lia; f_equal; f_equal; lia]).
  cbn [obind]. unfold iv. rewrite T2, <- bilin_v by apply mod16.
  replace (q / 1024 + 3 - 3) with (q / 1024) by lia. replace (q / 1024 + 4 - 3) with (q / 1024 + 1) by lia. reflexivity.
Qed.
End Scaled.

(** * The table of functions *)
Lemma fns_ok : forall f0 f1 fn, 0 <= f0 <= 3 -> 0 <= f1 <= 3 -> (f0 = 3 <-> f1 = 3) ->
  rd_at (nth (Z.to_nat f1) filter_2d_tbl []) f0 = Ok fn ->
  rd_at mc_fns fn = Ok (if f0 =? 3 then None else Some (Z.lor f1 (Z.shiftl f0 2))).
Proof.
  intros f0 f1 fn H0 H1 HE. assert (f0 = 0 \/ f0 = 1 \/ f0 = 2 \/ f0 = 3) as [->|[->|[->| ->]]] by lia; assert (f1 = 0 \/ f1 = 1 \/ f1 = 2 \/ f1 = 3) as [->|[->|[->| ->]]] by lia;
    try lia; intros E; vm_compute in E; injection E as <-; reflexivity.
Qed.
End Stores.
End Funcs.

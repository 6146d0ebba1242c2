(** The functions of Dav1dMCDSPContext that predict a block. *)
From Coq Require Import ZArith List Bool Lia.
From Verif Require Import Base.CInt Base.Lemmas Base.Loop Cdef.Block Mc.Model Mc.Kernel.
From Verif Require Mc.Spec.
Import ListNotations.
Open Scope Z_scope.

(** * Loops *)
Definition stores (st : Z -> Z -> Z -> plane -> outcome plane) (w h y0 x0 : Z) (ok : Z -> Prop) : Prop :=
  forall y x v d, 0 <= y < h -> 0 <= x < w -> ok v -> st y x v d = Ok (set2 d (y0 + y) (x0 + x) v).
Definition filled (d0 d : plane) (w h y0 x0 : Z) (u : Z -> Z -> Z) : Prop :=
  (forall y x, 0 <= y < h -> 0 <= x < w -> d (y0 + y) (x0 + x) = Some (u y x)) /\
  (forall Y X, ~ within y0 (y0 + h) x0 (x0 + w) Y X -> d Y X = d0 Y X).
Lemma s16_id : forall v, int16 v -> s16 v = v.
Proof. intros v H. unfold int16 in H. unfold s16. apply sN_id; lia. Qed.
Lemma st_px_ok : forall rows stride y0 x0 w h ok, 0 <= y0 -> y0 + h <= rows -> 0 <= x0 -> x0 + w <= stride -> stores (st_px rows stride y0 x0) w h y0 x0 ok.
Proof. intros rows stride y0 x0 w h ok H1 H2 H3 H4 y x v d Hy Hx _. unfold st_px. apply wr2_ok; lia. Qed.
Lemma st_tmp_ok : forall w h, stores (st_tmp w h) w h 0 0 int16.
Proof. intros w h y x v d Hy Hx H. unfold st_tmp. rewrite s16_id by exact H. apply wr2_ok; lia. Qed.
Lemma st_mid_ok : forall n w h, w <= 128 -> h <= n -> stores (st_mid n) w h 0 0 int16.
Proof. intros n w h H1 H2 y x v d Hy Hx H. unfold st_mid. rewrite s16_id by exact H. apply wr2_ok; lia. Qed.

Lemma block_ok : forall w h val st d y0 x0 ok u, 1 <= h -> 0 <= w -> stores st w h y0 x0 ok ->
  (forall y x, 0 <= y < h -> 0 <= x < w -> val y x = Ok (u y x) /\ ok (u y x)) ->
  exists d', block w h val st d = Ok d' /\ filled d d' w h y0 x0 u.
Proof.
  intros w h val st d y0 x0 ok u Hh Hw S H. unfold block. destruct (Z.leb_spec 1 h) as [_|]; [|lia].
  apply (map_rect h w (fun y x d => obind (val y x) (fun v => st y x v d)) u y0 x0 d); [lia|exact Hw|].
  intros y x e Hy Hx _. destruct (H y x Hy Hx) as (E & O). rewrite E. cbn [obind]. apply S; assumption.
Qed.

Lemma pos_step : forall m d x, 0 <= m < 1024 -> (m + d * x) mod 1024 + d = m + d * (x + 1) - 1024 * ((m + d * x) / 1024).
Proof. intros m d x H. pose proof (Z.div_mod (m + d * x) 1024 ltac:(lia)). lia. Qed.
Lemma land_step : forall m d x, Z.land ((m + d * x) mod 1024 + d) 1023 = (m + d * (x + 1)) mod 1024.
Proof.
  intros m d x. change 1023 with (Z.ones 10). rewrite Z.land_ones by lia. change (2 ^ 10) with 1024.
  rewrite Zplus_mod_idemp_l. f_equal. ring.
Qed.
Lemma shift_step : forall m d x, (m + d * x) / 1024 + Z.shiftr ((m + d * x) mod 1024 + d) 10 = (m + d * (x + 1)) / 1024.
Proof.
  intros m d x. rewrite Z.shiftr_div_pow2 by lia. change (2 ^ 10) with 1024.
  replace (m + d * (x + 1)) with ((m + d * x) mod 1024 + d + ((m + d * x) / 1024) * 1024) by (pose proof (Z.div_mod (m + d * x) 1024 ltac:(lia)); lia).
  rewrite Z.div_add by lia. ring.
Qed.

Lemma scaled_rows_ok : forall w n nm mx dx val u, 1 <= n <= nm -> 0 <= w <= 128 -> 0 <= mx < 1024 ->
  (forall y x, 0 <= y < n -> 0 <= x < w -> val y ((mx + dx * x) mod 1024) ((mx + dx * x) / 1024) = Ok (u y x) /\ int16 (u y x)) ->
  exists mid, scaled_rows w n nm mx dx val = Ok mid /\ forall y x, 0 <= y < n -> 0 <= x < w -> mid y x = Some (u y x).
Proof.
  intros w n nm mx dx val u Hn Hw Hm H. unfold scaled_rows. destruct (Z.leb_spec 1 n) as [_|]; [|lia].
  match goal with |- exists m', for_ 0 n ?f plane0 = Ok m' /\ _ =>
    destruct (for_inv _ (fun y (d : plane) => forall j i, 0 <= j < y -> 0 <= i < w -> d j i = Some (u j i)) f 0 n plane0 ltac:(lia)) as (mid & E & A) end.
  - intros; lia.
  - intros y d Hy HA.
    match goal with |- exists s', obind (for_ 0 w ?f (d, mx, 0)) _ = _ /\ _ =>
      destruct (for_inv _ (fun x (s : plane * Z * Z) => snd (fst s) = (mx + dx * x) mod 1024 /\ snd s = (mx + dx * x) / 1024 /\
        (forall j i, 0 <= i < w -> (0 <= j < y \/ j = y /\ i < x) -> fst (fst s) j i = Some (u j i))) f 0 w (d, mx, 0) ltac:(lia)) as (s & E & _ & _ & B) end.
    + cbn [fst snd]. rewrite Z.mul_0_r, Z.add_0_r, Z.mod_small, Z.div_small by lia. repeat split. intros j i Hi Hj. apply HA; lia.
    + intros x [[e imx] ioff] Hx (I1 & I2 & B). cbn [fst snd] in *. subst imx ioff. destruct (H y x Hy Hx) as (EV & O). rewrite EV. cbn [obind].
      rewrite (st_mid_ok nm 128 nm ltac:(lia) ltac:(lia) y x (u y x) e ltac:(lia) ltac:(lia) O). cbn [obind].
      eexists. split; [reflexivity|]. cbn [fst snd]. split; [apply land_step|]. split; [apply shift_step|].
      intros j i Hi Hj. destruct (Z.eq_dec j y) as [->|]; [destruct (Z.eq_dec i x) as [->|]; [apply set2_same|]|]; (rewrite set2_other by lia; apply B; lia).
    + rewrite E. cbn [obind]. eexists. split; [reflexivity|]. intros j i Hj Hi. apply B; lia.
  - exists mid. split; [exact E|exact A].
Qed.
Lemma scaled_cols_ok : forall w h my dy r0 val st d y0 x0 ok u, 1 <= h -> 0 <= w -> 0 <= my < 1024 -> stores st w h y0 x0 ok ->
  (forall y x, 0 <= y < h -> 0 <= x < w -> val ((my + dy * y) mod 1024) (r0 + (my + dy * y) / 1024) x = Ok (u y x) /\ ok (u y x)) ->
  exists d', scaled_cols w h my dy r0 val st d = Ok d' /\ filled d d' w h y0 x0 u.
Proof.
  intros w h my dy r0 val st d y0 x0 ok u Hh Hw Hm S H. unfold scaled_cols. destruct (Z.leb_spec 1 h) as [_|]; [|lia].
  set (Q := fun (y x : Z) (e : plane) => (forall j i, 0 <= i < w -> (0 <= j < y \/ j = y /\ i < x) -> e (y0 + j) (x0 + i) = Some (u j i)) /\
    (forall Y X, ~ (y0 <= Y /\ x0 <= X < x0 + w /\ (Y < y0 + y \/ Y = y0 + y /\ X < x0 + x)) -> e Y X = d Y X)).
  match goal with |- exists d', obind (for_ 0 h ?f (d, my, r0)) _ = _ /\ _ =>
    destruct (for_inv _ (fun y (s : plane * Z * Z) => snd (fst s) = (my + dy * y) mod 1024 /\ snd s = r0 + (my + dy * y) / 1024 /\ Q y 0 (fst (fst s))) f 0 h (d, my, r0) ltac:(lia))
      as (s & E & _ & _ & A & B) end.
  - cbn [fst snd]. rewrite Z.mul_0_r, Z.add_0_r, Z.mod_small, Z.div_small by lia. rewrite Z.add_0_r. repeat split. intros; lia.
  - intros y [[e m] r] Hy (I1 & I2 & QA & QB). cbn [fst snd] in *. subst m r.
    match goal with |- exists s', obind (for_ 0 w ?f e) _ = _ /\ _ => destruct (for_inv _ (fun x e => Q y x e) f 0 w e Hw) as (e' & E & A & B) end.
    + split; assumption.
    + intros x g Hx (EA & EB). destruct (H y x Hy Hx) as (EV & O). rewrite EV. cbn [obind]. rewrite (S y x (u y x) g Hy Hx O).
      eexists. split; [reflexivity|]. split.
      * intros j i Hi Hj. destruct (Z.eq_dec j y) as [->|]; [destruct (Z.eq_dec i x) as [->|]; [apply set2_same|]|]; (rewrite set2_other by lia; apply EA; lia).
      * intros Y X N. rewrite set2_other by lia. apply EB. lia.
    + rewrite E. cbn [obind]. eexists. split; [reflexivity|]. cbn [fst snd]. split; [apply land_step|]. split.
      { rewrite <- Z.add_assoc, shift_step. reflexivity. }
      split.
      * intros j i Hi Hj. apply A; [exact Hi|lia].
      * intros Y X N. apply B. lia.
  - rewrite E. cbn [obind]. eexists. split; [reflexivity|]. split.
    + intros y x Hy Hx. apply A; lia.
    + intros Y X N. apply B. unfold within in N. lia.
Qed.

(** * The prediction in terms of the block: [P y x] are the pixels around the place of the block in the reference. *)
Section Pred.
Variables (bd : Z) (P : Z -> Z -> Z) (ih iv : Z) (mx my dx dy : Z).
Definition first (r x : Z) : Z :=
  let p := mx + dx * x in K1 bd (Spec.Subpel ih ((p / 64) mod 16)) (fun s => P r (p / 1024 + s - 3)).
Definition predP (c : bool) (y x : Z) : Z :=
  let q := my + dy * y in K2 bd c (Spec.Subpel iv ((q / 64) mod 16)) (fun t => first (q / 1024 + t - 3) x).
End Pred.

Lemma K1_int16 : forall bd f f2 G, depth bd -> (forall t, 0 <= t < 8 -> f2 t = 2 * f t) -> good f -> (forall t, 0 <= t < 8 -> pixel bd (G t)) ->
  - (if bd =? 8 then 1786 else 7170) <= K1 bd f2 G <= (if bd =? 8 then 5866 else 23547).
Proof.
  intros bd f f2 G D H Hf HG. rewrite <- (h_half bd f f2 G D H).
  assert (B := sum8_bounds f G 0 (2 ^ bd - 1) Hf ltac:(bds D; cbn; lia) HG).
  generalize dependent (Spec.sum8 (fun t => f t * G t)). intros S B. bds D; nums; lia.
Qed.
Lemma centre_int16 : forall bd v, depth bd -> pixel bd v ->
  - (if bd =? 8 then 1786 else 7170) <= Z.shiftl v (inter_bits bd) <= (if bd =? 8 then 5866 else 23547).
Proof. intros bd v D H. unfold pixel in H. bds D; nums; lia. Qed.
Lemma K2_range : forall bd f f2 G, depth bd -> (forall t, 0 <= t < 8 -> f2 t = 2 * f t) -> good f ->
  (forall t, 0 <= t < 8 -> - (if bd =? 8 then 1786 else 7170) <= G t <= (if bd =? 8 then 5866 else 23547)) ->
  int16 (K2 bd true f2 G - prep_bias bd).
Proof.
  intros bd f f2 G D H Hf HG. rewrite <- (v_half bd true f f2 G D H).
  assert (B := sum8_bounds f G (- (if bd =? 8 then 1786 else 7170)) (if bd =? 8 then 5866 else 23547) Hf ltac:(destruct (bd =? 8); lia) HG).
  generalize dependent (Spec.sum8 (fun t => f t * G t)). intros S B. unfold int16. bds D; cbn [Z.eqb Pos.eqb] in *; nums; lia.
Qed.
Lemma bias_int16 : forall bd v, depth bd -> - (if bd =? 8 then 1786 else 7170) <= v <= (if bd =? 8 then 5866 else 23547) -> int16 (v - prep_bias bd) /\ int16 v.
Proof. intros bd v D H. unfold int16. bds D; nums; lia. Qed.

(** A filter of the specification at fraction [m]: none, or twice the one of the table. *)
Definition fir (n ty m : Z) (f2 : Z -> Z) : Prop :=
  (m = 0 /\ get_filter n ty m = Ok None /\ forall t, 0 <= t < 8 -> f2 t = if t =? 3 then 128 else 0) \/
  (m <> 0 /\ exists F f, get_filter n ty m = Ok (Some F) /\ (forall t, 0 <= t < 8 -> rd_at F t = Ok (f t)) /\ (forall t, 0 <= t < 8 -> f2 t = 2 * f t) /\ good f).
Lemma fir_ok : forall n ty m, 0 <= ty <= 2 -> 0 <= m <= 15 -> fir n ty m (Spec.Subpel (Spec.interpFilterIdx ty n) m).
Proof.
  intros n ty m Ht Hm. destruct (Z.eq_dec m 0) as [->|N].
  - left. split; [reflexivity|]. split; [reflexivity|]. intros t H. apply Subpel_0; [apply idx_range; lia|exact H].
  - right. split; [exact N|]. destruct (get_filter_ok n ty m Ht ltac:(lia)) as (F & f & E & H & G).
    exists F, f. split; [exact E|]. split; [intros t T; apply (H t T)|]. split; [intros t T; apply (H t T)|exact G].
Qed.

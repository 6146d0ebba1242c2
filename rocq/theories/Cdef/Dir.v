(** The direction search computes the direction and variance of the specification. *)
From Coq Require Import ZArith List Bool Lia.
From Verif Require Import Base.CInt Base.Lemmas Base.Loop Cdef.Model.
From Verif Require Cdef.Spec.
Module S := Cdef.Spec.
Import ListNotations.
Open Scope Z_scope.

(** * Sums *)
Lemma Sum_nil : forall lo hi g, hi <= lo -> S.Sum lo hi g = 0.
Proof. intros. unfold S.Sum. apply zfor_nil. assumption. Qed.
Lemma Sum_last : forall lo hi g, lo <= hi -> S.Sum lo (hi + 1) g = S.Sum lo hi g + g hi.
Proof. intros. unfold S.Sum. rewrite zfor_last by assumption. reflexivity. Qed.
Lemma Sum_ind : forall (P : Z -> Z -> Prop) lo hi g, lo <= hi -> P lo 0 -> (forall i a, lo <= i < hi -> P i a -> P (i + 1) (a + g i)) -> P hi (S.Sum lo hi g).
Proof. intros P lo hi g L H0 H. unfold S.Sum. apply (zfor_inv _ P); [assumption|assumption|]. intros. apply H; assumption. Qed.
Lemma Sum_le : forall lo hi g h, lo <= hi -> (forall i, lo <= i < hi -> g i <= h i) -> S.Sum lo hi g <= S.Sum lo hi h.
Proof.
  intros lo hi g h L H. remember (Z.to_nat (hi - lo)) as n eqn:En. revert hi L H En. induction n as [|n IH]; intros hi L H En.
  - rewrite !Sum_nil by lia. lia.
  - replace hi with (hi - 1 + 1) by lia. rewrite !Sum_last by lia. pose proof (IH (hi - 1) ltac:(lia) ltac:(intros; apply H; lia) ltac:(lia)).
    pose proof (H (hi - 1) ltac:(lia)). lia.
Qed.
Lemma Sum_ext : forall lo hi g h, (forall i, lo <= i < hi -> g i = h i) -> S.Sum lo hi g = S.Sum lo hi h.
Proof.
  intros lo hi g h H. destruct (Z_lt_le_dec hi lo); [rewrite !Sum_nil by lia; reflexivity|].
  apply Z.le_antisymm; apply Sum_le; try lia; intros i Hi; rewrite (H i Hi); lia.
Qed.
Lemma Sum_scale : forall lo hi g k, S.Sum lo hi (fun i => k * g i) = k * S.Sum lo hi g.
Proof.
  intros lo hi g k. destruct (Z_lt_le_dec hi lo); [rewrite !Sum_nil by lia; lia|].
  remember (Z.to_nat (hi - lo)) as n eqn:En. revert hi l En. induction n as [|n IH]; intros hi L En.
  - rewrite !Sum_nil by lia. lia.
  - replace hi with (hi - 1 + 1) by lia. rewrite !Sum_last, IH by lia. lia.
Qed.
Lemma Sum_opp : forall lo hi g, S.Sum lo hi (fun i => - g i) = - S.Sum lo hi g.
Proof. intros. rewrite (Sum_ext _ _ _ (fun i => -1 * g i)) by (intros; lia). rewrite Sum_scale. lia. Qed.
Lemma Sum_abs : forall lo hi g B, lo <= hi -> (forall i, lo <= i < hi -> Z.abs (g i) <= B i) -> Z.abs (S.Sum lo hi g) <= S.Sum lo hi B.
Proof.
  intros lo hi g B L H. assert (S.Sum lo hi g <= S.Sum lo hi B) by (apply Sum_le; [assumption|]; intros i Hi; specialize (H i Hi); lia).
  assert (S.Sum lo hi (fun i => - g i) <= S.Sum lo hi B) by (apply Sum_le; [assumption|]; intros i Hi; specialize (H i Hi); lia).
  rewrite Sum_opp in *. lia.
Qed.
Lemma Sum_nonneg : forall lo hi g, (forall i, lo <= i < hi -> 0 <= g i) -> 0 <= S.Sum lo hi g.
Proof.
  intros lo hi g H. destruct (Z_lt_le_dec hi lo); [rewrite Sum_nil by lia; lia|].
  replace 0 with (S.Sum lo hi (fun i => 0 * 1)); [apply Sum_le; assumption|]. rewrite Sum_scale. lia.
Qed.
(** Accumulating an unsigned sum. *)
Lemma for_usum : forall n f g c0, 0 <= n -> (forall i c, 0 <= i < n -> f i c = Ok (u32 (c + g i))) -> (forall i, 0 <= i < n -> 0 <= g i) ->
  0 <= c0 -> c0 + S.Sum 0 n g < 2 ^ 32 -> for_ 0 n f c0 = Ok (c0 + S.Sum 0 n g).
Proof.
  intros n f g c0 Hn Hf Hg H0 HB.
  assert (M : forall i, 0 <= i <= n -> S.Sum 0 i g <= S.Sum 0 n g).
  { intros i Hi. remember (Z.to_nat (n - i)) as k eqn:Ek. revert i Hi Ek. induction k as [|k IH]; intros i Hi Ek.
    - replace i with n by lia. lia.
    - pose proof (IH (i + 1) ltac:(lia) ltac:(lia)) as Q. rewrite Sum_last in Q by lia. specialize (Hg i ltac:(lia)). lia. }
  destruct (for_inv _ (fun i c => c = c0 + S.Sum 0 i g) f 0 n c0 Hn) as (c & E & ->); [rewrite Sum_nil by lia; lia| |exact E].
  intros i c Hi ->. rewrite (Hf i _ Hi). eexists. split; [reflexivity|]. rewrite Sum_last by lia.
  pose proof (M (i + 1) ltac:(lia)) as Q. rewrite Sum_last in Q by lia. pose proof (Sum_nonneg 0 i g ltac:(intros; apply Hg; lia)). pose proof (Hg i Hi).
  unfold u32. rewrite Z.mod_small by lia. lia.
Qed.

Section Direction.
Variable v : S.frame.
Variable Cur : S.picture.
Variables (r c : Z) (img : Z -> Z -> outcome Z).
Let bd := S.BitDepth v.
Hypothesis HB : bd = 8 \/ bd = 10 \/ bd = 12.
Hypothesis HI : forall y x, 0 <= y < 8 -> 0 <= x < 8 ->
  img y x = Ok (Cur 0 (r * 4 + y) (c * 4 + x)) /\ 0 <= Cur 0 (r * 4 + y) (c * 4 + x) < 2 ^ bd.

Definition px (i j : Z) : Z := Cur 0 (r * 4 + i) (c * 4 + j) / 2 ^ S.coeffShift v - 128.
Lemma px_ok : forall y x, 0 <= y < 8 -> 0 <= x < 8 -> exists i, img y x = Ok i /\ Z.shiftr i (bd - 8) - 128 = px y x /\ Z.abs (px y x) <= 128.
Proof.
  intros y x Hy Hx. destruct (HI y x Hy Hx) as (E & R). eexists. split; [exact E|]. unfold px, S.coeffShift. fold bd.
  rewrite Z.shiftr_div_pow2 by lia. split; [reflexivity|].
  assert (Q : 2 ^ bd = 256 * 2 ^ (bd - 8)) by (destruct HB as [E'|[E'|E']]; rewrite E'; reflexivity).
  assert (P : 0 < 2 ^ (bd - 8)) by (apply Z.pow_pos_nonneg; lia).
  pose proof (Z.div_pos _ _ (proj1 R) P). pose proof (Z.div_lt_upper_bound _ _ 256 P ltac:(rewrite Z.mul_comm, <- Q; apply R)). lia.
Qed.

Definition term (d k i j : Z) : Z := if S.line_of d i j =? k then px i j else 0.
Definition psum (d k y x : Z) : Z := S.Sum 0 y (fun i => S.Sum 0 8 (term d k i)) + S.Sum 0 x (term d k y).
Lemma psum_row : forall d k y, 0 <= y -> psum d k y 8 = psum d k (y + 1) 0.
Proof. intros d k y Hy. unfold psum. rewrite Sum_last by lia. rewrite (Sum_nil 0 0) by lia. lia. Qed.
Lemma psum_step : forall d k y x, 0 <= x -> psum d k y (x + 1) = psum d k y x + term d k y x.
Proof. intros d k y x Hx. unfold psum. rewrite Sum_last by lia. lia. Qed.
Lemma psum_end : forall d k, psum d k 8 0 = S.partial v Cur r c d k.
Proof. intros d k. unfold psum. rewrite (Sum_nil 0 0) by lia. rewrite Z.add_0_r. unfold S.partial, term, px. reflexivity. Qed.
Lemma term_abs : forall d k i j, 0 <= i < 8 -> 0 <= j < 8 -> Z.abs (term d k i j) <= 128.
Proof. intros d k i j Hi Hj. unfold term. destruct (px_ok i j Hi Hj) as (_ & _ & _ & H). destruct (_ =? k); lia. Qed.
Lemma psum_abs : forall d k y x, 0 <= y <= 8 -> 0 <= x <= 8 -> (y = 8 -> x = 0) -> Z.abs (psum d k y x) <= 9216.
Proof.
  intros d k y x Hy Hx Hxy. unfold psum.
  assert (A : Z.abs (S.Sum 0 y (fun i => S.Sum 0 8 (term d k i))) <= S.Sum 0 y (fun i => 1024 * 1)).
  { apply Sum_abs; [lia|]. intros i Hi. pose proof (Sum_abs 0 8 (term d k i) (fun _ => 128) ltac:(lia) ltac:(intros; apply term_abs; lia)) as Q.
    change (S.Sum 0 8 (fun _ => 128)) with 1024 in Q. exact Q. }
  assert (B : Z.abs (S.Sum 0 x (term d k y)) <= S.Sum 0 x (fun i => 128 * 1)).
  { destruct (Z.eq_dec y 8); [rewrite Hxy by assumption; rewrite !Sum_nil by lia; lia|]. apply Sum_abs; [lia|]. intros; apply term_abs; lia. }
  rewrite Sum_scale in A, B.
  assert (O : forall n, 0 <= n -> S.Sum 0 n (fun _ => 1) = n).
  { intros n Hn. apply (Sum_ind (fun i a => a = i)); [lia|reflexivity|]. intros; lia. }
  rewrite O in A, B by lia. lia.
Qed.

(** The arrays of the code hold the sums of lines of certain directions. *)
Definition holds (h w : Z) (d : Z -> Z) (y x : Z) (b : plane) : Prop := forall i k, 0 <= i < h -> 0 <= k < w -> b i k = Some (psum (d i) k y x).
(** ... with the pixel at (y, x) added for some of the rows. *)
Definition adding (h w : Z) (d : Z -> Z) (y x : Z) (n : Z -> Prop) (b : plane) : Prop :=
  forall i k, 0 <= i < h -> 0 <= k < w -> (n i -> b i k = Some (psum (d i) k y (x + 1))) /\ (~ n i -> b i k = Some (psum (d i) k y x)).
Lemma acc_ok : forall h w d y x n b i k, adding h w d y x n b -> 0 <= i < h -> ~ n i -> k = S.line_of (d i) y x -> 0 <= k < w -> 0 <= y < 8 -> 0 <= x < 8 ->
  exists b', acc h w i k (px y x) b = Ok b' /\ adding h w d y x (fun j => n j \/ j = i) b'.
Proof.
  intros h w d y x n b i k HA Hi Hn Ek Hk Hy Hx. unfold acc. destruct (HA i k Hi Hk) as (_ & E). specialize (E Hn).
  rewrite (rd2_ok _ _ _ _ _ _ Hi Hk E). cbn [obind].
  assert (ET : term (d i) k y x = px y x) by (unfold term; rewrite Ek, Z.eqb_refl; reflexivity).
  rewrite <- ET, <- psum_step by lia. rewrite ck_ok.
  2:{ rewrite psum_step by lia. pose proof (psum_abs (d i) k y x ltac:(lia) ltac:(lia) ltac:(lia)). pose proof (term_abs (d i) k y x Hy Hx). unfold INT_MIN, INT_MAX. lia. }
  cbn [obind]. rewrite wr2_ok by assumption. eexists. split; [reflexivity|].
  intros j l Hj Hl. destruct (HA j l Hj Hl) as (A1 & A2). split.
  - intros [N|N].
    + rewrite set2_other; [apply A1; exact N|]. left. intros ->. contradiction.
    + subst j. destruct (Z.eq_dec l k) as [->|Ne]; [apply set2_same|]. rewrite set2_other by auto. rewrite (A2 Hn), psum_step by lia.
      unfold term. destruct (Z.eqb_spec (S.line_of (d i) y x) l); [lia|]. f_equal. lia.
  - intros N. assert (j <> i) by (intros ->; apply N; right; reflexivity). rewrite set2_other by auto. apply A2. intros N'. apply N. left. exact N'.
Qed.
Lemma adding_start : forall h w d y x b, holds h w d y x b -> adding h w d y x (fun _ => False) b.
Proof. intros h w d y x b H i k Hi Hk. split; [intros []|intros _; apply H; assumption]. Qed.
Lemma adding_end : forall h w d y x n b, adding h w d y x n b -> (forall i, 0 <= i < h -> n i) -> holds h w d y (x + 1) b.
Proof. intros h w d y x n b H N i k Hi Hk. destruct (H i k Hi Hk) as (A & _). apply A. apply N. exact Hi. Qed.

Definition d_hv (i : Z) : Z := 2 + 4 * i.
Definition d_diag (i : Z) : Z := 4 * i.
Definition d_alt (i : Z) : Z := 2 * i + 1.
Definition sums (y x : Z) (st : plane * plane * plane) : Prop :=
  let '(hv, diag, alt) := st in holds 2 8 d_hv y x hv /\ holds 2 15 d_diag y x diag /\ holds 4 11 d_alt y x alt.

Lemma shr1 : forall a, Z.shiftr a 1 = a / 2.
Proof. intros. rewrite Z.shiftr_div_pow2 by lia. reflexivity. Qed.
Ltac line := unfold d_hv, d_diag, d_alt, S.line_of; cbn [Z.mul Z.add Z.eqb Pos.eqb Pos.mul Pos.add]; rewrite ?shr1.
Lemma partial_sums_ok : exists st, partial_sums bd img = Ok st /\ sums 8 0 st.
Proof.
  unfold partial_sums.
  apply (for_inv _ (fun y st => sums y 0 st)); [lia| |].
  - repeat split; intros i k Hi Hk; unfold zeros, psum; rewrite !Sum_nil by lia; reflexivity.
  - intros y st Hy HS.
    match goal with |- exists s', for_ 0 8 ?f st = Ok s' /\ _ => destruct (for_inv _ (fun x st => sums y x st) f 0 8 st) as (s' & E & Q) end; [lia|exact HS| |].
    + intros x ((hv & diag) & alt) Hx (H1 & H2 & H3).
      destruct (px_ok y x Hy Hx) as (i & EI & EP & _). rewrite EI. cbn [obind]. cbv zeta. rewrite EP.
      apply adding_start in H1. apply adding_start in H2. apply adding_start in H3.
      destruct (acc_ok _ _ _ _ _ _ _ 0 (y + x) H2 ltac:(lia) ltac:(tauto) ltac:(line; reflexivity) ltac:(lia) Hy Hx) as (b1 & E1 & H2a). rewrite E1. cbn [obind].
      destruct (acc_ok _ _ _ _ _ _ _ 0 (y + Z.shiftr x 1) H3 ltac:(lia) ltac:(tauto) ltac:(line; reflexivity) ltac:(rewrite shr1; lia) Hy Hx) as (b2 & E2 & H3a). rewrite E2. cbn [obind].
      destruct (acc_ok _ _ _ _ _ _ _ 0 y H1 ltac:(lia) ltac:(tauto) ltac:(line; reflexivity) ltac:(lia) Hy Hx) as (b3 & E3 & H1a). rewrite E3. cbn [obind].
      destruct (acc_ok _ _ _ _ _ _ _ 1 (3 + y - Z.shiftr x 1) H3a ltac:(lia) ltac:(cbv beta; lia) ltac:(line; reflexivity) ltac:(rewrite shr1; lia) Hy Hx) as (b4 & E4 & H3b). rewrite E4. cbn [obind].
      destruct (acc_ok _ _ _ _ _ _ _ 1 (7 + y - x) H2a ltac:(lia) ltac:(cbv beta; lia) ltac:(line; reflexivity) ltac:(lia) Hy Hx) as (b5 & E5 & H2b). rewrite E5. cbn [obind].
      destruct (acc_ok _ _ _ _ _ _ _ 2 (3 - Z.shiftr y 1 + x) H3b ltac:(lia) ltac:(cbv beta; lia) ltac:(line; reflexivity) ltac:(rewrite shr1; lia) Hy Hx) as (b6 & E6 & H3c). rewrite E6. cbn [obind].
      destruct (acc_ok _ _ _ _ _ _ _ 1 x H1a ltac:(lia) ltac:(cbv beta; lia) ltac:(line; reflexivity) ltac:(lia) Hy Hx) as (b7 & E7 & H1b). rewrite E7. cbn [obind].
      destruct (acc_ok _ _ _ _ _ _ _ 3 (Z.shiftr y 1 + x) H3c ltac:(lia) ltac:(cbv beta; lia) ltac:(line; reflexivity) ltac:(rewrite shr1; lia) Hy Hx) as (b8 & E8 & H3d). rewrite E8. cbn [obind].
      eexists. split; [reflexivity|]. repeat split.
      * apply (adding_end _ _ _ _ _ _ _ H1b). intros j Hj. lia.
      * apply (adding_end _ _ _ _ _ _ _ H2b). intros j Hj. lia.
      * apply (adding_end _ _ _ _ _ _ _ H3d). intros j Hj. lia.
    + exists s'. split; [exact E|]. destruct s' as ((hv & diag) & alt). destruct Q as (Q1 & Q2 & Q3).
      repeat split; intros j k Hj Hk; rewrite <- psum_row by lia; [apply Q1|apply Q2|apply Q3]; assumption.
Qed.

(** * Costs *)
Definition count (d k : Z) : Z := S.Sum 0 8 (fun i => S.Sum 0 8 (fun j => if S.line_of d i j =? k then 1 else 0)).
Notation par := (S.partial v Cur r c).
Lemma par_sq : forall d k, 0 <= par d k * par d k <= 16384 * (count d k * count d k).
Proof.
  intros d k. assert (A : Z.abs (par d k) <= 128 * count d k).
  { unfold S.partial, count. rewrite <- Sum_scale. apply Sum_abs; [lia|]. intros i Hi. rewrite <- Sum_scale. apply Sum_abs; [lia|]. intros j Hj.
    destruct (px_ok i j Hi Hj) as (_ & _ & _ & H). unfold px in H. destruct (_ =? k); lia. }
  nia.
Qed.
Lemma u32_small : forall x, 0 <= x < 2 ^ 32 -> u32 x = x.
Proof. intros. unfold u32. apply Z.mod_small. assumption. Qed.
Ltac cases8 n := let H := fresh in assert (H : n = 0 \/ n = 1 \/ n = 2 \/ n = 3 \/ n = 4 \/ n = 5 \/ n = 6 \/ n = 7) by lia;
  destruct H as [->|[->|[->|[->|[->|[->|[->| ->]]]]]]].

Lemma cost_hv_ok : forall hv i, holds 2 8 d_hv 8 0 hv -> 0 <= i < 2 -> cost_hv hv i = Ok (S.cost v Cur r c (d_hv i)) /\ 0 <= S.cost v Cur r c (d_hv i) < 2 ^ 32.
Proof.
  intros hv i HH Hi. set (d := d_hv i).
  assert (C : forall n, 0 <= n < 8 -> count d n = 8) by (intros n Hn; unfold d, d_hv; assert (i = 0 \/ i = 1) as [->| ->] by lia; cases8 n; reflexivity).
  assert (SQ : forall n, 0 <= n < 8 -> 0 <= par d n * par d n <= 1048576) by (intros n Hn; pose proof (par_sq d n) as Q; rewrite (C n Hn) in Q; lia).
  assert (T : 0 <= S.Sum 0 8 (fun n => par d n * par d n) <= 8388608).
  { split; [apply Sum_nonneg; intros n Hn; apply SQ; exact Hn|].
    apply (Z.le_trans _ (S.Sum 0 8 (fun _ => 1048576))); [apply Sum_le; [lia|intros n Hn; apply SQ; exact Hn]|vm_compute; discriminate]. }
  assert (EC : S.cost v Cur r c d = S.Sum 0 8 (fun n => par d n * par d n) * 105).
  { unfold S.cost. replace ((d =? 2) || (d =? 6)) with true by (unfold d, d_hv; assert (i = 0 \/ i = 1) as [->| ->] by lia; reflexivity). cbv zeta. change (S.div_at 8) with 105. reflexivity. }
  rewrite EC. split; [|lia]. unfold cost_hv.
  rewrite (for_usum 8 _ (fun n => par d n * par d n) 0); [|lia| |intros n Hn; apply SQ; exact Hn|lia|lia].
  - cbn [obind]. rewrite Z.add_0_l, u32_small by lia. reflexivity.
  - intros n s Hn. rewrite (rd2_ok _ _ _ _ _ (par d n)); [|assumption|assumption|rewrite (HH i n Hi Hn), psum_end; reflexivity].
    cbn [obind]. rewrite ck_ok by (pose proof (SQ n Hn); unfold INT_MIN, INT_MAX; lia). reflexivity.
Qed.

Ltac cases7 n := let H := fresh in assert (H : n = 0 \/ n = 1 \/ n = 2 \/ n = 3 \/ n = 4 \/ n = 5 \/ n = 6) by lia;
  destruct H as [->|[->|[->|[->|[->|[->| ->]]]]]].
Ltac divs := unfold S.div_at; match goal with |- context [nth ?k S.Div_Table 0] => let t := eval vm_compute in (nth k S.Div_Table 0) in change (nth k S.Div_Table 0) with t end.
Lemma diag_count : forall i n, 0 <= i < 2 -> 0 <= n <= 7 -> count (d_diag i) n = n + 1 /\ count (d_diag i) (14 - n) = n + 1.
Proof. intros i n Hi Hn. unfold d_diag. assert (i = 0 \/ i = 1) as [->| ->] by lia; cases8 n; split; vm_compute; reflexivity. Qed.
Lemma alt_count : forall i n, 0 <= i < 4 -> 0 <= n < 5 -> count (d_alt i) (3 + n) = 8.
Proof.
  intros i n Hi Hn. unfold d_alt. assert (n = 0 \/ n = 1 \/ n = 2 \/ n = 3 \/ n = 4) as [->|[->|[->|[->| ->]]]] by lia;
    assert (i = 0 \/ i = 1 \/ i = 2 \/ i = 3) as [->|[->|[->| ->]]] by lia; vm_compute; reflexivity.
Qed.
Lemma alt_count2 : forall i n, 0 <= i < 4 -> 0 <= n < 3 -> count (d_alt i) n = 2 * (n + 1) /\ count (d_alt i) (10 - n) = 2 * (n + 1).
Proof.
  intros i n Hi Hn. unfold d_alt. assert (n = 0 \/ n = 1 \/ n = 2) as [->|[->| ->]] by lia;
    assert (i = 0 \/ i = 1 \/ i = 2 \/ i = 3) as [->|[->|[->| ->]]] by lia; split; vm_compute; reflexivity.
Qed.

(** The sums in the code, for any line sums [q]. *)
Lemma diag_arith : forall (q : Z -> Z) diag i, (forall n, 0 <= n < 15 -> rd2 2 15 diag i n = Ok (q n)) ->
  (forall n, 0 <= n <= 7 -> 0 <= q n * q n <= 16384 * ((n + 1) * (n + 1)) /\ 0 <= q (14 - n) * q (14 - n) <= 16384 * ((n + 1) * (n + 1))) ->
  let t := S.Sum 0 7 (fun n => (q n * q n + q (14 - n) * q (14 - n)) * S.div_at (n + 1)) + q 7 * q 7 * S.div_at 8 in
  cost_diag diag i = Ok t /\ 0 <= t < 2 ^ 32.
Proof.
  clear. intros q diag i RD SQ t. subst t. set (g n := (q n * q n + q (14 - n) * q (14 - n)) * S.div_at (n + 1)). change (S.div_at 8) with 105.
  assert (G : forall n, 0 <= n < 7 -> 0 <= g n <= 27525120 * (n + 1)).
  { intros n Hn. destruct (SQ n ltac:(lia)) as (Q1 & Q2). unfold g.
    set (A := q n * q n) in *. set (B := q (14 - n) * q (14 - n)) in *. clearbody A B. clear - Hn Q1 Q2. cases7 n; divs; lia. }
  assert (T : 0 <= S.Sum 0 7 g <= 770703360).
  { split; [apply Sum_nonneg; intros n Hn; apply G; exact Hn|].
    apply (Z.le_trans _ (S.Sum 0 7 (fun n => 27525120 * (n + 1)))); [apply Sum_le; [lia|intros n Hn; apply G; exact Hn]|vm_compute; discriminate]. }
  destruct (SQ 7 ltac:(lia)) as (S7 & _). change ((7 + 1) * (7 + 1)) with 64 in S7.
  split; [|lia]. unfold cost_diag.
  rewrite (for_usum 7 _ g 0); [|lia| |intros n Hn; apply G; exact Hn|lia|lia].
  - cbn [obind]. rewrite RD by lia. cbn [obind]. rewrite ck_ok by (unfold INT_MIN, INT_MAX; lia). cbn [obind]. rewrite Z.add_0_l, u32_small by lia. reflexivity.
  - intros n s Hn. rewrite !RD by lia.
    assert (ED : rd_at div_table n = Ok (S.div_at (n + 1))) by (clear - Hn; cases7 n; reflexivity).
    rewrite ED. cbn [obind]. fold (g n). rewrite ck_ok by (pose proof (G n Hn); unfold INT_MIN, INT_MAX; lia). reflexivity.
Qed.
Lemma alt_arith : forall (q : Z -> Z) alt i, (forall n, 0 <= n < 11 -> rd2 4 11 alt i n = Ok (q n)) ->
  (forall n, 0 <= n < 5 -> 0 <= q (3 + n) * q (3 + n) <= 1048576) ->
  (forall n, 0 <= n < 3 -> 0 <= q n * q n <= 65536 * ((n + 1) * (n + 1)) /\ 0 <= q (10 - n) * q (10 - n) <= 65536 * ((n + 1) * (n + 1))) ->
  let t := S.Sum 0 5 (fun j => q (3 + j) * q (3 + j)) * S.div_at 8 + S.Sum 0 3 (fun j => (q j * q j + q (10 - j) * q (10 - j)) * S.div_at (2 * j + 2)) in
  cost_alt alt i = Ok t /\ 0 <= t < 2 ^ 32.
Proof.
  clear. intros q alt i RD SQ SQ2 t. subst t. set (g n := (q n * q n + q (10 - n) * q (10 - n)) * S.div_at (2 * n + 2)). change (S.div_at 8) with 105.
  set (h j := q (3 + j) * q (3 + j)).
  assert (G : forall n, 0 <= n < 3 -> 0 <= g n <= 55050240 * (n + 1)).
  { intros n Hn. destruct (SQ2 n ltac:(lia)) as (Q1 & Q2). unfold g.
    set (A := q n * q n) in *. set (B := q (10 - n) * q (10 - n)) in *. clearbody A B. clear - Hn Q1 Q2.
    assert (n = 0 \/ n = 1 \/ n = 2) as [->|[->| ->]] by lia; divs; lia. }
  assert (T : 0 <= S.Sum 0 5 h <= 5242880).
  { split; [apply Sum_nonneg; intros n Hn; apply SQ; exact Hn|].
    apply (Z.le_trans _ (S.Sum 0 5 (fun _ => 1048576))); [apply Sum_le; [lia|intros n Hn; apply SQ; exact Hn]|vm_compute; discriminate]. }
  assert (T2 : 0 <= S.Sum 0 3 g <= 330301440).
  { split; [apply Sum_nonneg; intros n Hn; apply G; exact Hn|].
    apply (Z.le_trans _ (S.Sum 0 3 (fun n => 55050240 * (n + 1)))); [apply Sum_le; [lia|intros n Hn; apply G; exact Hn]|vm_compute; discriminate]. }
  split; [|lia]. unfold cost_alt.
  rewrite (for_usum 5 _ h 0); [|lia| |intros n Hn; apply SQ; exact Hn|lia|lia].
  - cbn [obind]. rewrite Z.add_0_l. rewrite u32_small by lia. rewrite (for_usum 3 _ g); [reflexivity|lia| |intros n Hn; apply G; exact Hn|lia|lia].
    intros n s Hn. rewrite !RD by lia.
    assert (ED : rd_at div_table (2 * n + 1) = Ok (S.div_at (2 * n + 2))) by (clear - Hn; assert (n = 0 \/ n = 1 \/ n = 2) as [->|[->| ->]] by lia; reflexivity).
    rewrite ED. cbn [obind]. fold (g n). rewrite ck_ok by (pose proof (G n Hn); unfold INT_MIN, INT_MAX; lia). reflexivity.
  - intros n s Hn. rewrite RD by lia. cbn [obind]. rewrite ck_ok by (pose proof (SQ n Hn); unfold INT_MIN, INT_MAX; lia). reflexivity.
Qed.

Lemma cost_diag_ok : forall diag i, holds 2 15 d_diag 8 0 diag -> 0 <= i < 2 -> cost_diag diag i = Ok (S.cost v Cur r c (d_diag i)) /\ 0 <= S.cost v Cur r c (d_diag i) < 2 ^ 32.
Proof.
  intros diag i HH Hi.
  destruct (diag_arith (par (d_diag i)) diag i) as (A & B).
  - intros n Hn. apply rd2_ok; [assumption|assumption|]. rewrite (HH i n Hi Hn), psum_end. reflexivity.
  - intros n Hn. destruct (diag_count i n Hi Hn) as (C1 & C2). pose proof (par_sq (d_diag i) n) as Q1. pose proof (par_sq (d_diag i) (14 - n)) as Q2. rewrite C1 in Q1. rewrite C2 in Q2.
    exact (conj Q1 Q2).
  - unfold S.cost. assert (E : (d_diag i =? 2) || (d_diag i =? 6) = false /\ (d_diag i =? 0) || (d_diag i =? 4) = true) by (assert (i = 0 \/ i = 1) as [->| ->] by lia; split; reflexivity).
    destruct E as (E1 & E2). rewrite E1, E2. exact (conj A B).
Qed.
Lemma cost_alt_ok : forall alt i, holds 4 11 d_alt 8 0 alt -> 0 <= i < 4 -> cost_alt alt i = Ok (S.cost v Cur r c (d_alt i)) /\ 0 <= S.cost v Cur r c (d_alt i) < 2 ^ 32.
Proof.
  intros alt i HH Hi.
  destruct (alt_arith (par (d_alt i)) alt i) as (A & B).
  - intros n Hn. apply rd2_ok; [assumption|assumption|]. rewrite (HH i n Hi Hn), psum_end. reflexivity.
  - intros n Hn. pose proof (par_sq (d_alt i) (3 + n)) as Q1. rewrite (alt_count i n Hi Hn) in Q1. exact Q1.
  - intros n Hn. destruct (alt_count2 i n Hi Hn) as (C1 & C2). pose proof (par_sq (d_alt i) n) as Q1. pose proof (par_sq (d_alt i) (10 - n)) as Q2. rewrite C1 in Q1. rewrite C2 in Q2.
    split; [clear - Q1|clear - Q2]; match goal with H : 0 <= ?a <= _ |- _ => set (u := a) in *; clearbody u; lia end.
  - unfold S.cost. assert (E : (d_alt i =? 2) || (d_alt i =? 6) = false /\ (d_alt i =? 0) || (d_alt i =? 4) = false)
      by (assert (i = 0 \/ i = 1 \/ i = 2 \/ i = 3) as [->|[->|[->| ->]]] by lia; split; reflexivity).
    destruct E as (E1 & E2). rewrite E1, E2. exact (conj A B).
Qed.

(** The choice among the directions, for any costs. *)
Lemma best_arith : forall (co : Z -> Z), (forall n, 0 <= n < 8 -> 0 <= co n < 2 ^ 32) ->
  let l := [co 0; co 1; co 2; co 3; co 4; co 5; co 6; co 7] in
  let res := let '(bestCost, yDir) := zfor 0 8 (fun d st => let '(bestCost, yDir) := st in if bestCost <? co d then (co d, d) else (bestCost, yDir)) (0, 0) in
             (yDir, (bestCost - co (Z.land (yDir + 4) 7)) / 2 ^ 10) in
  (let! (best_dir, best_cost) :=
    for_ 1 8 (fun n st =>
      let '(best_dir, best_cost) := st in
      let! c := rd_at l n in
      Ok (if best_cost <? c then (n, c) else (best_dir, best_cost))) (0, co 0) in
   let! other := rd_at l (Z.lxor best_dir 4) in
   Ok (best_dir, Z.shiftr (u32 (best_cost - other)) 10))%outcome = Ok res /\ 0 <= fst res < 8 /\ 0 <= snd res.
Proof.
  clear. intros co RC l.
  assert (RL : forall n, 0 <= n < 8 -> rd_at l n = Ok (co n) /\ 0 <= co n < 2 ^ 32) by (intros n Hn; split; [unfold l; clear - Hn; cases8 n; reflexivity|apply RC; exact Hn]).
  set (g := fun d (st : Z * Z) => let '(bestCost, yDir) := st in if bestCost <? co d then (co d, d) else (bestCost, yDir)).
  assert (EZ : zfor 0 8 g (0, 0) = zfor 1 8 g (co 0, 0)).
  { assert (E0 : g 0 (0, 0) = (co 0, 0)) by (unfold g; destruct (Z.ltb_spec 0 (co 0)); [reflexivity|]; specialize (RC 0 ltac:(lia)); f_equal; lia).
    rewrite <- E0. reflexivity. }
  rewrite EZ.
  set (body := fun (n : Z) (st : Z * Z) => let '(best_dir, best_cost) := st in obind (rd_at l n) (fun c1 => Ok (if best_cost <? c1 then (n, c1) else (best_dir, best_cost)))).
  destruct (for_sim _ _ (fun i (s t : Z * Z) => s = (snd t, fst t) /\ fst t = co (snd t) /\ 0 <= snd t < 8) body g 1 8 (0, co 0) (co 0, 0) ltac:(lia)) as (s' & E & Q1 & Q2 & Q3).
  - cbn. repeat split; lia.
  - intros j s t Hj (-> & A & B). destruct t as (bc & bdr). cbn [fst snd] in *. unfold body. destruct (RL j ltac:(lia)) as (EJ & _). rewrite EJ. cbn [obind].
    eexists. split; [reflexivity|]. unfold g. destruct (bc <? co j); cbn; repeat split; auto; lia.
  - assert (MX : forall d, 0 <= d < 8 -> co d <= fst (zfor 1 8 g (co 0, 0))).
    { apply (zfor_inv _ (fun i (t : Z * Z) => forall d, 0 <= d < i -> co d <= fst t)); [lia|cbn; intros d Hd; replace d with 0 by lia; lia|].
      intros j (tc & td) Hj IH d Hd. cbn [fst] in *. unfold g. destruct (Z.ltb_spec tc (co j)); cbn [fst].
      - destruct (Z.eq_dec d j) as [->|]; [lia|]. specialize (IH d ltac:(lia)). lia.
      - destruct (Z.eq_dec d j) as [->|]; [lia|]. apply IH. lia. }
    rewrite E. cbn [obind]. clear E EZ. subst s'. destruct (zfor 1 8 g (co 0, 0)) as (bc & bdr). cbn [fst snd] in *. cbn [obind fst snd].
    assert (LX : Z.lxor bdr 4 = Z.land (bdr + 4) 7) by (clear - Q3; cases8 bdr; reflexivity).
    assert (LR : 0 <= Z.land (bdr + 4) 7 < 8) by (clear - Q3; cases8 bdr; vm_compute; split; congruence).
    rewrite LX. destruct (RL _ LR) as (EO & RO). rewrite EO. cbn [obind]. specialize (MX _ LR).
    destruct (RL bdr Q3) as (_ & RB). rewrite u32_small by lia. rewrite Z.shiftr_div_pow2 by lia. split; [reflexivity|]. split; [exact Q3|].
    apply Z.div_pos; lia.
Qed.

Theorem find_dir_ok : find_dir bd img = Ok (S.direction v Cur r c) /\ 0 <= fst (S.direction v Cur r c) < 8 /\ 0 <= snd (S.direction v Cur r c).
Proof.
  unfold find_dir. destruct partial_sums_ok as (((hv & diag) & alt) & E & H1 & H2 & H3). rewrite E. cbn [obind]. clear E.
  destruct (cost_hv_ok hv 0 H1 ltac:(lia)) as (E2 & R2). destruct (cost_hv_ok hv 1 H1 ltac:(lia)) as (E6 & R6).
  destruct (cost_diag_ok diag 0 H2 ltac:(lia)) as (E0 & R0). destruct (cost_diag_ok diag 1 H2 ltac:(lia)) as (E4 & R4).
  destruct (cost_alt_ok alt 0 H3 ltac:(lia)) as (E1 & R1). destruct (cost_alt_ok alt 1 H3 ltac:(lia)) as (E3 & R3).
  destruct (cost_alt_ok alt 2 H3 ltac:(lia)) as (E5 & R5). destruct (cost_alt_ok alt 3 H3 ltac:(lia)) as (E7 & R7).
  rewrite E2, E6, E0, E4, E1, E3, E5, E7. cbn [obind].
  apply (best_arith (S.cost v Cur r c)).
  intros n Hn. cases8 n; assumption.
Qed.
End Direction.

(** warp_affine and its two kernels compute the block warp process. *)
From Coq Require Import ZArith List Bool Lia.
From Verif Require Import Base.CInt Base.Lemmas Base.Loop Cdef.Block Mc.Model Mc.Kernel Mc.Blocks Mc.Whole Warp.Model Warp.Shear Warp.BlockModel.
From Verif Require Mc.Spec Warp.Spec Warp.BlockSpec.
Import ListNotations.
Open Scope Z_scope.
Local Open Scope outcome_scope.

Module WS := Warp.Spec.
Module BS := Warp.BlockSpec.

(** * The loops *)
Lemma ck_small : forall v, -4194304 <= v <= 4194304 -> ck v = Ok v.
Proof. intros v H. apply ck_ok. unfold INT_MIN, INT_MAX. lia. Qed.
Lemma walk_ok : forall w h p dx dy val st d y0 x0 ok u, 0 <= h <= 16 -> 0 <= w <= 16 -> -1048576 <= p <= 1048576 -> -32768 <= dx <= 32768 -> -32768 <= dy <= 32768 ->
  stores st w h y0 x0 ok ->
  (forall y x, 0 <= y < h -> 0 <= x < w -> val y x (p + dx * x + dy * y) = Ok (u y x) /\ ok (u y x)) ->
  exists d', walk w h p dx dy val st d = Ok d' /\ filled d d' w h y0 x0 u.
Proof.
  intros w h p dx dy val st d y0 x0 ok u Hh Hw Hp Hdx Hdy S H. unfold walk.
  set (Q := fun (y x : Z) (e : plane) => (forall j i, 0 <= i < w -> (0 <= j < y \/ j = y /\ i < x) -> e (y0 + j) (x0 + i) = Some (u j i)) /\
    (forall Y X, ~ (y0 <= Y /\ x0 <= X < x0 + w /\ (Y < y0 + y \/ Y = y0 + y /\ X < x0 + x)) -> e Y X = d Y X)).
  match goal with |- exists d', obind (for_ 0 h ?f (d, p)) _ = _ /\ _ =>
    destruct (for_inv _ (fun y (s : plane * Z) => snd s = p + dy * y /\ Q y 0 (fst s)) f 0 h (d, p) ltac:(lia)) as ([s sp] & E & _ & A & B) end.
  - cbn [fst snd]. split; [lia|]. split; [intros; lia|reflexivity].
  - intros y [e q] Hy (I1 & QA & QB). cbn [fst snd] in *. subst q.
    match goal with |- exists s', obind (for_ 0 w ?f _) _ = _ /\ _ =>
      destruct (for_inv _ (fun x (s : plane * Z) => snd s = p + dx * x + dy * y /\ Q y x (fst s)) f 0 w (e, p + dy * y) ltac:(lia)) as ([e' t] & E & _ & A & B) end.
    + cbn [fst snd]. split; [lia|]. split; assumption.
    + intros x [g t] Hx (I & EA & EB). cbn [fst snd] in *. subst t. destruct (H y x Hy Hx) as (EV & O). rewrite EV. cbn [obind]. rewrite (S y x (u y x) g Hy Hx O). cbn [obind].
      rewrite ck_small by nia. cbn [obind]. eexists. split; [reflexivity|]. cbn [fst snd]. split; [lia|]. split.
      * intros j i Hi Hj. destruct (Z.eq_dec j y) as [->|]; [destruct (Z.eq_dec i x) as [->|]; [apply set2_same|]|]; (rewrite set2_other by lia; apply EA; lia).
      * intros Y X N. rewrite set2_other by lia. apply EB. lia.
    + rewrite E. cbn [obind fst]. rewrite ck_small by nia. cbn [obind]. eexists. split; [reflexivity|]. cbn [fst snd] in *. split; [lia|]. split.
      * intros j i Hi Hj. apply A; [exact Hi|lia].
      * intros Y X N. apply B. lia.
  - rewrite E. cbn [obind]. eexists. split; [reflexivity|]. cbn [fst] in *. split.
    + intros y x Hy Hx. apply A; lia.
    + intros Y X N. apply B. unfold within in N. lia.
Qed.

(** * The filters *)
Definition wgood (f : Z -> Z) : Prop := pos_sum f <= 175 /\ neg_sum f <= 47.
Lemma wsum_bounds : forall f G lo hi, wgood f -> lo <= 0 <= hi -> (forall t, 0 <= t < 8 -> lo <= G t <= hi) ->
  175 * lo - 47 * hi <= Mc.Spec.sum8 (fun t => f t * G t) <= 175 * hi - 47 * lo.
Proof.
  intros f G lo hi (HP & HN) HL H.
  assert (T : forall t, 0 <= t < 8 -> Z.max (f t) 0 * lo - Z.max (- f t) 0 * hi <= f t * G t <= Z.max (f t) 0 * hi - Z.max (- f t) 0 * lo).
  { intros t Ht. specialize (H t Ht). destruct (Z.le_ge_cases 0 (f t)).
    - rewrite (Z.max_l (f t) 0), (Z.max_r (- f t) 0) by lia. nia.
    - rewrite (Z.max_r (f t) 0), (Z.max_l (- f t) 0) by lia. nia. }
  unfold pos_sum, neg_sum, Mc.Spec.sum8 in *.
  pose proof (T 0 ltac:(lia)). pose proof (T 1 ltac:(lia)). pose proof (T 2 ltac:(lia)). pose proof (T 3 ltac:(lia)).
  pose proof (T 4 ltac:(lia)). pose proof (T 5 ltac:(lia)). pose proof (T 6 ltac:(lia)). pose proof (T 7 ltac:(lia)). clear T H.
  cbv beta in *.
  set (ps := Z.max (f 0) 0 + Z.max (f 1) 0 + Z.max (f 2) 0 + Z.max (f 3) 0 + Z.max (f 4) 0 + Z.max (f 5) 0 + Z.max (f 6) 0 + Z.max (f 7) 0) in *.
  set (ns := Z.max (- f 0) 0 + Z.max (- f 1) 0 + Z.max (- f 2) 0 + Z.max (- f 3) 0 + Z.max (- f 4) 0 + Z.max (- f 5) 0 + Z.max (- f 6) 0 + Z.max (- f 7) 0) in *.
  assert (A : ps * hi <= 175 * hi) by (apply Z.mul_le_mono_nonneg_r; [lia|exact HP]).
  assert (B : 175 * lo <= ps * lo) by (apply Z.mul_le_mono_nonpos_r; [lia|exact HP]).
  assert (C : ns * hi <= 47 * hi) by (apply Z.mul_le_mono_nonneg_r; [lia|exact HN]).
  assert (D : 47 * lo <= ns * lo) by (apply Z.mul_le_mono_nonpos_r; [lia|exact HN]).
  clear HP HN. unfold ps, ns in *. clear ps ns. rewrite !Z.mul_add_distr_r in *.
  repeat match goal with H : context [Z.max ?a ?b * ?c] |- _ => let v := fresh "v" in set (v := Z.max a b * c) in *; clearbody v end. lia.
Qed.
Definition wrow_ok (i : Z) : bool :=
  match rd_at warp_filter i with
  | Ok F => forallb (fun t => match rd_at F t with Ok v => v =? BS.Warped_Filters i t | Undef => false end) [0; 1; 2; 3; 4; 5; 6; 7] &&
      (pos_sum (BS.Warped_Filters i) <=? 175) && (neg_sum (BS.Warped_Filters i) <=? 47)
  | Undef => false
  end.
Lemma wrows_all : forallb (fun i => wrow_ok (Z.of_nat i)) (seq 0 193) = true.
Proof. vm_compute. reflexivity. Qed.
Lemma wfilter_ok : forall i, 0 <= i <= 192 -> exists F, rd_at warp_filter i = Ok F /\ (forall t, 0 <= t < 8 -> rd_at F t = Ok (BS.Warped_Filters i t)) /\ wgood (BS.Warped_Filters i).
Proof.
  intros i Hi. pose proof (proj1 (forallb_forall _ _) wrows_all (Z.to_nat i)) as L. rewrite in_seq in L. specialize (L ltac:(lia)). rewrite Z2Nat.id in L by lia.
  unfold wrow_ok in L. destruct (rd_at warp_filter i) as [F|]; [|discriminate]. exists F. apply andb_prop in L. destruct L as (L & L3). apply andb_prop in L. destruct L as (L & L2).
  split; [reflexivity|]. split; [|split; lia]. intros t Ht. rewrite forallb_forall in L. specialize (L t).
  assert (I : In t [0; 1; 2; 3; 4; 5; 6; 7]).
  { cbn [In]. assert (t = 0 \/ t = 1 \/ t = 2 \/ t = 3 \/ t = 4 \/ t = 5 \/ t = 6 \/ t = 7) by lia. intuition (subst; auto 20). }
  specialize (L I). destruct (rd_at F t) as [v|]; [|discriminate]. apply Z.eqb_eq in L. rewrite L. reflexivity.
Qed.
(** The offset of a position *)
Definition offs (s : Z) : Z := Mc.Spec.Round2 s BS.WARPEDDIFF_PREC_BITS + BS.WARPEDPIXEL_PREC_SHIFTS.
Lemma offs_eq : forall s, offs s = 64 + (s + 512) / 1024.
Proof. intros s. unfold offs, Mc.Spec.Round2, BS.WARPEDDIFF_PREC_BITS, BS.WARPEDPIXEL_PREC_SHIFTS. cbn [Z.eqb]. change (2 ^ (10 - 1)) with 512. change (2 ^ 10) with 1024. change (2 ^ 6) with 64. lia. Qed.
(** Clearing the low bits of the start changes no offset. *)
Lemma land64 : forall v, Z.land v (-64) = 64 * (v / 64).
Proof.
  intros v. change (-64) with (Z.lnot (Z.ones 6)). rewrite <- Z.ldiff_land, Z.ldiff_ones_r by lia. rewrite Z.shiftl_mul_pow2, Z.shiftr_div_pow2 by lia. change (2 ^ 6) with 64. lia.
Qed.
Lemma filter_at : forall t s, t / 64 = s / 64 -> -65536 <= s < 131072 -> exists F, get_warp_filter t = Ok F /\
  (forall i, 0 <= i < 8 -> rd_at F i = Ok (BS.Warped_Filters (offs s) i)) /\ wgood (BS.Warped_Filters (offs s)).
Proof.
  intros t s E R. assert (O : offs s = 64 + (t + 512) / 1024) by (rewrite offs_eq; lia).
  unfold get_warp_filter. rewrite ck_small by lia. cbn [obind]. rewrite Z.shiftr_div_pow2 by lia. change (2 ^ 10) with 1024. rewrite <- O. apply wfilter_ok. rewrite O. lia.
Qed.

(** * The kernels *)
Section Kernel.
Variables (bd : Z) (P : Z -> Z -> Z) (sx4 sy4 : Z) (sh : shear).
Hypothesis D : depth bd.
Hypothesis HP : forall y x, pixel bd (P y x).
Hypothesis SX : 0 <= sx4 < 65536.
Hypothesis SY : 0 <= sy4 < 65536.
Definition mul64 (v : Z) : Prop := v mod 64 = 0.
Hypothesis M1 : mul64 (sh_alpha sh).
Hypothesis M2 : mul64 (sh_beta sh).
Hypothesis M3 : mul64 (sh_gamma sh).
Hypothesis M4 : mul64 (sh_delta sh).
Hypothesis V1 : 4 * Z.abs (sh_alpha sh) + 7 * Z.abs (sh_beta sh) < 65536.
Hypothesis V2 : 4 * Z.abs (sh_gamma sh) + 4 * Z.abs (sh_delta sh) < 65536.
Definition W1 (r x : Z) : Z :=
  Mc.Spec.Round2 (Mc.Spec.sum8 (fun t => BS.Warped_Filters (offs (sx4 + sh_alpha sh * (x - 4) + sh_beta sh * (r - 7))) t * P (r - 3) (x + t - 3))) (Mc.Spec.InterRound0 bd).
Definition W2 (c : bool) (y x : Z) : Z :=
  Mc.Spec.Round2 (Mc.Spec.sum8 (fun t => BS.Warped_Filters (offs (sy4 + sh_gamma sh * (x - 4) + sh_delta sh * (y - 4))) t * W1 (y + t) x)) (Mc.Spec.InterRound1 bd c).
Lemma pos_eq : forall s a b i j n, mul64 a -> mul64 b -> (Z.land (s - a * 4 - b * n) (-64) + a * i + b * j) / 64 = (s + a * (i - 4) + b * (j - n)) / 64.
Proof.
  intros s a b i j n A B. unfold mul64 in *. rewrite land64. pose proof (Z.div_mod a 64 ltac:(lia)) as EA. pose proof (Z.div_mod b 64 ltac:(lia)) as EB. rewrite A in EA. rewrite B in EB.
  rewrite Z.add_0_r in EA, EB. set (p := a / 64) in *. set (q := b / 64) in *. clearbody p q. subst a b.
  replace (s - 64 * p * 4 - 64 * q * n) with (s + (- (p * 4) - q * n) * 64) by ring. rewrite Z.div_add by lia.
  replace (64 * (s / 64 + (- (p * 4) - q * n)) + 64 * p * i + 64 * q * j) with ((s / 64 + (- (p * 4) - q * n) + p * i + q * j) * 64) by ring. rewrite Z.div_mul by lia.
  replace (s + 64 * p * (i - 4) + 64 * q * (j - n)) with (s + (p * (i - 4) + q * (j - n)) * 64) by ring. rewrite Z.div_add by lia. ring.
Qed.
Lemma mul_abs : forall a i n, - n <= i <= n -> Z.abs (a * i) <= n * Z.abs a.
Proof. intros a i n H. rewrite Z.abs_mul. pose proof (Z.abs_nonneg a). assert (Z.abs i <= n) by lia. nia. Qed.
Lemma pos_range : forall s a b i j n, 0 <= s < 65536 -> 0 <= n -> 4 * Z.abs a + n * Z.abs b < 65536 -> -4 <= i <= 4 -> - n <= j <= n -> -65536 <= s + a * i + b * j < 131072.
Proof. intros s a b i j n S N V I J. pose proof (mul_abs a i 4 I). pose proof (mul_abs b j n J). lia. Qed.
Lemma start_small : forall s a b n, 0 <= s < 65536 -> 0 <= n -> 4 * Z.abs a + n * Z.abs b < 65536 -> -65600 <= Z.land (s - a * 4 - b * n) (-64) <= 131072.
Proof.
  intros s a b n S N V. pose proof (pos_range s a b (-4) (- n) n S N V ltac:(lia) ltac:(lia)). rewrite land64.
  replace (s - a * 4 - b * n) with (s + a * -4 + b * - n) by ring. lia.
Qed.
Lemma W1_range : forall r x, 0 <= r < 15 -> 0 <= x < 8 -> - (if bd =? 8 then 1500 else 6020) <= W1 r x <= (if bd =? 8 then 5580 else 22400).
Proof.
  intros r x Hr Hx. unfold W1.
  destruct (filter_at _ (sx4 + sh_alpha sh * (x - 4) + sh_beta sh * (r - 7)) eq_refl ltac:(apply (pos_range _ _ _ _ _ 7); lia)) as (_ & _ & _ & G).
  pose proof (wsum_bounds _ (fun t => P (r - 3) (x + t - 3)) 0 (2 ^ bd - 1) G ltac:(bds D; cbn; lia) ltac:(intros; apply HP)) as B. cbv beta in B.
  generalize dependent (Mc.Spec.sum8 (fun t => BS.Warped_Filters (offs (sx4 + sh_alpha sh * (x - 4) + sh_beta sh * (r - 7))) t * P (r - 3) (x + t - 3))). intros S B.
  bds D; nums; lia.
Qed.
Lemma W2_range : forall y x, 0 <= y < 8 -> 0 <= x < 8 -> int16 (W2 true y x - prep_bias bd).
Proof.
  intros y x Hy Hx. unfold W2.
  destruct (filter_at _ (sy4 + sh_gamma sh * (x - 4) + sh_delta sh * (y - 4)) eq_refl ltac:(apply (pos_range _ _ _ _ _ 4); lia)) as (_ & _ & _ & G).
  pose proof (wsum_bounds _ (fun t => W1 (y + t) x) (- (if bd =? 8 then 1500 else 6020)) (if bd =? 8 then 5580 else 22400) G ltac:(destruct (bd =? 8); lia) ltac:(intros; apply W1_range; lia)) as B. cbv beta in B.
  generalize dependent (Mc.Spec.sum8 (fun t => BS.Warped_Filters (offs (sy4 + sh_gamma sh * (x - 4) + sh_delta sh * (y - 4))) t * W1 (y + t) x)). intros S B.
  unfold int16. bds D; cbn [Z.eqb Pos.eqb] in *; nums; lia.
Qed.
Lemma rnd_mid : forall v, rnd v (7 - inter_bits bd) = Mc.Spec.Round2 v (Mc.Spec.InterRound0 bd).
Proof. intros v. rewrite rnd_eq by (bds D; cbn; lia). f_equal. bds D; reflexivity. Qed.
Lemma rnd_out : forall v, rnd v (7 + inter_bits bd) = Mc.Spec.Round2 v (Mc.Spec.InterRound1 bd false).
Proof. intros v. rewrite rnd_eq by (bds D; cbn; lia). f_equal. bds D; reflexivity. Qed.

Variable src : Z -> Z -> outcome Z.
Hypothesis SRC : forall y x, -3 <= y < 12 -> -3 <= x < 12 -> src y x = Ok (P y x).
Lemma small_shear : -32768 <= sh_alpha sh <= 32768 /\ -32768 <= sh_beta sh <= 32768 /\ -32768 <= sh_gamma sh <= 32768 /\ -32768 <= sh_delta sh <= 32768.
Proof. lia. Qed.
Lemma mid_ok : exists mid, warp_mid bd src (sh_alpha sh) (sh_beta sh) (Z.land (sx4 - sh_alpha sh * 4 - sh_beta sh * 7) (-64)) = Ok mid /\ forall r x, 0 <= r < 15 -> 0 <= x < 8 -> mid r x = Some (W1 r x).
Proof.
  unfold warp_mid. destruct small_shear as (A1 & A2 & _). pose proof (start_small sx4 _ _ 7 SX ltac:(lia) V1) as B.
  match goal with |- context [walk 8 15 ?p ?a ?b ?v ?s ?d] => destruct (walk_ok 8 15 p a b v s d 0 0 int16 W1) as (mid & E & F & _) end; try lia.
  - intros y x v d Hy Hx H. unfold st_mid8. rewrite s16_id by exact H. apply wr2_ok; lia.
  - intros y x Hy Hx. destruct (filter_at _ _ (pos_eq sx4 _ _ x y 7 M1 M2) ltac:(apply (pos_range _ _ _ _ _ 7); lia)) as (F & E & HF & _). rewrite E. cbn [obind].
    rewrite (taps_ok F _ _ (fun t => P (y - 3) (x + t - 3)) HF) by (intros t Ht; rewrite SRC by lia; f_equal; f_equal; lia). cbn [obind]. rewrite rnd_mid.
    split; [reflexivity|]. pose proof (W1_range y x Hy Hx) as R. unfold W1 in R |- *. unfold int16. destruct (bd =? 8); lia.
  - exists mid. split; [exact E|]. intros r x Hr Hx. rewrite <- (Z.add_0_l r), <- (Z.add_0_l x) at 1. apply F; assumption.
Qed.
Lemma kernel_ok : forall (put : bool) st d y0 x0, stores st 8 8 y0 x0 (if put then (fun _ => True) else int16) ->
  exists d', (if put then warp_8x8 bd else warp_8x8t bd) src sh (Z.land (sx4 - sh_alpha sh * 4 - sh_beta sh * 7) (-64)) (Z.land (sy4 - sh_gamma sh * 4 - sh_delta sh * 4) (-64)) st d = Ok d' /\ filled d d' 8 8 y0 x0 (fun y x => value bd put (W2 (negb put) y x)).
Proof.
  intros put st d y0 x0 ST. destruct mid_ok as (mid & E & HM). destruct small_shear as (_ & _ & A1 & A2). pose proof (start_small sy4 _ _ 4 SY ltac:(lia) V2) as B.
  assert (T : forall y x, 0 <= y < 8 -> 0 <= x < 8 -> exists F, get_warp_filter (Z.land (sy4 - sh_gamma sh * 4 - sh_delta sh * 4) (-64) + sh_gamma sh * x + sh_delta sh * y) = Ok F /\ taps F (fun k => rd2 15 8 mid (3 + y + k) x) = Ok (Mc.Spec.sum8 (fun t => BS.Warped_Filters (offs (sy4 + sh_gamma sh * (x - 4) + sh_delta sh * (y - 4))) t * W1 (y + t) x))).
  { intros y x Hy Hx. destruct (filter_at _ _ (pos_eq sy4 _ _ x y 4 M3 M4) ltac:(apply (pos_range _ _ _ _ _ 4); lia)) as (F & EF & HF & _). exists F. split; [exact EF|].
    apply taps_ok; [exact HF|]. intros t Ht. replace (3 + y + (t - 3)) with (y + t) by lia. apply rd2_ok; try lia. apply HM; lia. }
  destruct put.
  - unfold warp_8x8. rewrite E. cbn [obind].
    match goal with |- context [walk 8 8 ?p ?a ?b ?v ?s ?d] => apply (walk_ok 8 8 p a b v s d y0 x0 (fun _ => True)) end; try lia; try exact ST.
    intros y x Hy Hx. destruct (T y x Hy Hx) as (F & E1 & E2). rewrite E1. cbn [obind]. rewrite E2. cbn [obind]. rewrite rnd_out. split; [|trivial].
    unfold value, W2. cbn [negb]. rewrite Kernel.clip_eq by exact D. reflexivity.
  - unfold warp_8x8t. rewrite E. cbn [obind].
    match goal with |- context [walk 8 8 ?p ?a ?b ?v ?s ?d] => apply (walk_ok 8 8 p a b v s d y0 x0 int16) end; try lia; try exact ST.
    intros y x Hy Hx. destruct (T y x Hy Hx) as (F & E1 & E2). rewrite E1. cbn [obind]. rewrite E2. cbn [obind]. rewrite rnd_eq by lia.
    split; [unfold value, W2; cbn [negb]; change (Mc.Spec.InterRound1 bd true) with 7; reflexivity|]. apply W2_range; assumption.
Qed.
End Kernel.

(** * Blocks next to one another *)
Lemma across_ok : forall n (f : Z -> plane -> outcome plane) d y0 x0 u, 0 <= n ->
  (forall i e, 0 <= i < n -> exists e', f i e = Ok e' /\ filled e e' 8 8 y0 (x0 + 8 * i) (u i)) ->
  exists d', for_ 0 n f d = Ok d' /\ filled d d' (8 * n) 8 y0 x0 (fun y x => u (x / 8) y (x mod 8)).
Proof.
  intros n f d y0 x0 u Hn H.
  destruct (for_inv _ (fun i (e : plane) => filled d e (8 * i) 8 y0 x0 (fun y x => u (x / 8) y (x mod 8))) f 0 n d Hn) as (d' & E & F).
  - split; [intros; lia|reflexivity].
  - intros i e Hi (A & B). destruct (H i e Hi) as (e' & E & A' & B'). exists e'. split; [exact E|]. split.
    + intros y x Hy Hx. destruct (Z.lt_ge_cases x (8 * i)) as [L|L].
      * rewrite B' by (unfold within; lia). apply A; lia.
      * replace (x / 8) with i by lia. replace (x mod 8) with (x - 8 * i) by lia. replace (x0 + x) with (x0 + 8 * i + (x - 8 * i)) by lia. apply A'; lia.
    + intros Y X N. rewrite B' by (unfold within in *; lia). apply B. unfold within in *; lia.
  - exists d'. split; assumption.
Qed.
Lemma down_ok : forall n w (f : Z -> plane -> outcome plane) d y0 x0 u, 0 <= n -> 0 <= w ->
  (forall j e, 0 <= j < n -> exists e', f j e = Ok e' /\ filled e e' w 8 (y0 + 8 * j) x0 (u j)) ->
  exists d', for_ 0 n f d = Ok d' /\ filled d d' w (8 * n) y0 x0 (fun y x => u (y / 8) (y mod 8) x).
Proof.
  intros n w f d y0 x0 u Hn Hw H.
  destruct (for_inv _ (fun j (e : plane) => filled d e w (8 * j) y0 x0 (fun y x => u (y / 8) (y mod 8) x)) f 0 n d Hn) as (d' & E & F).
  - split; [intros; lia|reflexivity].
  - intros j e Hj (A & B). destruct (H j e Hj) as (e' & E & A' & B'). exists e'. split; [exact E|]. split.
    + intros y x Hy Hx. destruct (Z.lt_ge_cases y (8 * j)) as [L|L].
      * rewrite B' by (unfold within; lia). apply A; lia.
      * replace (y / 8) with j by lia. replace (y mod 8) with (y - 8 * j) by lia. replace (y0 + y) with (y0 + 8 * j + (y - 8 * j)) by lia. apply A'; lia.
    + intros Y X N. rewrite B' by (unfold within in *; lia). apply B. unfold within in *; lia.
  - exists d'. split; assumption.
Qed.

(** * warp_affine *)
Lemma reduce_64 : forall v, mul64 (WS.reduce v).
Proof. intros v. unfold mul64, WS.reduce, WS.WARP_PARAM_REDUCE_BITS. change (2 ^ 6) with 64. apply Z.mod_mul. lia. Qed.
Lemma setup_64 : forall p, let t := WS.setup_shear p in mul64 (WS.alpha t) /\ mul64 (WS.beta t) /\ mul64 (WS.gamma t) /\ mul64 (WS.delta t) /\
  (WS.warpValid t = true -> 4 * Z.abs (WS.alpha t) + 7 * Z.abs (WS.beta t) < 65536 /\ 4 * Z.abs (WS.gamma t) + 4 * Z.abs (WS.delta t) < 65536).
Proof.
  intros p t. unfold t, WS.setup_shear. destruct (WS.resolve_divisor (WS.P2 p)) as (a & b). cbv zeta. cbn [WS.alpha WS.beta WS.gamma WS.delta WS.warpValid].
  repeat (split; [apply reduce_64|]). intros V. change (2 ^ WS.WARPEDMODEL_PREC_BITS) with 65536 in V. apply negb_true_iff, orb_false_iff in V. destruct V as (A & B). apply Z.leb_gt in A. apply Z.leb_gt in B. split; assumption.
Qed.
Section Whole.
Variables (bd layout rw rh : Z) (put : bool) (st : Z -> Z -> Z -> plane -> outcome plane) (d : plane) (y0 x0 : Z).
Variables (bw4 bh4 bx by_ pl : Z) (refdata : Z -> Z -> outcome Z) (S : Z -> Z -> Z) (mat : matrix) (sh : shear).
Let ssx := b2z (ss_hor_of layout pl).
Let ssy := b2z (ss_ver_of layout pl).
Let W := Z.shiftr (rw + ssx) ssx.
Let H := Z.shiftr (rh + ssy) ssy.
Let bw := bw4 * Z.shiftr 4 ssx.
Let bh := bh4 * Z.shiftr 4 ssy.
Let p := {| WS.P0 := m0 mat; WS.P1 := m1 mat; WS.P2 := m2 mat; WS.P3 := m3 mat; WS.P4 := m4 mat; WS.P5 := m5 mat |}.
Let t := WS.setup_shear p.
Hypothesis D : depth bd.
Hypothesis Hw : 1 <= bw4 <= 32 /\ bw mod 8 = 0.
Hypothesis Hh : 1 <= bh4 <= 32 /\ bh mod 8 = 0.
Hypothesis HX : 0 <= bx < 2 ^ 15.
Hypothesis HY : 0 <= by_ < 2 ^ 15.
Hypothesis RW : 1 <= rw <= 65536.
Hypothesis RH : 1 <= rh <= 65536.
Hypothesis MR : mat_range mat.
Hypothesis T0 : -2 ^ 30 <= m0 mat <= 2 ^ 30.
Hypothesis T1 : -2 ^ 30 <= m1 mat <= 2 ^ 30.
Hypothesis VA : WS.warpValid t = true.
Hypothesis SH : sh_alpha sh = WS.alpha t /\ sh_beta sh = WS.beta t /\ sh_gamma sh = WS.gamma t /\ sh_delta sh = WS.delta t.
Hypothesis ST : stores_for bw bh st y0 x0 put.
Hypothesis HS : forall r c, 0 <= r < H -> 0 <= c < W -> refdata r c = Ok (S r c) /\ pixel bd (S r c).
Lemma land_lo : forall v, Z.land (s32 v) 65535 = v mod 65536.
Proof.
  intros v. change 65535 with (Z.ones 16). rewrite Z.land_ones by lia. unfold s32, sN. cbv zeta. change (2 ^ 16) with 65536.
  change (2 ^ 32) with 4294967296. change (2 ^ (32 - 1)) with 2147483648. lia.
Qed.
Lemma ss01 : (ssx = 0 \/ ssx = 1) /\ (ssy = 0 \/ ssy = 1).
Proof. split; apply b2z_01. Qed.
Lemma W_pos : 1 <= W /\ 1 <= H.
Proof. unfold W, H. destruct ss01 as (X & Y). rewrite !Z.shiftr_div_pow2 by lia. destruct X as [-> | ->], Y as [-> | ->]; cbn [Z.pow Z.pow_pos Pos.iter Z.mul Pos.mul]; lia. Qed.
Theorem warp_affine_ok : exists d', warp_affine bd layout rw rh put st d bw4 bh4 bx by_ pl refdata mat sh = Ok d' /\
  filled d d' bw bh y0 x0 (fun y x => value bd put (BS.pred bd (negb put) S (W - 1) (H - 1) ssx ssy (bx * Z.shiftr 4 ssx) (by_ * Z.shiftr 4 ssy) p t y x)).
Proof.
  unfold warp_affine. cbv zeta. fold ssx. fold ssy. fold W. fold H. fold bw. fold bh.
  destruct ss01 as (SX & SY). destruct W_pos as (W1' & H1'). destruct Hw as (Bw & Dw). destruct Hh as (Bh & Dh).
  assert (A : forall v, Z.land v 7 = v mod 8) by (intros v; change 7 with (Z.ones 3); apply Z.land_ones; lia). rewrite !A, Dw, Dh. cbn [Z.eqb andb].
  assert (RW' : 8 <= bw <= 128) by (pose proof (mul_range ssx bw4 SX Bw) as M; change (1 <= bw <= 128) in M; lia).
  assert (RH' : 8 <= bh <= 128) by (pose proof (mul_range ssy bh4 SY Bh) as M; change (1 <= bh <= 128) in M; lia).
  set (px := bx * Z.shiftr 4 ssx). set (py := by_ * Z.shiftr 4 ssy).
  rewrite !Z.shiftr_div_pow2 by lia. change (2 ^ 3) with 8.
  set (nj := (bh + 7) / 8). set (ni := (bw + 7) / 8). assert (NI : bw = 8 * ni) by (unfold ni; lia). assert (NJ : bh = 8 * nj) by (unfold nj; lia).
  set (u := fun j i y x => value bd put (BS.pred8 bd (negb put) S (W - 1) (H - 1) ssx ssy px py p t j i (y - 4) (x - 4))).
  match goal with |- exists d', for_ 0 nj ?f d = _ /\ _ => destruct (down_ok nj bw f d y0 x0 (fun j y x => u j (x / 8) y (x mod 8))) as (d' & E & F) end; [lia|lia| |].
  - intros j e Hj.
    assert (EY : by_ * 4 + Z.shiftl (8 * j + 4) ssy = BS.srcY ssy py j).
    { unfold BS.srcY, py. rewrite Z.shiftl_mul_pow2 by lia. destruct SY as [-> | ->]; [change (Z.shiftr 4 0) with 4; change (2 ^ 0) with 1|change (Z.shiftr 4 1) with 2; change (2 ^ 1) with 2]; lia. }
    rewrite EY. set (sy := BS.srcY ssy py j) in *.
    assert (RY : 0 <= sy <= 2 ^ 18) by (rewrite <- EY, Z.shiftl_mul_pow2 by lia; destruct SY as [-> | ->]; [change (2 ^ 0) with 1|change (2 ^ 1) with 2]; lia).
    rewrite ck_small by lia. cbn [obind]. destruct MR as (R2 & R3 & R4 & R5).
    rewrite ck64_ok by nia. cbn [obind]. rewrite ck64_ok by nia. cbn [obind].
    rewrite NI. apply (across_ok ni _ e (y0 + 8 * j) x0 (u j)); [lia|].
    intros i e' Hi.
    assert (EX : bx * 4 + Z.shiftl (8 * i + 4) ssx = BS.srcX ssx px i).
    { unfold BS.srcX, px. rewrite Z.shiftl_mul_pow2 by lia. destruct SX as [-> | ->]; [change (Z.shiftr 4 0) with 4; change (2 ^ 0) with 1|change (Z.shiftr 4 1) with 2; change (2 ^ 1) with 2]; lia. }
    rewrite EX. set (sx := BS.srcX ssx px i) in *.
    assert (RX : 0 <= sx <= 2 ^ 18) by (rewrite <- EX, Z.shiftl_mul_pow2 by lia; destruct SX as [-> | ->]; [change (2 ^ 0) with 1|change (2 ^ 1) with 2]; lia).
    rewrite ck_small by lia. cbn [obind].
    assert (B1 : - 2 ^ 37 <= m2 mat * sx + (m3 mat * sy + m0 mat) <= 2 ^ 37) by (clear - RX RY R2 R3 T0; nia).
    assert (B2 : - 2 ^ 37 <= m4 mat * sx + (m5 mat * sy + m1 mat) <= 2 ^ 37) by (clear - RX RY R4 R5 T1; nia).
    rewrite !ck64_ok by lia. cbn [obind].
    assert (X4 : Z.shiftr (m2 mat * sx + (m3 mat * sy + m0 mat)) ssx = BS.x4 ssx ssy px py p j i).
    { unfold BS.x4. cbn [WS.P2 WS.P3 WS.P0 p]. fold sx sy. rewrite Z.shiftr_div_pow2 by lia. f_equal. lia. }
    assert (Y4 : Z.shiftr (m4 mat * sx + (m5 mat * sy + m1 mat)) ssy = BS.y4 ssx ssy px py p j i).
    { unfold BS.y4. cbn [WS.P4 WS.P5 WS.P1 p]. fold sx sy. rewrite Z.shiftr_div_pow2 by lia. f_equal. lia. }
    assert (RX4 : - 2 ^ 37 <= BS.x4 ssx ssy px py p j i <= 2 ^ 37).
    { rewrite <- X4, Z.shiftr_div_pow2 by lia. destruct SX as [-> | ->]; [change (2 ^ 0) with 1|change (2 ^ 1) with 2]; lia. }
    assert (RY4 : - 2 ^ 37 <= BS.y4 ssx ssy px py p j i <= 2 ^ 37).
    { rewrite <- Y4, Z.shiftr_div_pow2 by lia. destruct SY as [-> | ->]; [change (2 ^ 0) with 1|change (2 ^ 1) with 2]; lia. }
    rewrite X4, Y4. unfold u, BS.pred8, BS.intermediate. change (2 ^ WS.WARPEDMODEL_PREC_BITS) with 65536.
    set (x4 := BS.x4 ssx ssy px py p j i) in *. set (y4 := BS.y4 ssx ssy px py p j i) in *. clearbody x4 y4. clear EX EY X4 Y4 B1 B2.
    rewrite !Z.shiftr_div_pow2 by lia. change (2 ^ 16) with 65536. rewrite !land_lo.
    rewrite !s32_id by (unfold INT_MIN, INT_MAX; lia). rewrite ck_small by lia. cbn [obind].
    destruct SH as (S1 & S2 & S3 & S4). destruct (setup_64 p) as (Q1 & Q2 & Q3 & Q4 & QV). fold t in Q1, Q2, Q3, Q4, QV. destruct (QV VA) as (V1 & V2). clear QV.
    rewrite <- ?S1, <- ?S2, <- ?S3, <- ?S4 in *.
    rewrite ck_small by lia. cbn [obind]. rewrite ck_small by lia. cbn [obind]. rewrite ck_small by lia. cbn [obind].
    set (dx := x4 / 65536 - 4). set (dy := y4 / 65536 - 4).
    match goal with |- context [if ?c then obind (emu_edge _ _ _ _ _ _ _ _) _ else _] => destruct (window c 32 W H dx dy 3 3 15 15 refdata S) as (ref & ER & AR) end;
      [exact W1'|exact H1'|lia|change (emu_rows 32) with 2630; lia|lia|lia|intros r c Hr Hc; apply HS; assumption| |].
    { intros C. repeat apply orb_false_iff in C as [C ?]. repeat match goal with K : (_ <? _) = false |- _ => apply Z.ltb_ge in K end. lia. }
    rewrite ER. cbn [obind]. set (P := around S (W - 1) (H - 1) dy dx) in *.
    assert (HP : forall y x, pixel bd (P y x)) by (apply around_pixel; [assumption|assumption|intros r c Hr Hc; apply HS; assumption]).
    match goal with |- exists q, ?k ref sh _ _ ?s e' = _ /\ _ =>
      destruct (kernel_ok bd P (x4 mod 65536) (y4 mod 65536) sh D HP ltac:(lia) ltac:(lia) Q1 Q2 Q3 Q4 V1 V2 ref ltac:(intros y x Hy Hx; apply AR; lia) put s e' (y0 + 8 * j) (x0 + 8 * i)) as (res & E & F) end.
    { intros y x v g Hy Hx O. rewrite (ST (8 * j + y) (8 * i + x) v g); [f_equal; f_equal; lia|lia|lia|exact O]. }
    exists res. split; [exact E|]. apply (filled_ext _ _ _ _ _ _ _ _) with (2 := F). intros y x. f_equal. unfold W2. f_equal. apply sum8_ext. intros k _. f_equal. unfold W1. f_equal.
    replace (y - 4 + k + 4 - 7) with (y + k - 7) by lia.
    apply sum8_ext. intros k' _. f_equal. unfold P, around, dx, dy. f_equal; f_equal; lia.
  - exists d'. split; [exact E|]. rewrite NJ. apply (filled_ext _ _ _ _ _ _ _ _) with (2 := F). intros y x. reflexivity.
Qed.
End Whole.

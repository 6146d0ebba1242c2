(** The sizes and steps that decomp_tx writes are those of the tree of transforms. *)
From Coq Require Import ZArith List Bool Lia Znumtheory.
From Verif Require Import Base.CInt Base.Lemmas Base.Loop Lf.Model Lf.MaskModel Lf.MaskBlock Lf.MaskInterSpec Lf.MaskInterModel.
Import ListNotations.
Open Scope Z_scope.
Local Open Scope outcome_scope.
Local Ltac Zify.zify_post_hook ::= idtac.

Lemma pow_div : forall a b, 0 <= a <= b -> (2 ^ a | 2 ^ b).
Proof. intros a b H. exists (2 ^ (b - a)). rewrite <- Z.pow_add_r by lia. f_equal. lia. Qed.
Lemma pow_pos : forall a, 0 <= a -> 0 < 2 ^ a.
Proof. intros a H. apply Z.pow_pos_nonneg; lia. Qed.
Lemma fit : forall p q x, 0 < p -> (p | q) -> (p | x) -> x < q -> x + p <= q.
Proof. intros p q x Hp [k ->] [j ->] H. assert (j < k) by (apply (Z.mul_lt_mono_pos_r p); lia). assert ((j + 1) * p <= k * p) by (apply Z.mul_le_mono_nonneg_r; lia). lia. Qed.
Lemma div_same : forall p x d k, 0 < p -> x / p = k -> 0 <= d -> x mod p + d < p -> (x + d) / p = k.
Proof. intros p x d k Hp Hk Hd H. pose proof (Z.div_mod x p ltac:(lia)) as D. pose proof (Z.mod_pos_bound x p Hp). symmetry. apply (Z.div_unique _ p _ (x mod p + d)); [left; lia|]. subst k. lia. Qed.
Lemma sub_mod : forall p x, 0 < p -> x - x / p * p = x mod p.
Proof. intros p x H. pose proof (Z.div_mod x p ltac:(lia)). lia. Qed.

Lemma split_bound : forall lw lh, 0 <= lw -> 0 <= lh -> (lw =? 0) && (lh =? 0) = false -> 0 <= split_w lw lh <= lw /\ 0 <= split_h lw lh <= lh.
Proof. intros lw lh H1 H2 E. unfold split_w, split_h. destruct (Z.eqb_spec lw 0), (Z.eqb_spec lh 0); try discriminate E; destruct (Z.leb_spec lh lw), (Z.leb_spec lw lh); lia. Qed.
Section Tree.
Variable split : Z -> Z -> Z -> bool.
Lemma tx_bound : forall n depth lw lh i j r c, 0 <= lw -> 0 <= lh -> 0 <= fst (tx_size n split depth lw lh i j r c) <= lw /\ 0 <= snd (tx_size n split depth lw lh i j r c) <= lh.
Proof.
  induction n as [|n IH]; intros depth lw lh i j r c H1 H2; cbn [tx_size]; [cbn; lia|]. destruct ((lw =? 0) && (lh =? 0)) eqn:E0; [cbn; lia|]. destruct (split depth i j); [|cbn; lia].
  destruct (split_bound lw lh H1 H2 E0) as [B1 B2]. cbv zeta. match goal with |- 0 <= fst ?t <= _ /\ _ => assert (Q : 0 <= fst t <= split_w lw lh /\ 0 <= snd t <= split_h lw lh) by (apply IH; lia) end. lia.
Qed.
Lemma tx_col : forall n depth lw lh i j r c d, 0 <= lw -> 0 <= lh -> let a := fst (tx_size n split depth lw lh i j r c) in (2 ^ a | c) -> 0 <= d < 2 ^ a ->
  tx_size n split depth lw lh i j r (c + d) = tx_size n split depth lw lh i j r c.
Proof.
  induction n as [|n IH]; intros depth lw lh i j r c d H1 H2 a Hc Hd; unfold a in *; clear a; cbn [tx_size] in *; [reflexivity|]. destruct ((lw =? 0) && (lh =? 0)) eqn:E0; [reflexivity|]. destruct (split depth i j); [|reflexivity].
  destruct (split_bound lw lh H1 H2 E0) as [B1 B2]. cbv zeta in *. set (sw := split_w lw lh) in *. set (sh := split_h lw lh) in *. pose proof (pow_pos sw ltac:(lia)) as Ps.
  match type of Hd with _ <= _ < 2 ^ fst ?t => assert (Q : 0 <= fst t <= sw) by (apply tx_bound; lia); set (a := fst t) in * end. pose proof (pow_pos a ltac:(lia)) as Pa. pose proof (pow_div a sw ltac:(lia)) as Da.
  assert (Dm : (2 ^ a | c mod 2 ^ sw)) by (rewrite <- sub_mod by exact Ps; apply Z.divide_sub_r; [exact Hc|apply Z.divide_mul_r; exact Da]).
  pose proof (Z.mod_pos_bound c (2 ^ sw) Ps) as Bm. pose proof (fit _ _ _ Pa Da Dm (proj2 Bm)) as F.
  rewrite (div_same (2 ^ sw) c d (c / 2 ^ sw) Ps eq_refl (proj1 Hd)) by lia. replace (c + d - c / 2 ^ sw * 2 ^ sw) with (c - c / 2 ^ sw * 2 ^ sw + d) by lia.
  apply IH; try lia; [|exact Hd]. rewrite <- (sub_mod (2 ^ sw) c Ps) in Dm. exact Dm.
Qed.
Lemma tx_row : forall n depth lw lh i j r c d, 0 <= lw -> 0 <= lh -> let b := snd (tx_size n split depth lw lh i j r c) in (2 ^ b | r) -> 0 <= d < 2 ^ b ->
  tx_size n split depth lw lh i j (r + d) c = tx_size n split depth lw lh i j r c.
Proof.
  induction n as [|n IH]; intros depth lw lh i j r c d H1 H2 a Hc Hd; unfold a in *; clear a; cbn [tx_size] in *; [reflexivity|]. destruct ((lw =? 0) && (lh =? 0)) eqn:E0; [reflexivity|]. destruct (split depth i j); [|reflexivity].
  destruct (split_bound lw lh H1 H2 E0) as [B1 B2]. cbv zeta in *. set (sw := split_w lw lh) in *. set (sh := split_h lw lh) in *. pose proof (pow_pos sh ltac:(lia)) as Ps.
  match type of Hd with _ <= _ < 2 ^ snd ?t => assert (Q : 0 <= snd t <= sh) by (apply tx_bound; lia); set (a := snd t) in * end. pose proof (pow_pos a ltac:(lia)) as Pa. pose proof (pow_div a sh ltac:(lia)) as Da.
  assert (Dm : (2 ^ a | r mod 2 ^ sh)) by (rewrite <- sub_mod by exact Ps; apply Z.divide_sub_r; [exact Hc|apply Z.divide_mul_r; exact Da]).
  pose proof (Z.mod_pos_bound r (2 ^ sh) Ps) as Bm. pose proof (fit _ _ _ Pa Da Dm (proj2 Bm)) as F.
  rewrite (div_same (2 ^ sh) r d (r / 2 ^ sh) Ps eq_refl (proj1 Hd)) by lia. replace (r + d - r / 2 ^ sh * 2 ^ sh) with (r - r / 2 ^ sh * 2 ^ sh + d) by lia.
  apply IH; try lia; [|exact Hd]. rewrite <- (sub_mod (2 ^ sh) r Ps) in Dm. exact Dm.
Qed.
End Tree.

(** * The cells of txa *)
Definition cell (t : txa) (r c : Z) (s : Z * Z) : Prop :=
  tx0 t r c = Some (Z.min 2 (fst s)) /\ tx1 t r c = Some (Z.min 2 (snd s)) /\ ((2 ^ fst s | c) -> st0 t r c = Some (2 ^ fst s)) /\ ((2 ^ snd s | r) -> st1 t r c = Some (2 ^ snd s)).
Definition same (t t' : txa) (r c : Z) : Prop := tx0 t' r c = tx0 t r c /\ tx1 t' r c = tx1 t r c /\ st0 t' r c = st0 t r c /\ st1 t' r c = st1 t r c.
Definition inr (oy ox h w r c : Z) : Prop := oy <= r < oy + h /\ ox <= c < ox + w.
Definition filled (t t' : txa) (oy ox h w : Z) (f : Z -> Z -> Z * Z) : Prop :=
  (forall r c, inr oy ox h w r c -> cell t' r c (f r c)) /\ (forall r c, ~ inr oy ox h w r c -> same t t' r c).
Lemma cell_same : forall t t' r c s, same t t' r c -> cell t r c s -> cell t' r c s.
Proof. intros t t' r c s (A & B & C & D) (E & F & G & H). unfold cell. rewrite A, B, C, D. auto. Qed.
Lemma same_trans : forall t t' t'' r c, same t t' r c -> same t' t'' r c -> same t t'' r c.
Proof. intros t t' t'' r c (A & B & C & D) (E & F & G & H). unfold same. rewrite E, F, G, H. auto. Qed.
Lemma filled_ext : forall t t' oy ox h w f g, (forall r c, inr oy ox h w r c -> g r c = f r c) -> filled t t' oy ox h w f -> filled t t' oy ox h w g.
Proof. intros t t' oy ox h w f g E [A B]. split; [|exact B]. intros r c H. rewrite E by exact H. apply A, H. Qed.
Lemma filled_h : forall t t1 t2 oy ox h w1 w2 f, 0 <= w1 -> 0 <= w2 -> filled t t1 oy ox h w1 f -> filled t1 t2 oy (ox + w1) h w2 f -> filled t t2 oy ox h (w1 + w2) f.
Proof.
  intros t t1 t2 oy ox h w1 w2 f P1 P2 [A1 B1] [A2 B2]. unfold inr in *. split; intros r c H.
  - destruct H as [H1 H2]. destruct (Z.lt_ge_cases c (ox + w1)) as [K|K]; [|apply A2; split; [exact H1|lia]]. apply (cell_same t1); [apply B2; intros [_ Q]; lia|apply A1; split; [exact H1|lia]].
  - apply (same_trans _ t1); [apply B1|apply B2]; intros [Q1 Q2]; apply H; split; lia.
Qed.
Lemma filled_v : forall t t1 t2 oy ox h1 h2 w f, 0 <= h1 -> 0 <= h2 -> filled t t1 oy ox h1 w f -> filled t1 t2 (oy + h1) ox h2 w f -> filled t t2 oy ox (h1 + h2) w f.
Proof.
  intros t t1 t2 oy ox h1 h2 w f P1 P2 [A1 B1] [A2 B2]. unfold inr in *. split; intros r c H.
  - destruct H as [H1 H2]. destruct (Z.lt_ge_cases r (oy + h1)) as [K|K]; [|apply A2; split; [lia|exact H2]]. apply (cell_same t1); [apply B2; intros [Q _]; lia|apply A1; split; [lia|exact H2]].
  - apply (same_trans _ t1); [apply B1|apply B2]; intros [Q1 Q2]; apply H; split; lia.
Qed.
Lemma set_rect_ok : forall g r0 c0 h w b, 0 <= r0 -> r0 + h <= 32 -> 0 <= c0 -> c0 + w <= 32 ->
  set_rect g r0 c0 h w b = Ok (fun r c => if ((c0 <=? c) && (c <? c0 + w)) && ((r0 <=? r) && (r <? r0 + h)) then Some b else g r c).
Proof. intros g r0 c0 h w b H1 H2 H3 H4. unfold set_rect. destruct (Z.leb_spec 0 r0), (Z.leb_spec (r0 + h) 32), (Z.leb_spec 0 c0), (Z.leb_spec (c0 + w) 32); try lia. reflexivity. Qed.
Lemma between : forall a n x, ((a <=? x) && (x <? a + n) = true /\ a <= x < a + n) \/ ((a <=? x) && (x <? a + n) = false /\ ~ a <= x < a + n).
Proof. intros a n x. destruct (Z.leb_spec a x), (Z.ltb_spec x (a + n)); cbn; [left|right|right|right]; split; try reflexivity; lia. Qed.
(** A multiple of [p] in an aligned interval of [p] is its start *)
Lemma only_start : forall p a x, 0 < p -> (p | a) -> (p | x) -> a <= x < a + p -> x = a.
Proof. intros p a x Hp Ha Hx H. destruct (Z.eq_dec x a) as [|N]; [assumption|]. pose proof (fit p x a Hp Hx Ha ltac:(lia)). lia. Qed.
Lemma leaf_ok : forall lw lh oy ox t, 0 <= lw -> 0 <= lh -> 0 <= oy -> oy + 2 ^ lh <= 32 -> 0 <= ox -> ox + 2 ^ lw <= 32 -> (2 ^ lw | ox) -> (2 ^ lh | oy) ->
  exists t', decomp_leaf lw lh oy ox t = Ok t' /\ filled t t' oy ox (2 ^ lh) (2 ^ lw) (fun _ _ => (lw, lh)).
Proof.
  intros lw lh oy ox t H1 H2 H3 H4 H5 H6 D1 D2. pose proof (pow_pos lw H1) as P1. pose proof (pow_pos lh H2) as P2. unfold decomp_leaf, filled, cell. cbn [fst snd]. revert P1 P2 H4 H6 D1 D2. generalize (2 ^ lw) (2 ^ lh). intros W H P1 P2 H4 H6 D1 D2.
  rewrite !set_rect_ok by lia. cbn [obind]. eexists. split; [reflexivity|]. unfold same. cbn [tx0 tx1 st0 st1]. split.
  - intros r c [Q1 Q2]. destruct (between ox W c) as [[-> _]|[_ N]]; [|contradiction]. destruct (between oy H r) as [[-> _]|[_ N]]; [|contradiction]. cbn [andb].
    split; [reflexivity|]. split; [reflexivity|]. split; intros D.
    + rewrite (only_start W ox c P1 D1 D Q2). destruct (between ox 1 ox) as [[-> _]|[_ N]]; [reflexivity|lia].
    + rewrite (only_start H oy r P2 D2 D Q1). destruct (between oy 1 oy) as [[-> _]|[_ N]]; [reflexivity|lia].
  - intros r c N. unfold inr in N.
    destruct (between ox W c) as [[-> L1]|[-> L1]], (between oy H r) as [[-> L2]|[-> L2]]; try (exfalso; apply N; split; assumption); cbn [andb]; destruct (between ox 1 c) as [[E3 L3]|[E3 L3]], (between oy 1 r) as [[E4 L4]|[E4 L4]]; rewrite ?E3, ?E4; cbn [andb]; repeat split; try reflexivity; exfalso; lia.
Qed.

Section Decomp.
Variable tx_masks : Z -> Z.
Notation split := (fun d i j => Z.testbit (tx_masks d) (i * 4 + j)).
Lemma bit_split : forall m k, 0 <= k -> negb (Z.land (Z.shiftr m k) 1 =? 0) = Z.testbit m k.
Proof.
  intros m k Hk. change 1 with (Z.ones 1). rewrite Z.land_ones by lia. change (2 ^ 1) with 2. rewrite <- (Z.add_0_l k) at 2. rewrite <- Z.shiftr_spec by lia. rewrite Z.bit0_odd. rewrite Zmod_odd. destruct (Z.odd _); reflexivity.
Qed.
Lemma half_pow : forall l, 0 < l -> Z.shiftr (2 ^ l) 1 = 2 ^ (l - 1) /\ 2 ^ l = 2 ^ (l - 1) + 2 ^ (l - 1).
Proof.
  intros l Hl. assert (E : 2 ^ l = 2 * 2 ^ (l - 1)) by (rewrite <- Z.pow_succ_r by lia; f_equal; lia). split; [|lia]. rewrite Z.shiftr_div_pow2 by lia. change (2 ^ 1) with 2. rewrite E, Z.mul_comm. apply Z.div_mul. lia.
Qed.
Lemma pow_ge : forall a b, 0 <= a -> 0 <= b -> (2 ^ a >=? 2 ^ b) = (b <=? a).
Proof.
  intros a b Ha Hb. rewrite Z.geb_leb. destruct (Z.leb_spec b a).
  - apply Z.leb_le. apply Z.pow_le_mono_r; lia.
  - apply Z.leb_gt. apply Z.pow_lt_mono_r; lia.
Qed.
(** The positions of a half or quarter *)
Lemma child : forall n depth lw lh i j dr dc oy ox r c, 0 <= lw -> 0 <= lh -> (lw =? 0) && (lh =? 0) = false -> split depth i j = true ->
  let sw := split_w lw lh in let sh := split_h lw lh in
  inr (oy + dr * 2 ^ sh) (ox + dc * 2 ^ sw) (2 ^ sh) (2 ^ sw) r c ->
  tx_size (S n) split depth lw lh i j (r - oy) (c - ox) = tx_size n split (depth + 1) sw sh (i * 2 + dr) (j * 2 + dc) (r - (oy + dr * 2 ^ sh)) (c - (ox + dc * 2 ^ sw)).
Proof.
  intros n depth lw lh i j dr dc oy ox r c H1 H2 E0 Es sw sh [Q1 Q2]. cbn [tx_size]. rewrite E0, Es. cbv zeta. fold sw sh. destruct (split_bound lw lh H1 H2 E0) as [B1 B2]. fold sw in B1. fold sh in B2. pose proof (pow_pos sw ltac:(lia)) as P1. pose proof (pow_pos sh ltac:(lia)) as P2.
  assert (X1 : (r - oy) / 2 ^ sh = dr) by (symmetry; apply (Z.div_unique _ (2 ^ sh) _ (r - (oy + dr * 2 ^ sh))); lia). assert (X2 : (c - ox) / 2 ^ sw = dc) by (symmetry; apply (Z.div_unique _ (2 ^ sw) _ (c - (ox + dc * 2 ^ sw))); lia).
  rewrite X1, X2. f_equal; lia.
Qed.
(** The row or column of a transform with [n] levels below it *)
Definition lim (n : nat) (i : Z) : Prop := (i + 1) * 2 ^ Z.of_nat n <= 8.
Lemma lim_sub : forall n i d, d <= 1 -> lim (S n) i -> lim n (i * 2 + d).
Proof.
  unfold lim. intros n i d Hd H. rewrite Nat2Z.inj_succ, Z.pow_succ_r in H by lia. pose proof (pow_pos (Z.of_nat n) ltac:(lia)) as P. generalize dependent (2 ^ Z.of_nat n). intros p H P.
  apply Z.le_trans with ((i + 1) * (2 * p)); [|exact H]. replace ((i + 1) * (2 * p)) with ((i * 2 + 2) * p) by ring. apply Z.mul_le_mono_nonneg_r; lia.
Qed.
Lemma lim_small : forall n i, lim (S n) i -> i <= 3.
Proof.
  unfold lim. intros n i H. rewrite Nat2Z.inj_succ, Z.pow_succ_r in H by lia. pose proof (pow_pos (Z.of_nat n) ltac:(lia)) as P. generalize dependent (2 ^ Z.of_nat n). intros p H P. nia.
Qed.
Lemma decomp_ok : forall n depth lw lh oy ox i j t, 0 <= depth -> depth + Z.of_nat n = 2 -> lw = 0 /\ lh = 0 \/ lim n i /\ lim n j -> 0 <= lw -> 0 <= lh -> 0 <= oy -> oy + 2 ^ lh <= 32 -> 0 <= ox -> ox + 2 ^ lw <= 32 -> (2 ^ lw | ox) -> (2 ^ lh | oy) -> 0 <= i -> 0 <= j ->
  exists t', decomp_tx n tx_masks depth lw lh oy ox i j t = Ok t' /\ filled t t' oy ox (2 ^ lh) (2 ^ lw) (fun r c => tx_size n split depth lw lh i j (r - oy) (c - ox)).
Proof.
  induction n as [|n IH]; intros depth lw lh oy ox i j t Hd Hn HL H1 H2 H3 H4 H5 H6 D1 D2 Hi Hj; [apply leaf_ok; assumption|].
  cbn [decomp_tx]. destruct ((lw =? 0) && (lh =? 0)) eqn:E0.
  { cbn [obind Z.eqb negb]. destruct (leaf_ok lw lh oy ox t H1 H2 H3 H4 H5 H6 D1 D2) as (t' & E & F). exists t'. split; [exact E|]. eapply filled_ext; [|exact F]. intros r c _. cbn [tx_size]. rewrite E0. reflexivity. }
  destruct HL as [[-> ->]|[L1 L2]]; [discriminate E0|].
  assert (G : (0 <=? depth) && (depth <? 2) && (i * 4 + j <? 32) = true).
  { apply lim_small in L1 as S1. apply lim_small in L2 as S2. clear - Hd Hn S1 S2 Hi Hj. rewrite Nat2Z.inj_succ in Hn. destruct (Z.leb_spec 0 depth), (Z.ltb_spec depth 2), (Z.ltb_spec (i * 4 + j) 32); try reflexivity; lia. }
  rewrite G. cbn [obind]. clear G. assert (Hn' : depth + 1 + Z.of_nat n = 2) by (clear - Hn; lia). assert (Hd' : 0 <= depth + 1) by (clear - Hd; lia).
  pose proof (lim_sub n i 0 ltac:(clear; lia) L1) as LI0. pose proof (lim_sub n i 1 ltac:(clear; lia) L1) as LI1. pose proof (lim_sub n j 0 ltac:(clear; lia) L2) as LJ0. pose proof (lim_sub n j 1 ltac:(clear; lia) L2) as LJ1.
  clear Hd Hn L1 L2.
  rewrite bit_split by lia. destruct (Z.testbit (tx_masks depth) (i * 4 + j)) eqn:Es.
  2:{ destruct (leaf_ok lw lh oy ox t H1 H2 H3 H4 H5 H6 D1 D2) as (t' & E & F). exists t'. split; [exact E|]. eapply filled_ext; [|exact F]. intros r c _. cbn [tx_size]. rewrite E0, Es. reflexivity. }
  rewrite !pow_ge by assumption. rewrite (Z.geb_leb lw lh), (Z.geb_leb lh lw). fold (split_w lw lh) (split_h lw lh).
  destruct (split_bound lw lh H1 H2 E0) as [B1 B2]. pose proof (pow_pos _ (proj1 B1)) as P1. pose proof (pow_pos _ (proj1 B2)) as P2.
  pose proof (fun dr dc => child n depth lw lh i j dr dc oy ox) as Ch. cbv zeta in Ch.
  assert (Cases : (lh < lw /\ split_w lw lh = lw - 1 /\ split_h lw lh = lh) \/ (lw < lh /\ split_w lw lh = lw /\ split_h lw lh = lh - 1) \/ (lw = lh /\ 0 < lw /\ split_w lw lh = lw - 1 /\ split_h lw lh = lh - 1)).
  { unfold split_w, split_h in *. destruct (Z.leb_spec lh lw), (Z.leb_spec lw lh); [right; right|left|right; left|]; lia. }
  set (sw := split_w lw lh) in *. set (sh := split_h lw lh) in *. clearbody sw sh.
  destruct Cases as [(L & -> & ->)|[(L & -> & ->)|(L & L0 & -> & ->)]].
  - destruct (half_pow lw ltac:(lia)) as [Hs Hp]. destruct (Z.leb_spec lh lw); [|lia]. destruct (Z.leb_spec lw lh); [lia|]. rewrite Hs.
    assert (Dh : (2 ^ (lw - 1) | ox)) by (apply (Z.divide_trans _ (2 ^ lw)); [apply pow_div; lia|exact D1]).
    destruct (IH (depth + 1) (lw - 1) lh oy ox (i * 2 + 0) (j * 2 + 0) t) as (t1 & E1 & F1); try assumption; try (right; split; assumption); try lia. rewrite E1. cbn [obind].
    destruct (IH (depth + 1) (lw - 1) lh oy (ox + 2 ^ (lw - 1)) (i * 2 + 0) (j * 2 + 1) t1) as (t2 & E2 & F2); try assumption; try (right; split; assumption); try lia; [apply Z.divide_add_r; [exact Dh|apply Z.divide_refl]|]. rewrite E2. cbn [obind]. exists t2. split; [reflexivity|].
    rewrite Hp. apply (filled_h t t1); try lia.
    + eapply filled_ext; [|exact F1]. intros r c Q. cbv beta. rewrite (Ch 0 0 r c H1 H2 E0 Es) by (rewrite !Z.mul_0_l, !Z.add_0_r; exact Q). f_equal; lia.
    + eapply filled_ext; [|exact F2]. intros r c Q. cbv beta. rewrite (Ch 0 1 r c H1 H2 E0 Es) by (rewrite Z.mul_0_l, Z.mul_1_l, Z.add_0_r; exact Q). f_equal; lia.
  - destruct (half_pow lh ltac:(lia)) as [Hs Hp]. destruct (Z.leb_spec lh lw); [lia|]. destruct (Z.leb_spec lw lh); [|lia]. rewrite Hs.
    assert (Dh : (2 ^ (lh - 1) | oy)) by (apply (Z.divide_trans _ (2 ^ lh)); [apply pow_div; lia|exact D2]).
    destruct (IH (depth + 1) lw (lh - 1) oy ox (i * 2 + 0) (j * 2 + 0) t) as (t1 & E1 & F1); try assumption; try (right; split; assumption); try lia. rewrite E1. cbn [obind].
    destruct (IH (depth + 1) lw (lh - 1) (oy + 2 ^ (lh - 1)) ox (i * 2 + 1) (j * 2 + 0) t1) as (t2 & E2 & F2); try assumption; try (right; split; assumption); try lia; [apply Z.divide_add_r; [exact Dh|apply Z.divide_refl]|]. rewrite E2. cbn [obind]. exists t2. split; [reflexivity|].
    rewrite Hp. apply (filled_v t t1); try lia.
    + eapply filled_ext; [|exact F1]. intros r c Q. cbv beta. rewrite (Ch 0 0 r c H1 H2 E0 Es) by (rewrite !Z.mul_0_l, !Z.add_0_r; exact Q). f_equal; lia.
    + eapply filled_ext; [|exact F2]. intros r c Q. cbv beta. rewrite (Ch 1 0 r c H1 H2 E0 Es) by (rewrite Z.mul_0_l, Z.mul_1_l, Z.add_0_r; exact Q). f_equal; lia.
  - subst lh. destruct (half_pow lw ltac:(lia)) as [Hs Hp]. rewrite Z.leb_refl, Hs. 
    assert (Dx : (2 ^ (lw - 1) | ox)) by (apply (Z.divide_trans _ (2 ^ lw)); [apply pow_div; lia|exact D1]). assert (Dy : (2 ^ (lw - 1) | oy)) by (apply (Z.divide_trans _ (2 ^ lw)); [apply pow_div; lia|exact D2]).
    assert (Dx2 : (2 ^ (lw - 1) | ox + 2 ^ (lw - 1))) by (apply Z.divide_add_r; [exact Dx|apply Z.divide_refl]). assert (Dy2 : (2 ^ (lw - 1) | oy + 2 ^ (lw - 1))) by (apply Z.divide_add_r; [exact Dy|apply Z.divide_refl]).
    destruct (IH (depth + 1) (lw - 1) (lw - 1) oy ox (i * 2 + 0) (j * 2 + 0) t) as (t1 & E1 & F1); try assumption; try (right; split; assumption); try lia. rewrite E1. cbn [obind].
    destruct (IH (depth + 1) (lw - 1) (lw - 1) oy (ox + 2 ^ (lw - 1)) (i * 2 + 0) (j * 2 + 1) t1) as (t2 & E2 & F2); try assumption; try (right; split; assumption); try lia. rewrite E2. cbn [obind].
    destruct (IH (depth + 1) (lw - 1) (lw - 1) (oy + 2 ^ (lw - 1)) ox (i * 2 + 1) (j * 2 + 0) t2) as (t3 & E3 & F3); try assumption; try (right; split; assumption); try lia. rewrite E3. cbn [obind].
    destruct (IH (depth + 1) (lw - 1) (lw - 1) (oy + 2 ^ (lw - 1)) (ox + 2 ^ (lw - 1)) (i * 2 + 1) (j * 2 + 1) t3) as (t4 & E4 & F4); try assumption; try (right; split; assumption); try lia. exists t4. split; [exact E4|].
    rewrite Hp. apply (filled_v t t2); try lia; [apply (filled_h t t1); try lia|apply (filled_h t2 t3); try lia].
    + eapply filled_ext; [|exact F1]. intros r c Q. cbv beta. rewrite (Ch 0 0 r c H1 H2 E0 Es) by (rewrite !Z.mul_0_l, !Z.add_0_r; exact Q). f_equal; lia.
    + eapply filled_ext; [|exact F2]. intros r c Q. cbv beta. rewrite (Ch 0 1 r c H1 H2 E0 Es) by (rewrite Z.mul_0_l, Z.mul_1_l, Z.add_0_r; exact Q). f_equal; lia.
    + eapply filled_ext; [|exact F3]. intros r c Q. cbv beta. rewrite (Ch 1 0 r c H1 H2 E0 Es) by (rewrite Z.mul_0_l, Z.mul_1_l, Z.add_0_r; exact Q). f_equal; lia.
    + eapply filled_ext; [|exact F4]. intros r c Q. cbv beta. rewrite (Ch 1 1 r c H1 H2 E0 Es) by (rewrite !Z.mul_1_l; exact Q). f_equal; lia.
Qed.
End Decomp.

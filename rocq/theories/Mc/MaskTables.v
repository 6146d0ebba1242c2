(** The memory of the masks after [dav1d_init_ii_wedge_masks]. *)
From Coq Require Import ZArith List Bool Lia.
From Verif Require Import Base.CInt Base.Lemmas Base.Loop Mc.Model Mc.MaskModel Mc.Masks.
From Verif Require Mc.Spec Mc.MaskSpec.
Import ListNotations.
Open Scope Z_scope.
Local Open Scope outcome_scope.

(** * Places *)
Definition key : Type := (Z + Z * Z)%type.
Definition mget (m : masks) (k : key) : option Z := match k with inl a => ms_mem m a | inr (r, c) => ms_off m r c end.
Definition valid (k : Z) : Prop := 1 <= k <= 37.
Lemma members_check : forallb (fun n => let k := Z.of_nat n in
  (0 <=? base k) && (0 <=? size k) && (base k mod 16 =? 0) && ((37 <=? k) || (base k + size k <=? base (k + 1)))) (seq 1 37) = true.
Proof. vm_compute. reflexivity. Qed.
Lemma member_facts : forall k, valid k -> 0 <= base k /\ 0 <= size k /\ base k mod 16 = 0 /\ (k < 37 -> base k + size k <= base (k + 1)).
Proof.
  intros k H. unfold valid in H. pose proof members_check as C. rewrite forallb_forall in C. specialize (C (Z.to_nat k)).
  rewrite in_seq in C. specialize (C ltac:(lia)). cbv zeta in C. rewrite Z2Nat.id in C by lia.
  repeat (apply andb_prop in C; destruct C as [C ?]). repeat split; try lia.
Qed.
Lemma members_mono : forall n k, valid k -> valid (k + 1 + Z.of_nat n) -> base k + size k <= base (k + 1 + Z.of_nat n).
Proof.
  induction n as [|n IH]; intros k A B; unfold valid in *.
  - replace (k + 1 + Z.of_nat 0) with (k + 1) by lia. apply (member_facts k A). lia.
  - specialize (IH k A ltac:(lia)). replace (k + 1 + Z.of_nat (S n)) with ((k + 1 + Z.of_nat n) + 1) by lia.
    pose proof (member_facts (k + 1 + Z.of_nat n) ltac:(unfold valid; lia)) as (F1 & F2 & _ & F3). specialize (F3 ltac:(lia)). lia.
Qed.
Lemma members_lt : forall k k', valid k -> valid k' -> k < k' -> base k + size k <= base k'.
Proof. intros k k' A B L. unfold valid in *. replace k' with (k + 1 + Z.of_nat (Z.to_nat (k' - k - 1))) by lia. apply members_mono; unfold valid; lia. Qed.
Lemma members_disj : forall k k', valid k -> valid k' -> k <> k' -> base k + size k <= base k' \/ base k' + size k' <= base k.
Proof.
  intros k k' A B N. unfold valid in *. destruct (Z.lt_ge_cases k k').
  - left. replace k' with (k + 1 + Z.of_nat (Z.to_nat (k' - k - 1))) by lia. apply members_mono; unfold valid; lia.
  - right. replace k with (k' + 1 + Z.of_nat (Z.to_nat (k - k' - 1))) by lia. apply members_mono; unfold valid; lia.
Qed.
Lemma members_end : forall k, valid k -> base k + size k <= SIZEOF.
Proof.
  intros k A. unfold valid in A. destruct (Z.eq_dec k 37) as [->|N]; [unfold SIZEOF, ii_4x4; lia|].
  pose proof (members_disj k 37 A ltac:(unfold valid; lia) N) as [D|D].
  - pose proof (member_facts 37 ltac:(unfold valid; lia)). unfold SIZEOF, ii_4x4. lia.
  - pose proof (members_mono (Z.to_nat (37 - k - 1)) k A) as M. replace (k + 1 + Z.of_nat (Z.to_nat (37 - k - 1))) with 37 in M by lia.
    specialize (M ltac:(unfold valid; lia)). pose proof (member_facts 37 ltac:(unfold valid; lia)). unfold SIZEOF, ii_4x4. lia.
Qed.
Lemma SIZEOF_small : 0 <= SIZEOF < 524288.
Proof. vm_compute. split; congruence. Qed.

Lemma store_ok : forall p i v m, valid (fst p) -> 0 <= snd p + i < size (fst p) -> 0 <= v <= 255 ->
  exists m', store p i v m = Ok m' /\ mget m' (inl (addr p + i)) = Some v /\ forall k, k <> inl (addr p + i) -> mget m' k = mget m k.
Proof.
  intros p i v m V H Hv. unfold store.
  replace ((0 <=? snd p + i) && (snd p + i <? size (fst p))) with true by (symmetry; apply andb_true_intro; lia).
  assert (E : wr1 SIZEOF (ms_mem m) (addr p + i) (u8 v) = Ok (set1 (ms_mem m) (addr p + i) (u8 v))).
  { apply wr1_ok. pose proof (members_end _ V). pose proof (member_facts _ V). unfold addr. lia. }
  rewrite E. cbn [obind]. rewrite u8_id by lia. eexists. split; [reflexivity|]. split.
  - cbn [mget ms_mem]. unfold set1. rewrite Z.eqb_refl. reflexivity.
  - intros [a|[r c]] N; cbn [mget ms_mem ms_off]; [|reflexivity]. unfold set1. destruct (Z.eqb_spec a (addr p + i)); [congruence|reflexivity].
Qed.
Lemma load_ok : forall p i v m, valid (fst p) -> 0 <= snd p + i < size (fst p) -> mget m (inl (addr p + i)) = Some v -> load m p i = Ok v.
Proof.
  intros p i v m V H E. unfold load.
  replace ((0 <=? snd p + i) && (snd p + i <? size (fst p))) with true by (symmetry; apply andb_true_intro; lia).
  apply rd1_ok; [|exact E]. pose proof (members_end _ V). pose proof (member_facts _ V). unfold addr. lia.
Qed.
Lemma set_off_ok : forall l bs col v m, 0 <= l < 3 -> 0 <= bs < N_BS -> 0 <= col < 36 ->
  exists m', set_off l bs col v m = Ok m' /\ mget m' (inr (l * N_BS + bs, col)) = Some v /\
    forall k, k <> inr (l * N_BS + bs, col) -> mget m' k = mget m k.
Proof.
  intros l bs col v m Hl Hb Hc. unfold set_off.
  replace ((0 <=? l) && (l <? 3) && (0 <=? bs) && (bs <? N_BS)) with true by (symmetry; repeat (apply andb_true_intro; split); lia).
  assert (E : wr2 (3 * N_BS) 36 (ms_off m) (l * N_BS + bs) col v = Ok (set2 (ms_off m) (l * N_BS + bs) col v)).
  { apply wr2_ok; [|lia]. unfold N_BS, BS_8x8, BS_32x32 in *. lia. }
  rewrite E. cbn [obind]. eexists. split; [reflexivity|]. split; [apply set2_same|].
  intros [a|[r c]] N; cbn [mget ms_mem ms_off]; [reflexivity|]. apply set2_other.
  destruct (Z.eq_dec r (l * N_BS + bs)), (Z.eq_dec c col); try lia. subst. contradiction.
Qed.
Lemma mask_offset_eq : forall p, valid (fst p) -> 0 <= snd p < size (fst p) -> addr p mod 8 = 0 -> mask_offset p * 8 = addr p.
Proof.
  intros p V H M. unfold mask_offset. rewrite Z.shiftr_div_pow2 by lia. change (2 ^ 3) with 8.
  pose proof (members_end _ V). pose proof (member_facts _ V) as (F & _). pose proof SIZEOF_small.
  assert (0 <= addr p < 524288) by (unfold addr; lia). unfold u16. rewrite Z.mod_small.
  - pose proof (Z_div_mod_eq_full (addr p) 8). lia.
  - split; [apply Z.div_pos; lia|]. apply Z.div_lt_upper_bound; lia.
Qed.
(** the [i]-th of [N] equal parts of an array *)
Lemma slot_fits : forall N i n, 0 <= i < N -> 1 <= n -> 0 <= i * n /\ i * n + n <= N * n.
Proof. intros. nia. Qed.
Lemma slot_offset : forall k N i n, valid k -> size k = N * (8 * n) -> 0 <= i < N -> 1 <= n ->
  mask_offset (k, i * (8 * n)) * 8 = base k + i * (8 * n).
Proof.
  intros k N i n V S Hi Hn. destruct (slot_fits N i (8 * n) Hi ltac:(lia)) as [A B]. apply mask_offset_eq.
  - exact V.
  - cbn [fst snd]. lia.
  - unfold addr. cbn [fst snd]. destruct (member_facts k V) as (_ & _ & M & _). pose proof (Z_div_mod_eq_full (base k) 16) as D. rewrite M in D.
    replace (base k + i * (8 * n)) with ((2 * (base k / 16) + i * n) * 8) by lia. apply Z_mod_mult.
Qed.
(** Only some places change. *)
Definition only (F : key -> Prop) (m m' : masks) : Prop := forall k, ~ F k -> mget m' k = mget m k.
Lemma only_trans : forall F m1 m2 m3, only F m1 m2 -> only F m2 m3 -> only F m1 m3.
Proof. intros F m1 m2 m3 A B k N. rewrite (B k N). exact (A k N). Qed.
Lemma only_weaken : forall (F G : key -> Prop) m m', (forall k, F k -> G k) -> only F m m' -> only G m m'.
Proof. intros F G m m' I A k N. apply A. intros C. apply N, I, C. Qed.
Definition range (lo n : Z) (k : key) : Prop := match k with inl a => lo <= a < lo + n | inr _ => False end.

(** rows of [w] bytes from pointer [p] on *)
Lemma rect_ok : forall (p : ptr) w h (val : Z -> Z -> Z) body m, 0 <= w -> 0 <= h ->
  (forall y x s, 0 <= y < h -> 0 <= x < w -> only (range (addr p) (w * h)) m s -> exists s', body y x s = Ok s' /\
    mget s' (inl (addr p + (y * w + x))) = Some (val y x) /\ forall k, k <> inl (addr p + (y * w + x)) -> mget s' k = mget s k) ->
  exists m', for_ 0 h (fun y s => for_ 0 w (fun x s => body y x s) s) m = Ok m' /\ only (range (addr p) (w * h)) m m' /\
    forall y x, 0 <= y < h -> 0 <= x < w -> mget m' (inl (addr p + (y * w + x))) = Some (val y x).
Proof.
  intros p w h val body m Hw Hh Hb.
  destruct (scatter masks key mget w h (fun y x => inl (addr p + (y * w + x))) val body m Hw Hh) as (m' & E & A & B).
  { intros y x s [Hy Hx] Ks. apply Hb; [exact Hy|exact Hx|]. intros k N. apply Ks. intros y' x' [Hy' Hx'] ->. apply N. cbn [range]. nia. }
  { intros y x y' x' [A B] [C D] Q. injection Q as Q. apply (flat_inj w); lia. }
  exists m'. split; [exact E|]. split.
  - intros k N. apply A. intros y x [Hy Hx] ->. apply N. cbn [range]. nia.
  - intros y x Hy Hx. apply B. split; assumption.
Qed.

(** * Values *)
Lemma tab_range : forall l i, forallb (fun v => (0 <=? v) && (v <=? 64)) l = true -> 0 <= MaskSpec.tab l i <= 64.
Proof.
  intros l i F. unfold MaskSpec.tab. rewrite forallb_forall in F.
  destruct (nth_in_or_default (Z.to_nat i) l 0) as [I|E]; [|rewrite E; lia].
  specialize (F _ I). apply andb_prop in F. lia.
Qed.
Lemma oblique_range : forall i j, 0 <= MaskSpec.oblique63 i j <= 64.
Proof. intros. unfold MaskSpec.oblique63. destruct (Z.even i); apply tab_range; reflexivity. Qed.
Lemma master_range : forall d i j, 0 <= MaskSpec.MasterMask d i j <= 64.
Proof.
  intros d i j. destruct d; cbn [MaskSpec.MasterMask];
    try (apply tab_range; reflexivity); try apply oblique_range;
    match goal with |- context [MaskSpec.oblique63 ?a ?b] => pose proof (oblique_range a b) end; lia.
Qed.
Lemma MM_range : forall d y x, 0 <= MM d y x <= 64.
Proof. intros. unfold MM. pose proof (master_range (dir_of d) y x). destruct (d =? 4); lia. Qed.

(** init_chroma *)
Definition chroma_val (Lf : Z -> Z -> Z) (sign ss y x : Z) : Z :=
  if ss =? 0 then (Lf y (2 * x) + Lf y (2 * x + 1) + 1 - sign) / 2
  else (Lf (2 * y) (2 * x) + Lf (2 * y) (2 * x + 1) + Lf (2 * y + 1) (2 * x) + Lf (2 * y + 1) (2 * x + 1) + 2 - sign) / 4.
Lemma init_chroma_ok : forall (pc pl : ptr) sign w2 h2 ss (Lf : Z -> Z -> Z) m,
  0 <= sign <= 1 -> 0 <= ss <= 1 -> 0 <= w2 -> 0 <= h2 -> (forall y x, 0 <= Lf y x <= 64) ->
  valid (fst pc) -> valid (fst pl) -> fst pc <> fst pl ->
  0 <= snd pc -> snd pc + w2 * h2 <= size (fst pc) -> 0 <= snd pl -> snd pl + (2 * w2) * (h2 * (1 + ss)) <= size (fst pl) ->
  (forall y x, 0 <= y < h2 * (1 + ss) -> 0 <= x < 2 * w2 -> mget m (inl (addr pl + (y * (2 * w2) + x))) = Some (Lf y x)) ->
  exists m', init_chroma pc pl sign (2 * w2) (h2 * (1 + ss)) ss m = Ok (m', mask_offset pc) /\ only (range (addr pc) (w2 * h2)) m m' /\
    forall y x, 0 <= y < h2 -> 0 <= x < w2 -> mget m' (inl (addr pc + (y * w2 + x))) = Some (chroma_val Lf sign ss y x).
Proof.
  intros pc pl sign w2 h2 ss Lf m Hs Hss Hw Hh HL Vc Vl N Hc1 Hc2 Hl1 Hl2 G. unfold init_chroma.
  replace (Z.shiftr (2 * w2) 1) with w2 by (rewrite Z.shiftr_div_pow2 by lia; change (2 ^ 1) with 2; rewrite Z.mul_comm, Z.div_mul; lia).
  replace (Z.shiftr (h2 * (1 + ss)) ss) with h2.
  2:{ rewrite Z.shiftr_div_pow2 by lia. assert (C : ss = 0 \/ ss = 1) by lia. destruct C as [->| ->].
      - change (2 ^ 0) with 1. rewrite Z.div_1_r. lia.
      - change (2 ^ 1) with (1 + 1). rewrite Z.div_mul; lia. }
  assert (SH : Z.shiftl (2 * w2) ss = (1 + ss) * (2 * w2)).
  { rewrite Z.shiftl_mul_pow2 by lia. assert (C : ss = 0 \/ ss = 1) by lia. destruct C as [->| ->]; [change (2 ^ 0) with 1|change (2 ^ 1) with 2]; lia. }
  rewrite SH.
  pose proof (members_disj _ _ Vc Vl N) as D.
  assert (LD : forall s y x, only (range (addr pc) (w2 * h2)) m s -> 0 <= y < h2 * (1 + ss) -> 0 <= x < 2 * w2 ->
    forall k i, k * (2 * w2) + i = y * (2 * w2) + x -> load s (padd pl (k * (2 * w2))) i = Ok (Lf y x)).
  { intros s y x O Hy Hx k i Q. assert (y * (2 * w2) + x < (2 * w2) * (h2 * (1 + ss))) by nia. assert (0 <= y * (2 * w2) + x) by nia.
    apply load_ok.
    - exact Vl.
    - cbn [padd fst snd]. lia.
    - replace (addr (padd pl (k * (2 * w2))) + i) with (addr pl + (y * (2 * w2) + x)) by (unfold addr, padd; cbn [fst snd]; lia).
      rewrite <- (G y x Hy Hx). apply O. cbn [range]. unfold addr. lia. }
  destruct (rect_ok pc w2 h2 (chroma_val Lf sign ss) (fun k j m =>
    let lu := padd pl (k * ((1 + ss) * (2 * w2))) in let x := 2 * j in
    let! a := load m lu x in let! b := load m lu (x + 1) in
    let sum := a + b + 1 in
    let! sum := if negb (ss =? 0)
      then let! a := load m lu (2 * w2 + x) in let! b := load m lu (2 * w2 + x + 1) in Ok (sum + (a + b + 1)) else Ok sum in
    store (padd pc (k * w2)) j (Z.shiftr (sum - sign) (1 + ss)) m) m Hw Hh) as (m' & E & O & V).
  { intros y x s Hy Hx O. cbv zeta.
    assert (SO : forall v, 0 <= v <= 255 -> exists s', store (padd pc (y * w2)) x v s = Ok s' /\
      mget s' (inl (addr pc + (y * w2 + x))) = Some v /\ forall k, k <> inl (addr pc + (y * w2 + x)) -> mget s' k = mget s k).
    { intros v Hv. destruct (store_ok (padd pc (y * w2)) x v s) as (s' & A & B & C); [exact Vc| |exact Hv|].
      - cbn [padd fst snd]. nia.
      - replace (addr (padd pc (y * w2)) + x) with (addr pc + (y * w2 + x)) in B, C by (unfold addr, padd; cbn [fst snd]; lia).
        exists s'. repeat split; assumption. }
    assert (CS : ss = 0 \/ ss = 1) by lia. destruct CS as [-> | ->].
    - replace (y * ((1 + 0) * (2 * w2))) with (y * (2 * w2)) by lia.
      rewrite (LD s y (2 * x) O ltac:(lia) ltac:(lia) y (2 * x) eq_refl). cbn [obind].
      rewrite (LD s y (2 * x + 1) O ltac:(lia) ltac:(lia) y (2 * x + 1) eq_refl). cbn [obind].
      cbn [Z.eqb negb obind]. rewrite Z.shiftr_div_pow2 by lia. change (2 ^ (1 + 0)) with 2.
      unfold chroma_val. cbn [Z.eqb]. apply SO. pose proof (HL y (2 * x)). pose proof (HL y (2 * x + 1)).
      split; [apply Z.div_pos; lia|]. apply Z.div_le_upper_bound; lia.
    - replace (y * ((1 + 1) * (2 * w2))) with (2 * y * (2 * w2)) by lia.
      rewrite (LD s (2 * y) (2 * x) O ltac:(lia) ltac:(lia) (2 * y) (2 * x) eq_refl). cbn [obind].
      rewrite (LD s (2 * y) (2 * x + 1) O ltac:(lia) ltac:(lia) (2 * y) (2 * x + 1) eq_refl). cbn [obind].
      cbn [Z.eqb negb obind]. rewrite (LD s (2 * y + 1) (2 * x) O ltac:(lia) ltac:(lia) (2 * y) (2 * w2 + 2 * x) ltac:(lia)). cbn [obind].
      rewrite (LD s (2 * y + 1) (2 * x + 1) O ltac:(lia) ltac:(lia) (2 * y) (2 * w2 + 2 * x + 1) ltac:(lia)). cbn [obind].
      rewrite Z.shiftr_div_pow2 by lia. change (2 ^ (1 + 1)) with 4. unfold chroma_val. cbn [Z.eqb].
      replace (Lf (2 * y) (2 * x) + Lf (2 * y) (2 * x + 1) + 1 + (Lf (2 * y + 1) (2 * x) + Lf (2 * y + 1) (2 * x + 1) + 1) - sign)
        with (Lf (2 * y) (2 * x) + Lf (2 * y) (2 * x + 1) + Lf (2 * y + 1) (2 * x) + Lf (2 * y + 1) (2 * x + 1) + 2 - sign) by lia.
      apply SO. pose proof (HL (2 * y) (2 * x)). pose proof (HL (2 * y) (2 * x + 1)). pose proof (HL (2 * y + 1) (2 * x)). pose proof (HL (2 * y + 1) (2 * x + 1)).
      split; [apply Z.div_pos; lia|]. apply Z.div_le_upper_bound; lia. }
  cbv zeta in E. rewrite E. cbn [obind]. exists m'. split; [reflexivity|]. split; assumption.
Qed.

(** * One call of fill2d_16x2 *)
Section Fill.
Variables (wq hq bs k4 k2 k0 signs : Z) (cb : list (Z * Z * Z)) (master : plane).
Let w := 8 * wq.
Let h := 8 * hq.
Let q := wq * hq.
Variables (dd xo yo : Z -> Z).
Record fill_ok : Prop := {
  fo_w : 1 <= wq <= 4; fo_h : 1 <= hq <= 4; fo_bs : 0 <= bs < N_BS;
  fo_k4 : valid k4; fo_k2 : valid k2; fo_k0 : valid k0; fo_42 : k4 < k2; fo_20 : k2 < k0;
  fo_s4 : size k4 = 16 * (64 * q); fo_s2 : size k2 = 32 * (32 * q); fo_s0 : size k0 = 32 * (16 * q);
  fo_cb : forall n, 0 <= n < 16 -> rd_at cb n = Ok (dd n, xo n, yo n) /\ 0 <= dd n < 6 /\ 0 <= xo n <= 8 /\ 0 <= yo n <= 8 }.
Hypothesis OK : fill_ok.
Hypothesis HM : forall d, 0 <= d < 6 -> has_dir master d.
Definition sgn (n : Z) : Z := Z.land (Z.shiftr signs n) 1.
Definition Lum (n y x : Z) : Z :=
  let v := MM (dd n) (32 - h * yo n / 8 + y) (32 - w * xo n / 8 + x) in if sgn n =? 0 then v else 64 - v.
Lemma sgn_01 : forall n, sgn n = 0 \/ sgn n = 1.
Proof. intros n. unfold sgn. pose proof (Z.land_ones (Z.shiftr signs n) 1 ltac:(lia)) as E. change (Z.ones 1) with 1 in E. change (2 ^ 1) with 2 in E. rewrite E. pose proof (Z.mod_pos_bound (Z.shiftr signs n) 2). lia. Qed.
Lemma Lum_range : forall n y x, 0 <= Lum n y x <= 64.
Proof. intros. unfold Lum. cbv zeta. match goal with |- context [MM ?a ?b ?c] => pose proof (MM_range a b c) end. destruct (sgn n =? 0); lia. Qed.
Lemma q_pos : 1 <= q <= 16.
Proof. destruct OK. unfold q. nia. Qed.
Definition slot4 (n : Z) : ptr := (k4, n * (64 * q)).
Definition slot2 (i : Z) : ptr := (k2, i * (32 * q)).
Definition slot0 (i : Z) : ptr := (k0, i * (16 * q)).
Definition FN (n : Z) (k : key) : Prop :=
  range (addr (slot4 n)) (64 * q) k \/
  range (addr (slot2 n)) (32 * q) k \/ range (addr (slot2 (16 + n))) (32 * q) k \/
  range (addr (slot0 n)) (16 * q) k \/ range (addr (slot0 (16 + n))) (16 * q) k \/
  exists l c, k = inr (l * N_BS + bs, c) /\ 0 <= l < 3 /\ (c = n \/ c = 16 + n).
Definition has (F : key -> Prop) (m : masks) (l b col i v : Z) : Prop := exists o,
  mget m (inr (l * N_BS + b, col)) = Some o /\ mget m (inl (o * 8 + i)) = Some v /\ F (inr (l * N_BS + b, col)) /\ F (inl (o * 8 + i)).
Definition R (n : Z) (m : masks) : Prop := forall s, s = 0 \/ s = 1 ->
  (forall y x, 0 <= y < h -> 0 <= x < w -> has (FN n) m 0 bs (s * 16 + n) (y * w + x) (Lum n y x)) /\
  (forall y x, 0 <= y < h -> 0 <= x < w / 2 -> has (FN n) m 1 bs (s * 16 + n) (y * (w / 2) + x) (chroma_val (Lum n) s 0 y x)) /\
  (forall y x, 0 <= y < h / 2 -> 0 <= x < w / 2 -> has (FN n) m 2 bs (s * 16 + n) (y * (w / 2) + x) (chroma_val (Lum n) s 1 y x)).

Lemma copy_ok : forall n m, 0 <= n < 16 ->
  exists m', copy2d (k4, n * (w * h)) master (dd n) (sgn n) w h (32 - Z.shiftr (w * xo n) 3) (32 - Z.shiftr (h * yo n) 3) m = Ok m' /\
    only (range (addr (k4, n * (w * h))) (w * h)) m m' /\
    forall y x, 0 <= y < h -> 0 <= x < w -> mget m' (inl (addr (k4, n * (w * h)) + (y * w + x))) = Some (Lum n y x).
Proof.
  intros n m Hn. destruct (fo_cb OK n Hn) as (_ & Hd & Hx & Hy). pose proof (fo_w OK). pose proof (fo_h OK). unfold copy2d.
  assert (S3 : forall a, Z.shiftr a 3 = a / 8) by (intros; rewrite Z.shiftr_div_pow2 by lia; reflexivity). rewrite !S3.
  assert (WX : w * xo n / 8 = wq * xo n) by (unfold w; replace (8 * wq * xo n) with (wq * xo n * 8) by lia; apply Z.div_mul; lia).
  assert (HY : h * yo n / 8 = hq * yo n) by (unfold h; replace (8 * hq * yo n) with (hq * yo n * 8) by lia; apply Z.div_mul; lia).
  apply rect_ok; [unfold w; lia|unfold h; lia|]. intros y x s Hy' Hx' O. rewrite WX, HY.
  assert (B1 : 0 <= wq * xo n <= 8 * wq) by nia. assert (B2 : 0 <= hq * yo n <= 8 * hq) by nia.
  assert (E : rdm master (dd n) ((32 - hq * yo n) * 64 + (32 - wq * xo n) + y * 64 + x) = Ok (MM (dd n) (32 - hq * yo n + y) (32 - wq * xo n + x))).
  { unfold rdm. apply rd2_ok; [lia|unfold w, h in *; lia|].
    replace ((32 - hq * yo n) * 64 + (32 - wq * xo n) + y * 64 + x) with ((32 - hq * yo n + y) * 64 + (32 - wq * xo n + x)) by lia.
    apply HM; [exact Hd|unfold h in *; lia|unfold w in *; lia]. }
  rewrite E. cbn [obind]. pose proof (MM_range (dd n) (32 - hq * yo n + y) (32 - wq * xo n + x)) as MR.
  assert (EL : (if negb (sgn n =? 0) then 64 - MM (dd n) (32 - hq * yo n + y) (32 - wq * xo n + x) else MM (dd n) (32 - hq * yo n + y) (32 - wq * xo n + x)) = Lum n y x).
  { unfold Lum. rewrite WX, HY. destruct (sgn n =? 0); reflexivity. }
  rewrite EL. apply store_ok; [exact (fo_k4 OK)| |pose proof (Lum_range n y x); lia].
  cbn [fst snd]. rewrite (fo_s4 OK). replace (w * h) with (64 * q) by (unfold w, h, q; lia). pose proof q_pos.
  assert (0 <= y * w + x < w * h) by nia. replace (w * h) with (64 * q) in * by (unfold w, h, q; lia). nia.
Qed.
Definition iter (n : Z) (m : masks) : outcome masks :=
    let sign := Z.land (Z.shiftr signs n) 1 in
    let nsign := if sign =? 0 then 1 else 0 in
    let p444 := (k4, n * (w * h)) in
    let p422 := (k2, n * Z.shiftr (w * h) 1) in
    let p420 := (k0, n * Z.shiftr (w * h) 2) in
    let! e := rd_at cb n in
    let '(d, xo, yo) := e in
    let! m := copy2d p444 master d sign w h (32 - Z.shiftr (w * xo) 3) (32 - Z.shiftr (h * yo) 3) m in
    let! m := set_off 0 bs (16 + n) (mask_offset p444) m in
    let! m := set_off 0 bs n (mask_offset p444) m in
    let! (m, o) := init_chroma (padd p422 (sign * (16 * Z.shiftr (w * h) 1))) p444 0 w h 0 m in
    let! m := set_off 1 bs n o m in
    let! (m, o) := init_chroma (padd p422 (nsign * (16 * Z.shiftr (w * h) 1))) p444 1 w h 0 m in
    let! m := set_off 1 bs (16 + n) o m in
    let! (m, o) := init_chroma (padd p420 (sign * (16 * Z.shiftr (w * h) 2))) p444 0 w h 1 m in
    let! m := set_off 2 bs n o m in
    let! (m, o) := init_chroma (padd p420 (nsign * (16 * Z.shiftr (w * h) 2))) p444 1 w h 1 m in
    set_off 2 bs (16 + n) o m.
Lemma fill_eq : forall m, fill2d_16x2 w h bs master cb k4 k2 k0 signs m = for_ 0 16 iter m.
Proof. reflexivity. Qed.
Lemma wh : w * h = 64 * q.
Proof. unfold w, h, q. lia. Qed.
Lemma at_key : forall k (F : key -> Prop) m m' v, only F m m' -> ~ F k -> mget m k = Some v -> mget m' k = Some v.
Proof. intros k F m m' v O N E. rewrite (O k N). exact E. Qed.
Definition one (k0 : key) : key -> Prop := fun k => k = k0.
Lemma set_ok : forall l col v m, 0 <= l < 3 -> 0 <= col < 36 ->
  exists m', set_off l bs col v m = Ok m' /\ mget m' (inr (l * N_BS + bs, col)) = Some v /\ only (one (inr (l * N_BS + bs, col))) m m'.
Proof.
  intros l col v m Hl Hc. destruct (set_off_ok l bs col v m Hl (fo_bs OK) Hc) as (m' & A & B & C).
  exists m'. split; [exact A|]. split; [exact B|]. intros k N. apply C. exact N.
Qed.
(** the twelve steps, on addresses *)
Lemma only_in : forall (F G : key -> Prop) m m', only F m m' -> (forall k, F k -> G k) -> only G m m'.
Proof. intros F G m m' A I k N. apply A. intros C. apply N, I, C. Qed.
Lemma off4 : forall n, 0 <= n < 16 -> mask_offset (slot4 n) * 8 = addr (slot4 n).
Proof. intros n Hn. pose proof q_pos. unfold slot4. replace (64 * q) with (8 * (8 * q)) by lia. apply (slot_offset k4 16); [exact (fo_k4 OK)|rewrite (fo_s4 OK); lia|exact Hn|lia]. Qed.
Lemma off2 : forall n, 0 <= n < 32 -> mask_offset (slot2 n) * 8 = addr (slot2 n).
Proof. intros n Hn. pose proof q_pos. unfold slot2. replace (32 * q) with (8 * (4 * q)) by lia. apply (slot_offset k2 32); [exact (fo_k2 OK)|rewrite (fo_s2 OK); lia|exact Hn|lia]. Qed.
Lemma off0 : forall n, 0 <= n < 32 -> mask_offset (slot0 n) * 8 = addr (slot0 n).
Proof. intros n Hn. pose proof q_pos. unfold slot0. replace (16 * q) with (8 * (2 * q)) by lia. apply (slot_offset k0 32); [exact (fo_k0 OK)|rewrite (fo_s0 OK); lia|exact Hn|lia]. Qed.
Lemma chroma422 : forall n i s m, 0 <= n < 16 -> 0 <= i < 32 -> 0 <= s <= 1 ->
  (forall y x, 0 <= y < h -> 0 <= x < w -> mget m (inl (addr (slot4 n) + (y * w + x))) = Some (Lum n y x)) ->
  exists m', init_chroma (slot2 i) (slot4 n) s w h 0 m = Ok (m', mask_offset (slot2 i)) /\ only (range (addr (slot2 i)) (32 * q)) m m' /\
    forall y x, 0 <= y < h -> 0 <= x < w / 2 -> mget m' (inl (addr (slot2 i) + (y * (w / 2) + x))) = Some (chroma_val (Lum n) s 0 y x).
Proof.
  intros n i s m Hn Hi Hs G. pose proof q_pos as Q. pose proof (fo_w OK). pose proof (fo_h OK). pose proof (fo_42 OK).
  assert (W2 : w / 2 = 4 * wq) by (unfold w; replace (8 * wq) with (4 * wq * 2) by lia; apply Z.div_mul; lia).
  destruct (slot_fits 16 n (64 * q) Hn ltac:(lia)) as [F1 F2]. destruct (slot_fits 32 i (32 * q) Hi ltac:(lia)) as [F3 F4].
  destruct (init_chroma_ok (slot2 i) (slot4 n) s (4 * wq) h 0 (Lum n) m) as (m' & E & O & V);
    [lia|lia|lia|unfold h; lia|apply Lum_range|exact (fo_k2 OK)|exact (fo_k4 OK)|cbn [slot2 slot4 fst]; lia|exact F3| |exact F1| | |].
  - cbn [slot2 fst snd]. rewrite (fo_s2 OK). unfold h. fold q. replace (4 * wq * (8 * hq)) with (32 * q) by (unfold q; lia). lia.
  - cbn [slot4 fst snd]. rewrite (fo_s4 OK). replace (2 * (4 * wq) * (h * (1 + 0))) with (64 * q) by (unfold q, h; lia). lia.
  - intros y x Hy Hx. replace (2 * (4 * wq)) with w in * by (unfold w; lia). apply G; lia.
  - replace (2 * (4 * wq)) with w in E by (unfold w; lia). replace (h * (1 + 0)) with h in E by lia.
    replace (4 * wq * h) with (32 * q) in O by (unfold h, q; lia). rewrite W2. exists m'. repeat split; assumption.
Qed.
Lemma chroma420 : forall n i s m, 0 <= n < 16 -> 0 <= i < 32 -> 0 <= s <= 1 ->
  (forall y x, 0 <= y < h -> 0 <= x < w -> mget m (inl (addr (slot4 n) + (y * w + x))) = Some (Lum n y x)) ->
  exists m', init_chroma (slot0 i) (slot4 n) s w h 1 m = Ok (m', mask_offset (slot0 i)) /\ only (range (addr (slot0 i)) (16 * q)) m m' /\
    forall y x, 0 <= y < h / 2 -> 0 <= x < w / 2 -> mget m' (inl (addr (slot0 i) + (y * (w / 2) + x))) = Some (chroma_val (Lum n) s 1 y x).
Proof.
  intros n i s m Hn Hi Hs G. pose proof q_pos as Q. pose proof (fo_w OK). pose proof (fo_h OK). pose proof (fo_42 OK). pose proof (fo_20 OK).
  assert (W2 : w / 2 = 4 * wq) by (unfold w; replace (8 * wq) with (4 * wq * 2) by lia; apply Z.div_mul; lia).
  assert (HH2 : h / 2 = 4 * hq) by (unfold h; replace (8 * hq) with (4 * hq * 2) by lia; apply Z.div_mul; lia).
  destruct (slot_fits 16 n (64 * q) Hn ltac:(lia)) as [F1 F2]. destruct (slot_fits 32 i (16 * q) Hi ltac:(lia)) as [F3 F4].
  destruct (init_chroma_ok (slot0 i) (slot4 n) s (4 * wq) (4 * hq) 1 (Lum n) m) as (m' & E & O & V);
    [lia|lia|lia|lia|apply Lum_range|exact (fo_k0 OK)|exact (fo_k4 OK)|cbn [slot0 slot4 fst]; lia|exact F3| |exact F1| | |].
  - cbn [slot0 fst snd]. rewrite (fo_s0 OK). replace (4 * wq * (4 * hq)) with (16 * q) by (unfold q; lia). lia.
  - cbn [slot4 fst snd]. rewrite (fo_s4 OK). replace (2 * (4 * wq) * (4 * hq * (1 + 1))) with (64 * q) by (unfold q; lia). lia.
  - intros y x Hy Hx. replace (2 * (4 * wq)) with w in * by (unfold w; lia). apply G; [unfold h; lia|lia].
  - replace (2 * (4 * wq)) with w in E by (unfold w; lia). replace (4 * hq * (1 + 1)) with h in E by (unfold h; lia).
    replace (4 * wq * (4 * hq)) with (16 * q) in O by (unfold q; lia). rewrite W2, HH2. exists m'. repeat split; assumption.
Qed.
Lemma above42 : forall n i, 0 <= n < 16 -> 0 <= i < 32 -> addr (slot4 n) + 64 * q <= addr (slot2 i).
Proof.
  intros n i Hn Hi. pose proof q_pos. pose proof (members_lt k4 k2 (fo_k4 OK) (fo_k2 OK) (fo_42 OK)) as D. rewrite (fo_s4 OK) in D.
  destruct (slot_fits 16 n (64 * q) Hn ltac:(lia)). destruct (slot_fits 32 i (32 * q) Hi ltac:(lia)). unfold addr, slot4, slot2. cbn [fst snd]. lia.
Qed.
Lemma above20 : forall n i, 0 <= n < 32 -> 0 <= i < 32 -> addr (slot2 n) + 32 * q <= addr (slot0 i).
Proof.
  intros n i Hn Hi. pose proof q_pos. pose proof (members_lt k2 k0 (fo_k2 OK) (fo_k0 OK) (fo_20 OK)) as D. rewrite (fo_s2 OK) in D.
  destruct (slot_fits 32 n (32 * q) Hn ltac:(lia)). destruct (slot_fits 32 i (16 * q) Hi ltac:(lia)). unfold addr, slot0, slot2. cbn [fst snd]. lia.
Qed.
Lemma apart2 : forall i j, i < j -> addr (slot2 i) + 32 * q <= addr (slot2 j).
Proof. intros i j L. pose proof q_pos. unfold addr, slot2. cbn [fst snd]. nia. Qed.
Lemma apart0 : forall i j, i < j -> addr (slot0 i) + 16 * q <= addr (slot0 j).
Proof. intros i j L. pose proof q_pos. unfold addr, slot0. cbn [fst snd]. nia. Qed.
Lemma apart4 : forall i j, i < j -> addr (slot4 i) + 64 * q <= addr (slot4 j).
Proof. intros i j L. pose proof q_pos. unfold addr, slot4. cbn [fst snd]. nia. Qed.
Lemma idx4 : forall y x, 0 <= y < h -> 0 <= x < w -> 0 <= y * w + x < 64 * q.
Proof. intros y x Hy Hx. rewrite <- wh. nia. Qed.
Lemma idx2 : forall y x, 0 <= y < h -> 0 <= x < w / 2 -> 0 <= y * (w / 2) + x < 32 * q.
Proof.
  intros y x Hy Hx. assert (W2 : w / 2 = 4 * wq) by (unfold w; replace (8 * wq) with (4 * wq * 2) by lia; apply Z.div_mul; lia).
  rewrite W2 in *. replace (32 * q) with (h * (4 * wq)) by (unfold h, q; lia). nia.
Qed.
Lemma idx0 : forall y x, 0 <= y < h / 2 -> 0 <= x < w / 2 -> 0 <= y * (w / 2) + x < 16 * q.
Proof.
  intros y x Hy Hx. assert (W2 : w / 2 = 4 * wq) by (unfold w; replace (8 * wq) with (4 * wq * 2) by lia; apply Z.div_mul; lia).
  assert (HH2 : h / 2 = 4 * hq) by (unfold h; replace (8 * hq) with (4 * hq * 2) by lia; apply Z.div_mul; lia).
  rewrite W2, HH2 in *. replace (16 * q) with ((4 * hq) * (4 * wq)) by (unfold q; lia). nia.
Qed.
Ltac side := cbn [range one]; unfold one; let C := fresh in intros C; first [discriminate C | lia | (injection C; intros; lia) | destruct C].
Ltac carry O := apply (at_key _ _ _ _ _ O); [side|].
Lemma iter_ok : forall n m, 0 <= n < 16 -> exists m', iter n m = Ok m' /\ only (FN n) m m' /\ R n m'.
Proof.
  intros n m Hn. unfold iter. rewrite (proj1 (fo_cb OK n Hn)). cbn [obind].
  change (Z.land (Z.shiftr signs n) 1) with (sgn n). set (ns := if sgn n =? 0 then 1 else 0).
  assert (NS : sgn n = 0 /\ ns = 1 \/ sgn n = 1 /\ ns = 0) by (unfold ns; destruct (sgn_01 n) as [E|E]; rewrite E; [left|right]; split; reflexivity). clearbody ns.
  pose proof q_pos as Q.
  assert (E1 : Z.shiftr (w * h) 1 = 32 * q) by (rewrite wh, Z.shiftr_div_pow2 by lia; change (2 ^ 1) with 2; replace (64 * q) with (32 * q * 2) by lia; apply Z.div_mul; lia).
  assert (E2 : Z.shiftr (w * h) 2 = 16 * q) by (rewrite wh, Z.shiftr_div_pow2 by lia; change (2 ^ 2) with 4; replace (64 * q) with (16 * q * 4) by lia; apply Z.div_mul; lia).
  rewrite E1, E2.
  replace (padd (k2, n * (32 * q)) (sgn n * (16 * (32 * q)))) with (slot2 (16 * sgn n + n)) by (unfold slot2, padd; cbn [fst snd]; f_equal; lia).
  replace (padd (k2, n * (32 * q)) (ns * (16 * (32 * q)))) with (slot2 (16 * ns + n)) by (unfold slot2, padd; cbn [fst snd]; f_equal; lia).
  replace (padd (k0, n * (16 * q)) (sgn n * (16 * (16 * q)))) with (slot0 (16 * sgn n + n)) by (unfold slot0, padd; cbn [fst snd]; f_equal; lia).
  replace (padd (k0, n * (16 * q)) (ns * (16 * (16 * q)))) with (slot0 (16 * ns + n)) by (unfold slot0, padd; cbn [fst snd]; f_equal; lia).
  destruct (copy_ok n m Hn) as (m1 & X1 & O1 & V1). rewrite X1. cbn [obind]. clear X1.
  assert (P4 : (k4, n * (w * h)) = slot4 n) by (unfold slot4; rewrite wh; reflexivity). rewrite P4 in *. rewrite wh in O1.
  set (i := 16 * sgn n + n) in *. set (j := 16 * ns + n) in *.
  assert (IJ : i = n /\ j = 16 + n \/ i = 16 + n /\ j = n) by lia. clearbody i j.
  assert (Hi : 0 <= i < 32) by lia. assert (Hj : 0 <= j < 32) by lia.
  pose proof (above42 n i Hn Hi) as B1. pose proof (above42 n j Hn Hj) as B2.
  pose proof (above20 i i Hi Hi) as B3. pose proof (above20 i j Hi Hj) as B4. pose proof (above20 j i Hj Hi) as B5. pose proof (above20 j j Hj Hj) as B6.
  assert (B7 : addr (slot2 i) + 32 * q <= addr (slot2 j) \/ addr (slot2 j) + 32 * q <= addr (slot2 i)) by (destruct IJ as [[-> ->]|[-> ->]]; [left|right]; apply apart2; lia).
  assert (B8 : addr (slot0 i) + 16 * q <= addr (slot0 j) \/ addr (slot0 j) + 16 * q <= addr (slot0 i)) by (destruct IJ as [[-> ->]|[-> ->]]; [left|right]; apply apart0; lia).
  pose proof (fo_bs OK) as HB.
  destruct (set_ok 0 (16 + n) (mask_offset (slot4 n)) m1) as (m2 & X2 & V2 & O2); [lia|lia|]. rewrite X2. cbn [obind]. clear X2.
  destruct (set_ok 0 n (mask_offset (slot4 n)) m2) as (m3 & X3 & V3 & O3); [lia|lia|]. rewrite X3. cbn [obind]. clear X3.
  assert (L3 : forall y x, 0 <= y < h -> 0 <= x < w -> mget m3 (inl (addr (slot4 n) + (y * w + x))) = Some (Lum n y x)).
  { intros y x Hy Hx. carry O3. carry O2. exact (V1 y x Hy Hx). }
  destruct (chroma422 n i 0 m3 Hn Hi ltac:(lia) L3) as (m4 & X4 & O4 & V4). rewrite X4. cbn [obind]. clear X4.
  destruct (set_ok 1 n (mask_offset (slot2 i)) m4) as (m5 & X5 & V5 & O5); [lia|lia|]. rewrite X5. cbn [obind]. clear X5.
  assert (L5 : forall y x, 0 <= y < h -> 0 <= x < w -> mget m5 (inl (addr (slot4 n) + (y * w + x))) = Some (Lum n y x)).
  { intros y x Hy Hx. pose proof (idx4 y x Hy Hx). carry O5. carry O4. exact (L3 y x Hy Hx). }
  destruct (chroma422 n j 1 m5 Hn Hj ltac:(lia) L5) as (m6 & X6 & O6 & V6). rewrite X6. cbn [obind]. clear X6.
  destruct (set_ok 1 (16 + n) (mask_offset (slot2 j)) m6) as (m7 & X7 & V7 & O7); [lia|lia|]. rewrite X7. cbn [obind]. clear X7.
  assert (L7 : forall y x, 0 <= y < h -> 0 <= x < w -> mget m7 (inl (addr (slot4 n) + (y * w + x))) = Some (Lum n y x)).
  { intros y x Hy Hx. pose proof (idx4 y x Hy Hx). carry O7. carry O6. exact (L5 y x Hy Hx). }
  destruct (chroma420 n i 0 m7 Hn Hi ltac:(lia) L7) as (m8 & X8 & O8 & V8). rewrite X8. cbn [obind]. clear X8.
  destruct (set_ok 2 n (mask_offset (slot0 i)) m8) as (m9 & X9 & V9 & O9); [lia|lia|]. rewrite X9. cbn [obind]. clear X9.
  assert (L9 : forall y x, 0 <= y < h -> 0 <= x < w -> mget m9 (inl (addr (slot4 n) + (y * w + x))) = Some (Lum n y x)).
  { intros y x Hy Hx. pose proof (idx4 y x Hy Hx). carry O9. carry O8. exact (L7 y x Hy Hx). }
  destruct (chroma420 n j 1 m9 Hn Hj ltac:(lia) L9) as (m10 & X10 & O10 & V10). rewrite X10. cbn [obind]. clear X10.
  destruct (set_ok 2 (16 + n) (mask_offset (slot0 j)) m10) as (m11 & X11 & V11 & O11); [lia|lia|]. rewrite X11. clear X11.
  exists m11. split; [reflexivity|].
  assert (FI : forall k, range (addr (slot2 i)) (32 * q) k \/ range (addr (slot2 j)) (32 * q) k \/ range (addr (slot0 i)) (16 * q) k \/ range (addr (slot0 j)) (16 * q) k -> FN n k).
  { intros k C. unfold FN. destruct IJ as [[-> ->]|[-> ->]]; tauto. }
  assert (FO : forall l c, 0 <= l < 3 -> (c = n \/ c = 16 + n) -> FN n (inr (l * N_BS + bs, c))).
  { intros l c A B. unfold FN. do 5 right. exists l, c. auto. }
  split.
  - apply (only_trans _ m m1); [apply (only_in _ _ _ _ O1); intros k C; left; exact C|].
    apply (only_trans _ m1 m2); [apply (only_in _ _ _ _ O2); intros k ->; apply FO; lia|].
    apply (only_trans _ m2 m3); [apply (only_in _ _ _ _ O3); intros k ->; apply FO; lia|].
    apply (only_trans _ m3 m4); [apply (only_in _ _ _ _ O4); intros k C; apply FI; tauto|].
    apply (only_trans _ m4 m5); [apply (only_in _ _ _ _ O5); intros k ->; apply FO; lia|].
    apply (only_trans _ m5 m6); [apply (only_in _ _ _ _ O6); intros k C; apply FI; tauto|].
    apply (only_trans _ m6 m7); [apply (only_in _ _ _ _ O7); intros k ->; apply FO; lia|].
    apply (only_trans _ m7 m8); [apply (only_in _ _ _ _ O8); intros k C; apply FI; tauto|].
    apply (only_trans _ m8 m9); [apply (only_in _ _ _ _ O9); intros k ->; apply FO; lia|].
    apply (only_trans _ m9 m10); [apply (only_in _ _ _ _ O10); intros k C; apply FI; tauto|].
    apply (only_in _ _ _ _ O11); intros k ->; apply FO; lia.
  - assert (H0 : forall col, col = n \/ col = 16 + n -> mget m11 (inr (0 * N_BS + bs, col)) = Some (mask_offset (slot4 n))).
    { intros col HC. carry O11. carry O10. carry O9. carry O8. carry O7. carry O6. carry O5. carry O4.
      destruct HC as [->| ->]; [exact V3|]. carry O3. exact V2. }
    assert (H1 : mget m11 (inr (1 * N_BS + bs, n)) = Some (mask_offset (slot2 i))) by (carry O11; carry O10; carry O9; carry O8; carry O7; carry O6; exact V5).
    assert (H1' : mget m11 (inr (1 * N_BS + bs, 16 + n)) = Some (mask_offset (slot2 j))) by (carry O11; carry O10; carry O9; carry O8; exact V7).
    assert (H2 : mget m11 (inr (2 * N_BS + bs, n)) = Some (mask_offset (slot0 i))) by (carry O11; carry O10; exact V9).
    intros s Hs. split; [|split].
    + intros y x Hy Hx. pose proof (idx4 y x Hy Hx) as I. exists (mask_offset (slot4 n)). rewrite (off4 n Hn).
      split; [apply H0; lia|]. split; [carry O11; carry O10; exact (L9 y x Hy Hx)|]. split; [apply FO; lia|]. left. cbn [range]. lia.
    + intros y x Hy Hx. pose proof (idx2 y x Hy Hx) as I. destruct Hs as [->| ->].
      * exists (mask_offset (slot2 i)). rewrite (off2 i Hi). split; [exact H1|].
        split; [carry O11; carry O10; carry O9; carry O8; carry O7; carry O6; carry O5; exact (V4 y x Hy Hx)|].
        split; [apply FO; lia|]. apply FI. left. cbn [range]. lia.
      * exists (mask_offset (slot2 j)). rewrite (off2 j Hj). split; [exact H1'|].
        split; [carry O11; carry O10; carry O9; carry O8; carry O7; exact (V6 y x Hy Hx)|].
        split; [apply FO; lia|]. apply FI. right. left. cbn [range]. lia.
    + intros y x Hy Hx. pose proof (idx0 y x Hy Hx) as I. destruct Hs as [->| ->].
      * exists (mask_offset (slot0 i)). rewrite (off0 i Hi). split; [exact H2|].
        split; [carry O11; carry O10; carry O9; exact (V8 y x Hy Hx)|].
        split; [apply FO; lia|]. apply FI. do 2 right. left. cbn [range]. lia.
      * exists (mask_offset (slot0 j)). rewrite (off0 j Hj). split; [exact V11|].
        split; [carry O11; exact (V10 y x Hy Hx)|].
        split; [apply FO; lia|]. apply FI. do 3 right. cbn [range]. lia.
Qed.
(** * The sixteen masks of a block size *)
Definition in_member (k : Z) (a : key) : Prop := range (base k) (size k) a.
Definition FC (k : key) : Prop := in_member k4 k \/ in_member k2 k \/ in_member k0 k \/ exists l c, k = inr (l * N_BS + bs, c) /\ 0 <= l < 3 /\ 0 <= c < 32.
Lemma FN_FC : forall n k, 0 <= n < 16 -> FN n k -> FC k.
Proof.
  intros n k Hn F. pose proof q_pos as Q. unfold FC, in_member. rewrite (fo_s4 OK), (fo_s2 OK), (fo_s0 OK).
  destruct (slot_fits 16 n (64 * q) Hn ltac:(lia)). destruct (slot_fits 32 n (32 * q) ltac:(lia) ltac:(lia)). destruct (slot_fits 32 (16 + n) (32 * q) ltac:(lia) ltac:(lia)).
  destruct (slot_fits 32 n (16 * q) ltac:(lia) ltac:(lia)). destruct (slot_fits 32 (16 + n) (16 * q) ltac:(lia) ltac:(lia)).
  unfold FN, addr, slot4, slot2, slot0 in F. cbn [fst snd] in F.
  destruct F as [F|[F|[F|[F|[F|(l & c & -> & A & B)]]]]]; [left|right; left|right; left|do 2 right; left|do 2 right; left|do 3 right; exists l, c; split; [reflexivity|lia]];
    destruct k; cbn [range] in *; try contradiction; lia.
Qed.
Lemma FN_lt : forall n n' a, 0 <= n < n' -> n' < 16 -> FN n (inl a) -> ~ FN n' (inl a).
Proof.
  intros n n' a H L F F'. pose proof q_pos.
  assert (Hn : 0 <= n < 16) by lia. assert (Hn' : 0 <= n' < 16) by lia.
  assert (Hn2 : 0 <= n < 32) by lia. assert (Hn2' : 0 <= n' < 32) by lia. assert (Hm : 0 <= 16 + n < 32) by lia. assert (Hm' : 0 <= 16 + n' < 32) by lia.
  pose proof (apart4 n n' ltac:(lia)). pose proof (above42 n n' Hn Hn2'). pose proof (above42 n (16 + n') Hn Hm'). pose proof (above42 n' n Hn' Hn2). pose proof (above42 n' (16 + n) Hn' Hm).
  pose proof (apart2 n n' ltac:(lia)). pose proof (apart2 n' (16 + n) ltac:(lia)). pose proof (apart2 (16 + n) (16 + n') ltac:(lia)).
  pose proof (apart0 n n' ltac:(lia)). pose proof (apart0 n' (16 + n) ltac:(lia)). pose proof (apart0 (16 + n) (16 + n') ltac:(lia)).
  pose proof (above20 (16 + n') n Hm' Hn2).
  unfold FN in F, F'. cbn [range] in F, F'.
  destruct F as [F|[F|[F|[F|[F|(? & ? & F & _)]]]]]; try discriminate F;
    destruct F' as [F'|[F'|[F'|[F'|[F'|(? & ? & F' & _)]]]]]; try discriminate F'; lia.
Qed.
Lemma FN_disj : forall n n' k, 0 <= n < 16 -> 0 <= n' < 16 -> n <> n' -> FN n k -> ~ FN n' k.
Proof.
  intros n n' k Hn Hn' N F F'. destruct k as [a|[r c]].
  - destruct (Z.lt_ge_cases n n'); [exact (FN_lt n n' a ltac:(lia) ltac:(lia) F F')|exact (FN_lt n' n a ltac:(lia) ltac:(lia) F' F)].
  - unfold FN in F, F'. cbn [range] in F, F'. destruct F as [[]|[[]|[[]|[[]|[[]|(l & c1 & E & _ & C)]]]]].
    destruct F' as [[]|[[]|[[]|[[]|[[]|(l' & c1' & E' & _ & C')]]]]]. injection E as _ <-. injection E' as _ <-. lia.
Qed.
Lemma has_keep : forall (F G : key -> Prop) m m' l b col i v, has F m l b col i v -> only G m m' -> (forall k, F k -> ~ G k) -> has F m' l b col i v.
Proof.
  intros F G m m' l b col i v (o & A & B & C & D) O N. exists o. rewrite (O _ (N _ C)), (O _ (N _ D)). auto.
Qed.
Lemma has_weaken : forall (F G : key -> Prop) m l b col i v, has F m l b col i v -> (forall k, F k -> G k) -> has G m l b col i v.
Proof. intros F G m l b col i v (o & A & B & C & D) I. exists o. auto. Qed.
Lemma R_keep : forall n (G : key -> Prop) m m', R n m -> only G m m' -> (forall k, FN n k -> ~ G k) -> R n m'.
Proof.
  intros n G m m' H O N s Hs. destruct (H s Hs) as (A & B & C).
  split; [|split]; intros y x Hy Hx; apply (has_keep _ G m); auto.
Qed.
Definition Good (m : masks) : Prop := forall n s, 0 <= n < 16 -> s = 0 \/ s = 1 ->
  (forall y x, 0 <= y < h -> 0 <= x < w -> has FC m 0 bs (s * 16 + n) (y * w + x) (Lum n y x)) /\
  (forall y x, 0 <= y < h -> 0 <= x < w / 2 -> has FC m 1 bs (s * 16 + n) (y * (w / 2) + x) (chroma_val (Lum n) s 0 y x)) /\
  (forall y x, 0 <= y < h / 2 -> 0 <= x < w / 2 -> has FC m 2 bs (s * 16 + n) (y * (w / 2) + x) (chroma_val (Lum n) s 1 y x)).
Lemma Good_keep : forall (G : key -> Prop) m m', Good m -> only G m m' -> (forall k, FC k -> ~ G k) -> Good m'.
Proof.
  intros G m m' H O N n s Hn Hs. destruct (H n s Hn Hs) as (A & B & C).
  split; [|split]; intros y x Hy Hx; apply (has_keep _ G m); auto.
Qed.
Lemma fill_ok_all : forall m, exists m', fill2d_16x2 w h bs master cb k4 k2 k0 signs m = Ok m' /\ only FC m m' /\ Good m'.
Proof.
  intros m. rewrite fill_eq.
  destruct (for_inv masks (fun k a => only FC m a /\ forall n, 0 <= n < k -> R n a) iter 0 16 m ltac:(lia)) as (m' & E & O & V).
  - split; [intros k _; reflexivity|]. intros n Hn. lia.
  - intros j a Hj (O & V). destruct (iter_ok j a Hj) as (a' & E & O' & V'). exists a'. split; [exact E|]. split.
    + apply (only_trans _ m a); [exact O|]. apply (only_in _ _ _ _ O'). intros k. apply FN_FC. exact Hj.
    + intros n Hn. destruct (Z.eq_dec n j) as [->|N]; [exact V'|]. apply (R_keep n (FN j) a); [apply V; lia|exact O'|].
      intros k. apply FN_disj; lia.
  - exists m'. split; [exact E|]. split; [exact O|]. intros n s Hn Hs. destruct (V n Hn s Hs) as (A & B & C).
    split; [|split]; intros y x Hy Hx; (eapply has_weaken; [auto|intros k; apply FN_FC; exact Hn]).
Qed.
End Fill.

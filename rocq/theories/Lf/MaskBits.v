(** The bits of the masks. *)
From Coq Require Import ZArith List Bool Lia.
From Verif Require Import Base.CInt Base.Lemmas Base.Loop Lf.Model Lf.Strip Lf.Frame Lf.Sbrow Lf.MaskModel.
From Verif Require Lf.MaskSpec.
Import ListNotations.
Open Scope Z_scope.
Local Open Scope outcome_scope.
Local Ltac Zify.zify_post_hook ::= idtac.

Section Bits.
Variables (uv : bool) (hb : Z).
Hypothesis Hh : hsize hb.
Notation n := (if uv then 2 else 3).
(** Bit [p] of mask [i] of column [x] *)
Definition B (m : masks) (x i p : Z) : bool := Z.testbit (m x i (p / hb)) (p mod hb).

Lemma hb_pos : 0 < hb <= 16. Proof. apply hsize_pos. exact Hh. Qed.
Lemma half_of : forall p, 0 <= p < 2 * hb -> (p / hb = 0 /\ p mod hb = p /\ p < hb) \/ (p / hb = 1 /\ p mod hb = p - hb /\ hb <= p).
Proof.
  intros p Hp. destruct (Z.lt_ge_cases p hb); [left|right].
  - destruct (div_lo hb p ltac:(lia)) as [-> ->]. lia.
  - destruct (div_hi hb p ltac:(lia)) as [-> ->]. lia.
Qed.
Lemma bounded_or : forall a b, 0 <= a < 2 ^ hb -> 0 <= b < 2 ^ hb -> 0 <= Z.lor a b < 2 ^ hb.
Proof.
  intros a b Ha Hb. pose proof hb_pos as P. assert (N : 0 <= Z.lor a b) by (apply Z.lor_nonneg; lia). split; [exact N|].
  destruct (Z.eq_dec (Z.lor a b) 0) as [E|E]; [rewrite E; apply Z.pow_pos_nonneg; lia|]. apply Z.log2_lt_pow2; [lia|]. rewrite Z.log2_lor by lia.
  assert (La : forall c, 0 <= c < 2 ^ hb -> Z.log2 c < hb).
  { intros c Hc. destruct (Z.eq_dec c 0) as [->|Nc]; [cbn; lia|]. apply Z.log2_lt_pow2; lia. }
  apply Z.max_lub_lt; apply La; assumption.
Qed.
Lemma pow_le16 : 2 ^ hb <= 65536.
Proof. pose proof hb_pos. change 65536 with (2 ^ 16). apply Z.pow_le_mono_r; lia. Qed.
Lemma or_ok : forall m x i s v, mask_ok uv hb m -> 0 <= x < 32 -> 0 <= i < n -> 0 <= s < 2 -> 0 <= v < 2 ^ hb ->
  exists m', or_at n m x i s v = Ok m' /\ mask_ok uv hb m' /\ forall x' i' p, 0 <= p < 2 * hb ->
    B m' x' i' p = B m x' i' p || ((x' =? x) && (i' =? i) && (p / hb =? s) && Z.testbit v (p mod hb)).
Proof.
  intros m x i s v M Hx Hi Hs Hv. unfold or_at. rewrite rdm_ok by assumption. cbn [obind]. eexists. split; [reflexivity|].
  pose proof (bounded_or _ _ (M x i s Hx Hi Hs) Hv) as Q. pose proof pow_le16 as P.
  assert (U : u16 (Z.lor (m x i s) v) = Z.lor (m x i s) v) by (unfold u16; apply Z.mod_small; change (2 ^ 16) with 65536; lia). rewrite U. split.
  - intros x' i' s' H1 H2 H3. destruct ((x' =? x) && (i' =? i) && (s' =? s)); [exact Q|apply M; assumption].
  - intros x' i' p Hp. unfold B. destruct (Z.eqb_spec x' x) as [->|]; cbn [andb]; [|rewrite orb_false_r; reflexivity]. destruct (Z.eqb_spec i' i) as [->|]; cbn [andb]; [|rewrite orb_false_r; reflexivity].
    destruct (Z.eqb_spec (p / hb) s) as [E|]; cbn [andb]; [|rewrite orb_false_r; reflexivity]. rewrite E, Z.lor_spec. reflexivity.
Qed.
Lemma bit_pow : forall a b, 0 <= a -> Z.testbit (2 ^ a) b = (b =? a).
Proof. intros a b Ha. rewrite Z.pow2_bits_eqb by exact Ha. apply Z.eqb_sym. Qed.

Variables (ss : Z).
Hypothesis Hss : (ss = 0 /\ hb = 16) \/ (ss = 1 /\ hb = 8).
Lemma hb_shift : Z.shiftl 1 (4 - ss) = hb /\ Z.shiftr 16 ss = hb.
Proof. destruct Hss as [[-> ->]|[-> ->]]; split; reflexivity. Qed.
(** The half and the bit of position [p] *)
Lemma split_mask : forall p, 0 <= p < 2 * hb -> let mask := u32 (Z.shiftl 1 p) in
  b2z (mask >=? 2 ^ hb) = p / hb /\ Z.shiftr mask (Z.shiftl (p / hb) (4 - ss)) = 2 ^ (p mod hb).
Proof.
  intros p Hp. pose proof hb_pos as P. cbv zeta. assert (E : u32 (Z.shiftl 1 p) = 2 ^ p).
  { rewrite Z.shiftl_mul_pow2, Z.mul_1_l by lia. unfold u32. apply Z.mod_small. split; [apply Z.pow_nonneg; lia|apply Z.pow_lt_mono_r; lia]. }
  rewrite E, Z.geb_leb. destruct (half_of p Hp) as [(-> & -> & L)|(-> & -> & L)].
  - assert (2 ^ p < 2 ^ hb) by (apply Z.pow_lt_mono_r; lia). destruct (Z.leb_spec (2 ^ hb) (2 ^ p)); [lia|]. rewrite Z.shiftl_0_l, Z.shiftr_0_r. split; reflexivity.
  - assert (2 ^ hb <= 2 ^ p) by (apply Z.pow_le_mono_r; lia). destruct (Z.leb_spec (2 ^ hb) (2 ^ p)); [|lia]. destruct hb_shift as [-> _]. split; [reflexivity|].
    rewrite Z.shiftr_div_pow2 by lia. rewrite <- Z.pow_sub_r by lia. reflexivity.
Qed.
Lemma pow_mod_lt : forall p, 0 <= 2 ^ (p mod hb) < 2 ^ hb.
Proof. intros p. pose proof hb_pos as P. pose proof (Z.mod_pos_bound p hb ltac:(lia)). split; [apply Z.pow_nonneg; lia|apply Z.pow_lt_mono_r; lia]. Qed.
Lemma same_pos : forall p q, 0 <= p < 2 * hb -> 0 <= q < 2 * hb -> (p / hb =? q / hb) && (p mod hb =? q mod hb) = (p =? q).
Proof.
  intros p q Hp Hq. destruct (half_of p Hp) as [(-> & -> & L)|(-> & -> & L)]; destruct (half_of q Hq) as [(-> & -> & L')|(-> & -> & L')]; cbn [Z.eqb andb]; try reflexivity.
  - destruct (Z.eqb_spec p q); [lia|reflexivity].
  - destruct (Z.eqb_spec p q); [lia|reflexivity].
  - destruct (Z.eqb_spec (p - hb) (q - hb)), (Z.eqb_spec p q); try lia; reflexivity.
Qed.

Lemma block_edge_ok : forall x p0 len c nctx ctx cv m, mask_ok uv hb m -> 0 <= x < 32 -> 0 <= p0 -> 0 <= len -> p0 + len <= 2 * hb -> len <= nctx -> 0 <= c < n ->
  (forall y, 0 <= y < len -> ctx y = Some (cv y) /\ 0 <= cv y) ->
  exists m', block_edge n (2 ^ hb) (4 - ss) x p0 len c nctx ctx m = Ok m' /\ mask_ok uv hb m' /\ forall x' i p, 0 <= p < 2 * hb ->
    B m' x' i p = B m x' i p || ((x' =? x) && ((p0 <=? p) && (p <? p0 + len)) && (i =? Z.min c (cv (p - p0)))).
Proof.
  intros x p0 len c nctx ctx cv m M Hx Hp0 Hlen Hfit Hn Hc Hcv. unfold block_edge.
  edestruct (for_inv _ (fun j (m' : masks) => mask_ok uv hb m' /\ forall x' i p, 0 <= p < 2 * hb -> B m' x' i p = B m x' i p || ((x' =? x) && ((p0 <=? p) && (p <? p0 + j)) && (i =? Z.min c (cv (p - p0)))))) as (m' & E & I1); [exact Hlen| | |exists m'; split; [exact E|exact I1]].
  - split; [exact M|]. intros x' i p Hp. assert (Q : (p0 <=? p) && (p <? p0 + 0) = false) by (destruct (Z.leb_spec p0 p), (Z.ltb_spec p (p0 + 0)); try lia; reflexivity). rewrite Q, andb_false_r, orb_false_r. reflexivity.
  - intros j m1 Hj [M1 I1]. cbv beta. destruct (split_mask (p0 + j) ltac:(lia)) as [E1 E2]. rewrite E1, E2. destruct (Hcv j Hj) as [C1 C2]. rewrite (rd1_ok _ _ _ (cv j)) by (try exact C1; lia). cbn [obind].
    destruct (or_ok m1 x (Z.min c (cv j)) ((p0 + j) / hb) (2 ^ ((p0 + j) mod hb)) M1 Hx) as (m2 & E3 & M2 & I2).
    + lia.
    + destruct (half_of (p0 + j) ltac:(lia)) as [(-> & _)|(-> & _)]; lia.
    + apply pow_mod_lt.
    + exists m2. split; [exact E3|]. split; [exact M2|]. intros x' i p Hp. rewrite I2, I1 by exact Hp. rewrite <- orb_assoc. f_equal.
      rewrite bit_pow by (apply Z.mod_pos_bound; pose proof hb_pos; lia). rewrite <- (andb_assoc ((x' =? x) && _)), same_pos by lia.
      destruct (x' =? x); cbn [andb]; [|reflexivity]. destruct (Z.eqb_spec p (p0 + j)) as [->|N].
      * replace (p0 + j - p0) with j by lia. destruct (Z.leb_spec p0 (p0 + j)), (Z.ltb_spec (p0 + j) (p0 + j)), (Z.ltb_spec (p0 + j) (p0 + (j + 1))); try (cbn [andb orb]; rewrite andb_true_r; reflexivity); lia.
      * rewrite andb_false_r, orb_false_r. f_equal. f_equal. destruct (Z.ltb_spec p (p0 + j)), (Z.ltb_spec p (p0 + (j + 1))); try lia; reflexivity.
Qed.

(** The bits of inner *)
Lemma inner_bits : forall p0 len, 0 <= p0 -> 0 <= len -> p0 + len <= 2 * hb -> p0 < 2 * hb -> let t := u32 (Z.shiftl 1 p0) in let inner := u32 (u64 (Z.shiftl t len) - t) in
  0 <= inner < 2 ^ (2 * hb) /\ forall k, 0 <= k -> Z.testbit inner k = (p0 <=? k) && (k <? p0 + len).
Proof.
  intros p0 len H0 H1 H2 H3. pose proof hb_pos as P. cbv zeta.
  assert (E : u32 (Z.shiftl 1 p0) = 2 ^ p0) by (rewrite Z.shiftl_mul_pow2, Z.mul_1_l by lia; unfold u32; apply Z.mod_small; split; [apply Z.pow_nonneg; lia|apply Z.pow_lt_mono_r; lia]).
  rewrite E. rewrite Z.shiftl_mul_pow2, <- Z.pow_add_r by lia.
  assert (E2 : u64 (2 ^ (p0 + len)) = 2 ^ (p0 + len)) by (unfold u64; apply Z.mod_small; split; [apply Z.pow_nonneg; lia|apply Z.pow_lt_mono_r; lia]). rewrite E2.
  assert (L1 : 2 ^ p0 <= 2 ^ (p0 + len)) by (apply Z.pow_le_mono_r; lia). assert (L2 : 2 ^ (p0 + len) <= 2 ^ (2 * hb)) by (apply Z.pow_le_mono_r; lia). assert (L3 : 0 < 2 ^ p0) by (apply Z.pow_pos_nonneg; lia).
  assert (L4 : 2 ^ (2 * hb) <= 2 ^ 32) by (apply Z.pow_le_mono_r; lia).
  assert (E3 : u32 (2 ^ (p0 + len) - 2 ^ p0) = 2 ^ (p0 + len) - 2 ^ p0) by (unfold u32; apply Z.mod_small; lia). rewrite E3. split; [lia|].
  intros k Hk. replace (2 ^ (p0 + len) - 2 ^ p0) with (Z.shiftl (Z.ones len) p0) by (rewrite Z.shiftl_mul_pow2, Z.ones_equiv, Z.pow_add_r by lia; lia).
  rewrite Z.shiftl_spec by lia. destruct (Z.leb_spec p0 k) as [L|L]; cbn [andb]; [|apply Z.testbit_neg_r; lia].
  destruct (Z.ltb_spec k (p0 + len)); [apply Z.ones_spec_low; lia|apply Z.ones_spec_high; lia].
Qed.
Lemma ceil_gt : forall w step k, 0 < step -> k < (w + step - 1) / step -> k * step < w.
Proof. intros w step k H1 H2. pose proof (Z.mul_div_le (w + step - 1) step H1). assert ((k + 1) * step <= step * ((w + step - 1) / step)) by (rewrite (Z.mul_comm step); apply Z.mul_le_mono_nonneg_r; lia). lia. Qed.
Lemma ceil_le : forall w step, 0 < step -> w <= ((w + step - 1) / step) * step.
Proof. intros w step H1. pose proof (Z.div_mod (w + step - 1) step ltac:(lia)). pose proof (Z.mod_pos_bound (w + step - 1) step H1). lia. Qed.
Definition multiple (step d : Z) : bool := d mod step =? 0.
Lemma inner_ok : forall x0 w step p0 len c m, mask_ok uv hb m -> 0 <= x0 -> 0 < w -> x0 + w <= 32 -> 0 < step -> 0 <= p0 -> 0 <= len -> p0 + len <= 2 * hb -> p0 < 2 * hb -> 0 <= c < n ->
  exists m', inner_edges n hb x0 w step p0 len c m = Ok m' /\ mask_ok uv hb m' /\ forall x i p, 0 <= p < 2 * hb ->
    B m' x i p = B m x i p || (((x0 <? x) && (x <? x0 + w) && multiple step (x - x0)) && ((p0 <=? p) && (p <? p0 + len)) && (i =? c)).
Proof.
  intros x0 w step p0 len c m M Hx0 Hw Hxw Hst Hp0 Hlen Hfit Hp1 Hc. pose proof hb_pos as P. unfold inner_edges. destruct (inner_bits p0 len Hp0 Hlen Hfit Hp1) as [R T]. cbv zeta in *. set (inner := u32 (u64 (Z.shiftl (u32 (Z.shiftl 1 p0)) len) - u32 (Z.shiftl 1 p0))) in *. clearbody inner.
  replace (2 ^ hb - 1) with (Z.ones hb) by (rewrite Z.ones_equiv; lia).
  set (v1 := Z.land inner (Z.ones hb)). set (v2 := Z.shiftr inner hb).
  assert (R1 : 0 <= v1 < 2 ^ hb) by (unfold v1; rewrite Z.land_ones by lia; apply Z.mod_pos_bound, Z.pow_pos_nonneg; lia).
  assert (R2 : 0 <= v2 < 2 ^ hb).
  { unfold v2. rewrite Z.shiftr_div_pow2 by lia. assert (0 < 2 ^ hb) by (apply Z.pow_pos_nonneg; lia). split; [apply Z.div_pos; lia|]. apply Z.div_lt_upper_bound; [lia|]. rewrite <- Z.pow_add_r by lia. replace (hb + hb) with (2 * hb) by lia. lia. }
  assert (T12 : forall p, 0 <= p < 2 * hb -> ((p / hb =? 0) && Z.testbit v1 (p mod hb)) || ((p / hb =? 1) && Z.testbit v2 (p mod hb)) = (p0 <=? p) && (p <? p0 + len)).
  { intros p Hp. rewrite <- T by lia. destruct (half_of p Hp) as [(-> & -> & L)|(-> & -> & L)]; cbn [Z.eqb andb orb].
    - rewrite orb_false_r. unfold v1. rewrite Z.land_spec, Z.ones_spec_low, andb_true_r by lia. reflexivity.
    - unfold v2. rewrite Z.shiftr_spec by lia. replace (p - hb + hb) with p by lia. reflexivity. }
  assert (Or : forall v s x m1, mask_ok uv hb m1 -> 0 <= x < 32 -> 0 <= s < 2 -> 0 <= v < 2 ^ hb -> exists m2, (if negb (v =? 0) then or_at n m1 x c s v else Ok m1) = Ok m2 /\ mask_ok uv hb m2 /\ forall x' i' p, 0 <= p < 2 * hb ->
    B m2 x' i' p = B m1 x' i' p || ((x' =? x) && (i' =? c) && ((p / hb =? s) && Z.testbit v (p mod hb)))).
  { intros v s x m1 M1 Hx Hs Hv. destruct (Z.eqb_spec v 0) as [->|N]; cbn [negb].
    - exists m1. split; [reflexivity|]. split; [exact M1|]. intros. rewrite Z.bits_0, !andb_false_r, orb_false_r. reflexivity.
    - destruct (or_ok m1 x c s v M1 Hx Hc Hs Hv) as (m2 & E2 & M2 & I2). exists m2. split; [exact E2|]. split; [exact M2|]. intros x' i' p Hp. rewrite I2 by exact Hp. rewrite <- !andb_assoc. reflexivity. }
  set (K := (w + step - 1) / step). assert (HK : 1 <= K) by (unfold K; apply Z.div_le_lower_bound; lia).
  edestruct (for_inv _ (fun k (m' : masks) => mask_ok uv hb m' /\ forall x i p, 0 <= p < 2 * hb -> B m' x i p = B m x i p || (((x0 <? x) && (x <? x0 + w) && (x <? x0 + k * step) && multiple step (x - x0)) && ((p0 <=? p) && (p <? p0 + len)) && (i =? c)))) as (m' & E & M' & I'); [exact HK| | |exists m'; split; [exact E|split; [exact M'|]]].
  - split; [exact M|]. intros x i p Hp. assert (Q : (x0 <? x) && (x <? x0 + w) && (x <? x0 + 1 * step) && multiple step (x - x0) = false).
    { destruct (Z.ltb_spec x0 x), (Z.ltb_spec x (x0 + 1 * step)); rewrite ?andb_false_r; try reflexivity. cbn [andb]. unfold multiple. rewrite Z.mod_small by lia. destruct (Z.eqb_spec (x - x0) 0); [lia|]. rewrite andb_false_r. reflexivity. }
    rewrite Q. cbn [andb]. rewrite orb_false_r. reflexivity.
  - intros k m1 Hk [M1 I1]. pose proof (ceil_gt w step k Hst ltac:(unfold K in Hk; lia)) as Hkw. assert (Hks : step <= k * step) by (assert (1 * step <= k * step) by (apply Z.mul_le_mono_nonneg_r; lia); lia).
    destruct (Or v1 0 (x0 + k * step) m1 M1 ltac:(lia) ltac:(lia) R1) as (m2 & E2 & M2 & I2). rewrite E2. cbn [obind].
    destruct (Or v2 1 (x0 + k * step) m2 M2 ltac:(lia) ltac:(lia) R2) as (m3 & E3 & M3 & I3). exists m3. split; [exact E3|]. split; [exact M3|].
    intros x i p Hp. rewrite I3, I2, I1 by exact Hp. rewrite <- (T12 p Hp). set (t1 := (p / hb =? 0) && Z.testbit v1 (p mod hb)). set (t2 := (p / hb =? 1) && Z.testbit v2 (p mod hb)).
    assert (Q : (x0 <? x) && (x <? x0 + w) && (x <? x0 + (k + 1) * step) && multiple step (x - x0) = ((x0 <? x) && (x <? x0 + w) && (x <? x0 + k * step) && multiple step (x - x0)) || (x =? x0 + k * step)).
    { destruct (Z.eqb_spec x (x0 + k * step)) as [->|N].
      - rewrite orb_true_r. unfold multiple. replace (x0 + k * step - x0) with (k * step) by lia. rewrite Z.mod_mul by lia. destruct (Z.ltb_spec x0 (x0 + k * step)), (Z.ltb_spec (x0 + k * step) (x0 + w)), (Z.ltb_spec (x0 + k * step) (x0 + (k + 1) * step)); try lia; reflexivity.
      - rewrite orb_false_r. destruct (Z.ltb_spec x (x0 + k * step)) as [L|L].
        + destruct (Z.ltb_spec x (x0 + (k + 1) * step)); [|lia]. reflexivity.
        + rewrite (andb_false_r ((x0 <? x) && (x <? x0 + w))). cbn [andb]. destruct (Z.ltb_spec x (x0 + (k + 1) * step)); [|rewrite andb_false_r; reflexivity]. unfold multiple.
          rewrite <- (Z.mod_unique (x - x0) step k (x - x0 - k * step)) by lia. destruct (Z.eqb_spec (x - x0 - k * step) 0); [lia|]. rewrite andb_false_r. reflexivity. }
    rewrite Q. clear. generalize ((x0 <? x) && (x <? x0 + w) && (x <? x0 + k * step) && multiple step (x - x0)). intros u. destruct (B m x i p), u, (x =? x0 + k * step), (i =? c), t1, t2; reflexivity.
  - intros x i p Hp. rewrite I' by exact Hp. f_equal. f_equal. f_equal. pose proof (ceil_le w step Hst) as CL. fold K in CL. destruct (Z.ltb_spec x (x0 + w)); [|rewrite !andb_false_r; reflexivity]. destruct (Z.ltb_spec x (x0 + K * step)); [|lia]. rewrite andb_true_r. reflexivity.
Qed.
End Bits.

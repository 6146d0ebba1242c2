(** The masks at tile boundaries. *)
From Coq Require Import ZArith List Bool Lia.
From Verif Require Import Base.CInt Base.Lemmas Base.Loop Lf.Model Lf.Strip Lf.Frame Lf.Sbrow Lf.MaskModel Lf.MaskBits Lf.MaskBlock.
From Verif Require Lf.MaskSpec.
Import ListNotations.
Open Scope Z_scope.
Local Open Scope outcome_scope.
Local Ltac Zify.zify_post_hook ::= idtac.

Definition sub_ok (ss hb : Z) : Prop := (ss = 0 /\ hb = 16) \/ (ss = 1 /\ hb = 8).
Section Tile.
Variables (uv : bool) (hb ss : Z).
Hypothesis Hh : hsize hb.
Hypothesis Hss : sub_ok ss hb.
Notation n := (n_of uv).

Lemma bounded_clear : forall a b, 0 <= a < 2 ^ hb -> 0 <= b -> 0 <= Z.land a (Z.lnot b) < 2 ^ hb.
Proof.
  intros a b Ha Hb. assert (N : 0 <= Z.land a (Z.lnot b)) by (apply Z.land_nonneg; left; lia). split; [exact N|].
  apply Z.le_lt_trans with a; [|lia]. rewrite <- Z.ldiff_land. apply Z.ldiff_le; [lia|].
  apply Z.bits_inj. intros k. rewrite Z.ldiff_spec, Z.ldiff_spec, Z.bits_0. destruct (Z.testbit a k), (Z.testbit b k); reflexivity.
Qed.
Lemma clear_ok : forall m x i p, mask_ok uv hb m -> 0 <= x < 32 -> 0 <= i < n -> 0 <= p < 2 * hb ->
  exists m', clear_at n m x i (p / hb) (2 ^ (p mod hb)) = Ok m' /\ mask_ok uv hb m' /\ forall x' i' q, 0 <= q < 2 * hb ->
    B hb m' x' i' q = B hb m x' i' q && negb ((x' =? x) && (i' =? i) && (q =? p)).
Proof.
  intros m x i p M Hx Hi Hp. pose proof (hb_pos hb Hh) as P. unfold clear_at.
  assert (Hs : 0 <= p / hb < 2) by (destruct (half_of hb p Hp) as [(-> & _)|(-> & _)]; lia).
  rewrite rdm_ok by assumption. cbn [obind]. eexists. split; [reflexivity|]. split.
  - intros x' i' s' Hx' Hi' Hs'. destruct ((x' =? x) && (i' =? i) && (s' =? p / hb)) eqn:E; [|apply M; assumption]. apply bounded_clear; [apply M; assumption|apply Z.pow_nonneg; lia].
  - intros x' i' q Hq. unfold B. rewrite <- (same_pos hb q p Hq Hp). destruct (Z.eqb_spec x' x) as [->|]; cbn [andb negb]; [|rewrite andb_true_r; reflexivity]. destruct (Z.eqb_spec i' i) as [->|]; cbn [andb negb]; [|rewrite andb_true_r; reflexivity].
    destruct (Z.eqb_spec (q / hb) (p / hb)) as [->|]; cbn [andb negb]; [|rewrite andb_true_r; reflexivity].
    pose proof (Z.mod_pos_bound q hb ltac:(lia)). pose proof (Z.mod_pos_bound p hb ltac:(lia)).
    rewrite Z.land_spec, Z.lnot_spec by lia. rewrite bit_pow by lia. reflexivity.
Qed.
Lemma test_bit : forall a k, 0 <= k -> negb (Z.land a (2 ^ k) =? 0) = Z.testbit a k.
Proof.
  intros a k Hk. destruct (Z.testbit a k) eqn:T.
  - destruct (Z.eqb_spec (Z.land a (2 ^ k)) 0) as [E|]; [|reflexivity]. exfalso. assert (Q : Z.testbit (Z.land a (2 ^ k)) k = true) by (rewrite Z.land_spec, T, bit_pow, Z.eqb_refl by exact Hk; reflexivity). rewrite E, Z.bits_0 in Q. discriminate.
  - destruct (Z.eqb_spec (Z.land a (2 ^ k)) 0) as [|N]; [reflexivity|]. exfalso. apply N. apply Z.bits_inj. intros j. rewrite Z.land_spec, Z.bits_0, bit_pow by exact Hk. destruct (Z.eqb_spec j k) as [->|]; [rewrite T; reflexivity|apply andb_false_r].
Qed.
(** Setting one bit *)
Lemma set_ok : forall m x i p, mask_ok uv hb m -> 0 <= x < 32 -> 0 <= i < n -> 0 <= p < 2 * hb ->
  exists m', or_at n m x i (p / hb) (2 ^ (p mod hb)) = Ok m' /\ mask_ok uv hb m' /\ forall x' i' q, 0 <= q < 2 * hb ->
    B hb m' x' i' q = B hb m x' i' q || ((x' =? x) && (i' =? i) && (q =? p)).
Proof.
  intros m x i p M Hx Hi Hp. pose proof (hb_pos hb Hh) as P.
  assert (Hs : 0 <= p / hb < 2) by (destruct (half_of hb p Hp) as [(-> & _)|(-> & _)]; lia).
  destruct (or_ok uv hb Hh m x i (p / hb) (2 ^ (p mod hb)) M Hx Hi Hs (pow_mod_lt hb Hh p)) as (m' & E & M' & I). exists m'. split; [exact E|]. split; [exact M'|]. intros x' i' q Hq. rewrite I by exact Hq.
  pose proof (Z.mod_pos_bound p hb ltac:(lia)). rewrite bit_pow by lia. rewrite <- (same_pos hb q p Hq Hp), andb_assoc. reflexivity.
Qed.
(** The index of the size that is set *)
Definition idx_of (m : masks) (x p : Z) : Z := if negb uv && B hb m x 2 p then 2 else if B hb m x 1 p then 1 else 0.
Lemma edge_idx : forall m x p fs, edge uv hb m x p = Some fs -> fs = 4 * 2 ^ idx_of m x p.
Proof.
  intros m x p fs. unfold edge, sz, idx_of. change (Z.testbit (m x ?i (p / hb)) (p mod hb)) with (B hb m x i p).
  destruct uv; cbn [negb andb]; destruct (B hb m x 1 p); try destruct (B hb m x 2 p); try destruct (B hb m x 0 p); intros E; try discriminate; injection E as <-; reflexivity.
Qed.
Definition fix_ (m : masks) (x p lv : Z) : outcome masks := if uv then fix_chroma ss m x p lv else fix_luma m x p lv.
Hypothesis Huv : uv = false -> ss = 0.
Lemma fix_ok : forall m x p lv, mask_ok uv hb m -> 0 <= x < 32 -> 0 <= p < 2 * hb -> 0 <= lv < n -> exists m', fix_ m x p lv = Ok m' /\ mask_ok uv hb m' /\
  (forall x' q, 0 <= q < 2 * hb -> edge uv hb m' x' q = if (x' =? x) && (q =? p) then Some (4 * 2 ^ Z.min (idx_of m x p) lv) else edge uv hb m x' q) /\
  (forall x' i q, 0 <= q < 2 * hb -> (x' =? x) && (q =? p) = false -> B hb m' x' i q = B hb m x' i q).
Proof.
  intros m x p lv M Hx Hp Hlv. pose proof (hb_pos hb Hh) as P. destruct (split_mask hb Hh ss Hss p Hp) as [S1 S2]. cbv zeta in S1, S2.
  assert (Hs : 0 <= p / hb < 2) by (destruct (half_of hb p Hp) as [(-> & _)|(-> & _)]; lia).
  pose proof (Z.mod_pos_bound p hb ltac:(lia)) as Pm. unfold fix_, idx_of. destruct uv eqn:Eu.
  - unfold fix_chroma. destruct (hb_shift hb Hh ss Hss) as [_ Sh]. rewrite Sh, (Z.shiftl_mul_pow2 1 hb), Z.mul_1_l, S1, S2 by lia. rewrite rdm_ok by lia. cbn [obind]. rewrite test_bit by lia. fold (B hb m x 1 p).
    rewrite <- Eu in M. assert (N2 : n = 2) by (rewrite Eu; reflexivity).
    destruct (clear_ok m x 1 p M Hx ltac:(lia) Hp) as (m1 & E1 & M1 & I1). rewrite N2 in E1. rewrite E1. cbn [obind].
    destruct (clear_ok m1 x 0 p M1 Hx ltac:(lia) Hp) as (m2 & E2 & M2 & I2). rewrite N2 in E2. rewrite E2. cbn [obind negb andb].
    set (j := Z.min (b2z (B hb m x 1 p)) lv). assert (Hj : 0 <= j < 2) by (unfold j; destruct (B hb m x 1 p); cbn [b2z]; lia).
    destruct (set_ok m2 x j p M2 Hx ltac:(lia) Hp) as (m3 & E3 & M3 & I3). rewrite N2 in E3. exists m3. split; [exact E3|]. rewrite Eu in M3. split; [exact M3|].
    assert (Same : forall x' i q, 0 <= q < 2 * hb -> (x' =? x) && (q =? p) = false -> B hb m3 x' i q = B hb m x' i q).
    { intros x' i q Hq E. rewrite I3, I2, I1 by exact Hq. assert (K : forall b, (x' =? x) && b && (q =? p) = false) by (intros b; destruct (x' =? x), (q =? p), b; cbn in *; congruence). rewrite !K. cbn [negb]. rewrite !andb_true_r, orb_false_r. reflexivity. }
    split; [|exact Same]. intros x' q Hq. destruct ((x' =? x) && (q =? p)) eqn:E.
    + replace (Z.min (if B hb m x 1 p then 1 else 0) lv) with j by (unfold j; destruct (B hb m x 1 p); reflexivity). apply edge_one; [exact Hj|]. intros i Hi. cbv iota in Hi. apply andb_true_iff in E. destruct E as [E4 E5]. rewrite I3, I2, I1, E4, E5 by exact Hq. rewrite !andb_true_r. cbn [andb].
      assert (C : i = 0 \/ i = 1) by lia. destruct C as [->| ->]; cbn [Z.eqb]; rewrite ?andb_false_r; cbn [negb andb orb]; rewrite ?andb_false_r; reflexivity.
    + apply edge_same. intros i Hi. apply Same; assumption.
  - specialize (Huv eq_refl). assert (Hb16 : hb = 16) by (destruct Hss as [[_ Q]|[Q _]]; [exact Q|lia]). 
    unfold fix_luma. change 0x10000 with (2 ^ 16). rewrite Huv in S2. change (4 - 0) with 4 in S2. rewrite <- Hb16, S1, S2 by lia. rewrite !rdm_ok by lia. cbn [obind]. rewrite !test_bit by lia. fold (B hb m x 1 p). fold (B hb m x 2 p).
    rewrite <- Eu in M. assert (N2 : n = 3) by (rewrite Eu; reflexivity).
    destruct (clear_ok m x 2 p M Hx ltac:(lia) Hp) as (m0 & E0 & M0 & I0). rewrite N2 in E0. rewrite E0. cbn [obind].
    destruct (clear_ok m0 x 1 p M0 Hx ltac:(lia) Hp) as (m1 & E1 & M1 & I1). rewrite N2 in E1. rewrite E1. cbn [obind].
    destruct (clear_ok m1 x 0 p M1 Hx ltac:(lia) Hp) as (m2 & E2 & M2 & I2). rewrite N2 in E2. rewrite E2. cbn [obind negb andb].
    set (j := Z.min (2 * b2z (B hb m x 2 p) + b2z (B hb m x 1 p)) lv). assert (Hj : 0 <= j < 3) by (unfold j; destruct (B hb m x 1 p), (B hb m x 2 p); cbn [b2z]; lia).
    destruct (set_ok m2 x j p M2 Hx ltac:(lia) Hp) as (m3 & E3 & M3 & I3). rewrite N2 in E3. exists m3. split; [exact E3|]. rewrite Eu in M3. split; [exact M3|].
    assert (Same : forall x' i q, 0 <= q < 2 * hb -> (x' =? x) && (q =? p) = false -> B hb m3 x' i q = B hb m x' i q).
    { intros x' i q Hq E. rewrite I3, I2, I1, I0 by exact Hq. assert (K : forall b, (x' =? x) && b && (q =? p) = false) by (intros b; destruct (x' =? x), (q =? p), b; cbn in *; congruence). rewrite !K. cbn [negb]. rewrite !andb_true_r, orb_false_r. reflexivity. }
    split; [|exact Same]. intros x' q Hq. destruct ((x' =? x) && (q =? p)) eqn:E.
    + replace (Z.min (if B hb m x 2 p then 2 else if B hb m x 1 p then 1 else 0) lv) with j by (unfold j; destruct (B hb m x 1 p), (B hb m x 2 p); cbn [b2z]; lia). apply edge_one; [exact Hj|]. intros i Hi. cbv iota in Hi. apply andb_true_iff in E. destruct E as [E4 E5]. rewrite I3, I2, I1, I0, E4, E5 by exact Hq. rewrite !andb_true_r. cbn [andb].
      assert (C : i = 0 \/ i = 1 \/ i = 2) by lia. destruct C as [->|[->| ->]]; cbn [Z.eqb Pos.eqb]; rewrite ?andb_false_r; cbn [negb andb orb]; rewrite ?andb_false_r; reflexivity.
    + apply edge_same. intros i Hi. apply Same; assumption.
Qed.
Definition fix_line (x lo hi nlpf : Z) (lpf : arr) (m : masks) : outcome masks :=
  for_ lo hi (fun p m => let! lv := rd1 nlpf lpf (p - lo) in fix_ m x p lv) m.
Lemma fix_line_ok : forall x lo hi nlpf lpf (lv : Z -> Z) m, mask_ok uv hb m -> 0 <= x < 32 -> 0 <= lo -> lo <= hi -> hi <= 2 * hb -> hi - lo <= nlpf ->
  (forall p, lo <= p < hi -> lpf (p - lo) = Some (lv p) /\ 0 <= lv p < n) -> exists m', fix_line x lo hi nlpf lpf m = Ok m' /\ mask_ok uv hb m' /\
  forall x' q, 0 <= q < 2 * hb -> edge uv hb m' x' q = if (x' =? x) && ((lo <=? q) && (q <? hi)) then Some (4 * 2 ^ Z.min (idx_of m x q) (lv q)) else edge uv hb m x' q.
Proof.
  intros x lo hi nlpf lpf lv m M Hx Hlo Hle Hhi Hn Hlv. unfold fix_line.
  edestruct (for_inv _ (fun k (m' : masks) => mask_ok uv hb m' /\ (forall q, 0 <= q < 2 * hb -> k <= q -> forall i, B hb m' x i q = B hb m x i q) /\
    forall x' q, 0 <= q < 2 * hb -> edge uv hb m' x' q = if (x' =? x) && ((lo <=? q) && (q <? k)) then Some (4 * 2 ^ Z.min (idx_of m x q) (lv q)) else edge uv hb m x' q)) as (m' & E & I1); [exact Hle| | |exists m'; split; [exact E|split; [apply I1|apply I1]]].
  - split; [exact M|]. split; [reflexivity|]. intros x' q Hq. destruct (Z.leb_spec lo q), (Z.ltb_spec q lo); try lia; cbn [andb]; rewrite andb_false_r; reflexivity.
  - intros k m1 Hk (M1 & U1 & J1). destruct (Hlv k Hk) as [R1 R2]. unfold rd1, ck. rewrite R1. destruct (Z.leb_spec 0 (k - lo)); [|lia]. destruct (Z.ltb_spec (k - lo) nlpf); [|lia]. cbn [andb obind].
    destruct (fix_ok m1 x k (lv k) M1 Hx ltac:(lia) R2) as (m2 & E2 & M2 & J2 & U2). exists m2. split; [exact E2|]. split; [exact M2|]. split.
    + intros q Hq Hkq i. rewrite U2; [apply U1; lia|exact Hq|]. destruct (Z.eqb_spec q k) as [C|_]; [exfalso; lia|apply andb_false_r].
    + intros x' q Hq. rewrite J2, J1 by exact Hq. destruct (x' =? x); cbn [andb]; [|reflexivity]. destruct (Z.eqb_spec q k) as [->|].
      * destruct (Z.leb_spec lo k), (Z.ltb_spec k (k + 1)); try lia; cbn [andb]. unfold idx_of. rewrite !U1 by lia. reflexivity.
      * destruct (Z.leb_spec lo q), (Z.ltb_spec q k), (Z.ltb_spec q (k + 1)); try lia; cbn [andb]; reflexivity.
Qed.
(** The contexts at the start of a tile are 16 samples (8 for chroma) *)
Lemma fix_line_spec : forall pl x lo hi nlpf lpf (lt prev : Z -> Z) m, uv = negb (pl =? 0) -> mask_ok uv hb m -> 0 <= x < 32 -> 0 <= lo -> lo <= hi -> hi <= 2 * hb -> hi - lo <= nlpf ->
  (forall p, lo <= p < hi -> lpf (p - lo) = Some (Z.min (cap_of uv) (prev p)) /\ 0 <= prev p) ->
  (forall p, lo <= p < hi -> 0 <= lt p /\ edge uv hb m x p = Some (MaskSpec.filter_size pl (4 * 2 ^ lt p) (4 * 2 ^ cap_of uv))) ->
  exists m', fix_line x lo hi nlpf lpf m = Ok m' /\ mask_ok uv hb m' /\
  forall x' q, 0 <= q < 2 * hb -> edge uv hb m' x' q = if (x' =? x) && ((lo <=? q) && (q <? hi)) then Some (MaskSpec.filter_size pl (4 * 2 ^ lt q) (4 * 2 ^ prev q)) else edge uv hb m x' q.
Proof.
  intros pl x lo hi nlpf lpf lt prev m Hu M Hx Hlo Hle Hhi Hn Hlv Hold.
  destruct (fix_line_ok x lo hi nlpf lpf (fun p => Z.min (cap_of uv) (prev p)) m M Hx Hlo Hle Hhi Hn) as (m' & E & M' & J).
  { intros p Hp. destruct (Hlv p Hp) as [E1 E2]. split; [exact E1|]. clear - E2. destruct uv; lia. }
  exists m'. split; [exact E|]. split; [exact M'|]. intros x' q Hq. rewrite J by exact Hq. destruct ((x' =? x) && ((lo <=? q) && (q <? hi))) eqn:Ein; [|reflexivity].
  apply andb_true_iff in Ein. destruct Ein as [_ Ein]. apply andb_true_iff in Ein. destruct Ein as [Q1 Q2]. apply Z.leb_le in Q1. apply Z.ltb_lt in Q2.
  destruct (Hold q ltac:(lia)) as [L1 L2]. destruct (Hlv q ltac:(lia)) as [_ L3]. apply edge_idx in L2. rewrite <- (filter_size_ok uv pl (lt q) (cap_of uv) Hu) in L2 by (first [exact L1|clear; destruct uv; lia]).
  rewrite <- (filter_size_ok uv pl (lt q) (prev q) Hu L1 L3). f_equal. f_equal.
  assert (Eq : 2 ^ Z.min (Z.min (cap_of uv) (lt q)) (Z.min (cap_of uv) (cap_of uv)) = 2 ^ idx_of m x q) by lia.
  apply Z.pow_inj_r in Eq; [|lia|clear - L1; destruct uv; lia|unfold idx_of; destruct (negb uv && _), (B hb m x 1 q); lia]. rewrite <- Eq. f_equal. clear - L1 L3. destruct uv; lia.
Qed.
End Tile.

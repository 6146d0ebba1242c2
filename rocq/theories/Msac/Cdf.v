(** CDF arrays: validity, correspondence with the specification's arrays,
    symbol search and adaptation. *)
From Coq Require Import ZArith List Bool Lia.
From Verif Require Import Base.CInt Base.Lemmas.
From Verif Require Import Msac.Model Msac.Spec Msac.Window.
Import ListNotations.
Open Scope Z_scope.

Definition nthZ (l : list Z) (i : Z) : Z := nth (Z.to_nat i) l 0.

(** A valid CDF array for [n + 1] symbols: inverse cumulative probabilities
    in Q15, non-increasing, below 1.0, then the adaptation counter. *)
Definition cdf_ok (n : Z) (cdf : list Z) : Prop :=
  1 <= n <= 15 /\ n + 1 <= zlen cdf /\
  (forall i, 0 <= i < n -> 0 <= nthZ cdf i <= 32767) /\
  (forall i, 0 <= i -> i + 1 < n -> nthZ cdf (i + 1) <= nthZ cdf i) /\
  0 <= nthZ cdf n <= 32.

(** The specification's array for the same distribution. *)
Definition spec_cdf (n : Z) (cdf : list Z) : list Z :=
  map (fun i => 32768 - nthZ cdf (Z.of_nat i)) (seq 0 (Z.to_nat n)) ++ [32768; nthZ cdf n].

Lemma nth_map_seq : forall (f : nat -> Z) n i tl, (i < n)%nat ->
  nth i (map f (seq 0 n) ++ tl) 0 = f i.
Proof.
  intros. rewrite app_nth1 by (rewrite map_length, seq_length; auto).
  rewrite (nth_indep _ 0 (f O)) by (rewrite map_length, seq_length; auto).
  rewrite map_nth. rewrite seq_nth by auto. auto.
Qed.

Lemma spec_cdf_nth : forall n cdf i, 0 <= i < n -> nthZ (spec_cdf n cdf) i = 32768 - nthZ cdf i.
Proof.
  intros. unfold nthZ at 1, spec_cdf. rewrite nth_map_seq by lia. rewrite Z2Nat.id by lia. auto.
Qed.
Lemma spec_cdf_last : forall n cdf, 0 <= n -> nthZ (spec_cdf n cdf) n = 32768.
Proof.
  intros. unfold nthZ at 1, spec_cdf. rewrite app_nth2 by (rewrite map_length, seq_length; lia).
  rewrite map_length, seq_length, Nat.sub_diag. auto.
Qed.
Lemma spec_cdf_cnt : forall n cdf, 0 <= n -> nthZ (spec_cdf n cdf) (n + 1) = nthZ cdf n.
Proof.
  intros. unfold nthZ at 1, spec_cdf. rewrite app_nth2 by (rewrite map_length, seq_length; lia).
  rewrite map_length, seq_length. replace (Z.to_nat (n + 1) - Z.to_nat n)%nat with 1%nat by lia. auto.
Qed.

Lemma rd_nthZ : forall l i, 0 <= i < zlen l -> rd_at l i = Ok (nthZ l i).
Proof. intros. apply rd_at_nth. auto. Qed.

Lemma mul_bound : forall a b x y, 0 <= a <= x -> 0 <= b <= y -> 0 <= a * b <= x * y.
Proof. intros. nia. Qed.

(** Lower bound of the interval of symbol [i]. *)
Definition bound (n r : Z) (cdf : list Z) (i : Z) : Z := r * (nthZ cdf i / 64) / 2 + 4 * (n - i).

Lemma bound_range : forall n r cdf i, cdf_ok n cdf -> 0 <= r <= 255 -> 0 <= i <= n ->
  0 <= bound n r cdf i <= 65535.
Proof.
  intros n r cdf i (Hn & Hl & Hv & Hm & Hc) Hr Hi. unfold bound.
  assert (0 <= nthZ cdf i <= 32767).
  { destruct (Z.eq_dec i n); [subst; lia|apply Hv; lia]. }
  assert (0 <= nthZ cdf i / 64 <= 511) by lia. nia.
Qed.
Lemma bound_last : forall n r cdf, cdf_ok n cdf -> bound n r cdf n = 0.
Proof.
  intros n r cdf (Hn & Hl & Hv & Hm & Hc). unfold bound.
  replace (nthZ cdf n / 64) with 0 by lia. rewrite Z.mul_0_r. replace (n - n) with 0 by lia. auto.
Qed.
Lemma bound_dec : forall n r cdf i, cdf_ok n cdf -> 0 <= r <= 255 -> 0 <= i < n ->
  bound n r cdf (i + 1) + 4 <= bound n r cdf i.
Proof.
  intros n r cdf i H Hr Hi. destruct (Z.eq_dec (i + 1) n).
  - rewrite e, bound_last by auto. destruct H as (Hn & Hl & Hv & Hm & Hc). unfold bound.
    pose proof (Hv i ltac:(lia)). assert (0 <= nthZ cdf i / 64) by lia. nia.
  - destruct H as (Hn & Hl & Hv & Hm & Hc). unfold bound.
    pose proof (Hm i ltac:(lia) ltac:(lia)).
    assert (nthZ cdf (i + 1) / 64 <= nthZ cdf i / 64) by (apply Z.div_le_mono; lia).
    assert (r * (nthZ cdf (i + 1) / 64) / 2 <= r * (nthZ cdf i / 64) / 2)
      by (apply Z.div_le_mono; nia).
    lia.
Qed.
(** The first bound is below the range itself. *)
Lemma bound_first : forall n R cdf, cdf_ok n cdf -> 32768 <= R <= 65535 ->
  bound n (R / 256) cdf 0 + 4 <= R.
Proof.
  intros n R cdf (Hn & Hl & Hv & Hm & Hc) HR. unfold bound.
  pose proof (Hv 0 ltac:(lia)). assert (0 <= nthZ cdf 0 / 64 <= 511) by lia.
  assert (128 <= R / 256 <= 255) by lia.
  assert (R / 256 * (nthZ cdf 0 / 64) / 2 <= R / 256 * 511 / 2) by (apply Z.div_le_mono; nia).
  lia.
Qed.

Lemma search_loop : forall n R c cdf, cdf_ok n cdf -> 32768 <= R <= 65535 -> 0 <= c ->
  forall fuel fuel' val v, -1 <= val < n -> c < v <= R ->
  v = (if val =? -1 then R else bound n (R / 256) cdf val) ->
  n - val <= Z.of_nat fuel -> n - val <= Z.of_nat fuel' ->
  exists u' v' val',
    sym_loop fuel cdf c (R / 256) n v (u32 val) = Ok (u', v', val') /\
    search fuel' (spec_cdf n cdf) (n + 1) R c v val = (u', v', val') /\
    val < val' <= n /\ 0 <= v' <= c /\ c < u' <= v /\
    v' = bound n (R / 256) cdf val' /\
    u' = (if val' =? 0 then R else bound n (R / 256) cdf (val' - 1)).
Proof.
  intros n R c cdf Hok HR Hc.
  induction fuel; intros fuel' val v Hval Hv Ev Hf Hf'; [lia|].
  destruct fuel'; [lia|].
  cbn [sym_loop search].
  assert (U : u32 (u32 val + 1) = val + 1).
  { destruct Hok as (Hn & _). unfold u32. rewrite Zplus_mod_idemp_l. apply Z.mod_small.
    change (2 ^ 32) with 4294967296. lia. }
  assert (R8 : 0 <= R / 256 <= 255) by lia.
  rewrite U. rewrite rd_nthZ by (destruct Hok as (Hn & Hl & _); lia). cbn [obind].
  pose proof (bound_range n (R / 256) cdf (val + 1) Hok R8 ltac:(lia)) as BR.
  assert (E1 : u32 (Z.shiftr (u32 (R / 256 * Z.shiftr (nthZ cdf (val + 1)) EC_PROB_SHIFT))
                             (7 - EC_PROB_SHIFT) +
                    u32 (EC_MIN_PROB * u32 (n - (val + 1)))) = bound n (R / 256) cdf (val + 1)).
  { unfold bound in *. unfold EC_PROB_SHIFT, EC_MIN_PROB.
    destruct Hok as (Hn & Hl & Hvr & Hm & Hcn).
    assert (NV : 0 <= nthZ cdf (val + 1) <= 32767).
    { destruct (Z.eq_dec (val + 1) n); [rewrite e; lia|apply Hvr; lia]. }
    rewrite (shiftr_div _ 6) by lia. change (2 ^ 6) with 64. change (7 - 6) with 1.
    assert (N2 : 0 <= nthZ cdf (val + 1) / 64 <= 511) by lia.
    assert (N3 : 0 <= R / 256 * (nthZ cdf (val + 1) / 64) <= 255 * 511) by (apply mul_bound; auto).
    rewrite (u32_id (R / 256 * _)) by (change (2 ^ 32) with 4294967296; lia).
    rewrite (u32_id (n - (val + 1))) by (change (2 ^ 32) with 4294967296; lia).
    rewrite (u32_id (4 * _)) by (change (2 ^ 32) with 4294967296; lia).
    rewrite shiftr_div by lia. change (2 ^ 1) with 2.
    apply u32_id. change (2 ^ 32) with 4294967296. lia. }
  rewrite E1.
  assert (E2 : R / 2 ^ 8 * ((2 ^ 15 - nth (Z.to_nat (val + 1)) (spec_cdf n cdf) 0) / 2 ^ 6) / 2 ^ (7 - 6)
               + 4 * (n + 1 - (val + 1) - 1) = bound n (R / 256) cdf (val + 1)).
  { change (nth (Z.to_nat (val + 1)) (spec_cdf n cdf) 0) with (nthZ (spec_cdf n cdf) (val + 1)).
    change (2 ^ 8) with 256. change (2 ^ 15) with 32768. change (2 ^ 6) with 64. change (2 ^ (7 - 6)) with 2.
    destruct (Z.eq_dec (val + 1) n) as [e|e].
    - rewrite e. rewrite spec_cdf_last by lia. rewrite bound_last by auto.
      replace (32768 - 32768) with 0 by lia. rewrite Z.mul_0_r. change (0 / 2) with 0. lia.
    - rewrite spec_cdf_nth by lia. unfold bound.
      replace (32768 - (32768 - nthZ cdf (val + 1))) with (nthZ cdf (val + 1)) by lia. lia. }
  rewrite E2.
  destruct (Z.ltb_spec c (bound n (R / 256) cdf (val + 1))).
  - assert (val + 1 < n).
    { destruct (Z.eq_dec (val + 1) n) as [e|e]; [|lia]. rewrite e, bound_last in H by auto. lia. }
    assert (Hle : bound n (R / 256) cdf (val + 1) <= v).
    { rewrite Ev. destruct (Z.eqb_spec val (-1)).
      - subst val. pose proof (bound_first n R cdf Hok HR). change (-1 + 1) with 0. lia.
      - pose proof (bound_dec n (R / 256) cdf val Hok R8 ltac:(lia)). lia. }
    destruct (IHfuel fuel' (val + 1) (bound n (R / 256) cdf (val + 1))) as (u' & v' & val' & A1 & A2 & A3 & A4 & A5 & A6 & A7);
      try lia.
    { replace (val + 1 =? -1) with false by lia. auto. }
    rewrite u32_id in A1 by (destruct Hok as (Hn & _); change (2 ^ 32) with 4294967296; lia).
    exists u', v', val'. repeat split; auto; lia.
  - exists v, (bound n (R / 256) cdf (val + 1)), (val + 1).
    repeat split; auto; try lia.
    rewrite Ev. replace (val + 1 =? 0) with (val =? -1) by lia.
    replace (val + 1 - 1) with val by lia. auto.
Qed.

(** Adaptation. *)
Definition upd_entry (rate : Z) (up : bool) (x : Z) : Z :=
  if up then x + (32768 - x) / 2 ^ rate else x - x / 2 ^ rate.

Lemma upd_entry_range : forall rate up x, 4 <= rate <= 7 -> 0 <= x <= 32767 ->
  0 <= upd_entry rate up x <= 32767.
Proof.
  intros rate up x Hr Hx. unfold upd_entry.
  assert (H : 2 ^ rate = 16 \/ 2 ^ rate = 32 \/ 2 ^ rate = 64 \/ 2 ^ rate = 128).
  { assert (C : rate = 4 \/ rate = 5 \/ rate = 6 \/ rate = 7) by lia.
    destruct C as [-> | [-> | [-> | ->]]]; vm_compute; auto. }
  destruct up; destruct H as [-> | [-> | [-> | ->]]]; lia.
Qed.
Lemma upd_entry_mono : forall rate up x y, 4 <= rate <= 7 -> 0 <= x <= y -> y <= 32767 ->
  upd_entry rate up x <= upd_entry rate up y.
Proof.
  intros rate up x y Hr Hx Hy. unfold upd_entry.
  assert (H : 2 ^ rate = 16 \/ 2 ^ rate = 32 \/ 2 ^ rate = 64 \/ 2 ^ rate = 128).
  { assert (C : rate = 4 \/ rate = 5 \/ rate = 6 \/ rate = 7) by lia.
    destruct C as [-> | [-> | [-> | ->]]]; vm_compute; auto. }
  destruct up; destruct H as [-> | [-> | [-> | ->]]]; lia.
Qed.
Lemma upd_entry_cross : forall rate x y, 4 <= rate <= 7 -> 0 <= x <= y -> y <= 32767 ->
  upd_entry rate false x <= upd_entry rate true y.
Proof.
  intros rate x y Hr Hx Hy. unfold upd_entry.
  assert (0 < 2 ^ rate) by (apply pow2_pos; lia).
  assert (0 <= x / 2 ^ rate) by (apply Z.div_pos; lia).
  assert (0 <= (32768 - y) / 2 ^ rate) by (apply Z.div_pos; lia). lia.
Qed.

Lemma wr_nthZ : forall l i v, 0 <= i < zlen l ->
  exists l', wr_at l i v = Ok l' /\ zlen l' = zlen l /\
    forall j, 0 <= j -> nthZ l' j = if j =? i then v else nthZ l j.
Proof.
  intros l i v Hi. unfold wr_at, zlen in *.
  replace ((0 <=? i) && (i <? Z.of_nat (length l))) with true by lia.
  eexists. split; [reflexivity|]. split; [rewrite upd_nat_length; auto|].
  intros j Hj. unfold nthZ. rewrite upd_nat_nth by lia.
  destruct (Nat.eqb_spec (Z.to_nat j) (Z.to_nat i)); destruct (Z.eqb_spec j i); auto; lia.
Qed.

Lemma adapt_loop_ok : forall val n rate, 4 <= rate <= 7 -> forall fuel cdf i,
  0 <= i <= n -> n - i <= Z.of_nat fuel -> n <= zlen cdf ->
  (forall j, 0 <= j < n -> 0 <= nthZ cdf j <= 32767) ->
  exists cdf', adapt_loop fuel cdf i val n rate = Ok cdf' /\ zlen cdf' = zlen cdf /\
    forall j, 0 <= j -> nthZ cdf' j =
      if (i <=? j) && (j <? n) then upd_entry rate (j <? val) (nthZ cdf j) else nthZ cdf j.
Proof.
  intros val n rate Hr. induction fuel; intros cdf i Hi Hf Hl Hv.
  - cbn [adapt_loop]. replace (n <=? i) with true by lia. exists cdf. split; auto. split; auto.
    intros. replace ((i <=? j) && (j <? n)) with false by lia. auto.
  - cbn [adapt_loop]. destruct (Z.leb_spec n i).
    + exists cdf. split; auto. split; auto.
      intros. replace ((i <=? j) && (j <? n)) with false by lia. auto.
    + rewrite rd_nthZ by lia. cbn [obind].
      pose proof (Hv i ltac:(lia)) as Vi.
      assert (E : (if i <? val then u16 (nthZ cdf i + Z.shiftr (32768 - nthZ cdf i) rate)
                   else u16 (nthZ cdf i - Z.shiftr (nthZ cdf i) rate))
                  = upd_entry rate (i <? val) (nthZ cdf i)).
      { pose proof (upd_entry_range rate (i <? val) (nthZ cdf i) Hr Vi) as UR.
        rewrite !shiftr_div by lia. unfold upd_entry in *.
        destruct (i <? val); apply u16_id; change (2 ^ 16) with 65536; lia. }
      rewrite E.
      destruct (wr_nthZ cdf i (upd_entry rate (i <? val) (nthZ cdf i)) ltac:(lia)) as (c1 & W1 & W2 & W3).
      rewrite W1. cbn [obind].
      destruct (IHfuel c1 (i + 1)) as (c2 & A1 & A2 & A3); try lia.
      { intros j Hj. rewrite W3 by lia. destruct (Z.eqb_spec j i); [|apply Hv; lia].
        apply upd_entry_range; auto. }
      exists c2. split; auto. split; [lia|]. intros j Hj. rewrite A3 by auto. rewrite W3 by auto.
      destruct (Z.eqb_spec j i).
      * subst j. replace ((i + 1 <=? i) && (i <? n)) with false by lia.
        replace ((i <=? i) && (i <? n)) with true by lia. auto.
      * replace ((i + 1 <=? j) && (j <? n)) with ((i <=? j) && (j <? n)) by lia. auto.
Qed.

Definition the_rate (n count : Z) : Z := 4 + count / 16 + b2z (2 <? n).
Lemma the_rate_range : forall n count, 0 <= count <= 32 -> 4 <= the_rate n count <= 7.
Proof. intros. unfold the_rate, b2z. destruct (2 <? n); lia. Qed.

Lemma spec_rate : forall n count, 1 <= n <= 15 -> 0 <= count <= 32 ->
  3 + (if 15 <? count then 1 else 0) + (if 31 <? count then 1 else 0) + Z.min (Z.log2 (n + 1)) 2
  = the_rate n count.
Proof.
  intros n count Hn Hc. unfold the_rate, b2z.
  assert (L : Z.min (Z.log2 (n + 1)) 2 = 1 + (if 2 <? n then 1 else 0)).
  { destruct (Z.ltb_spec 2 n).
    - assert (2 <= Z.log2 (n + 1)) by (apply Z.log2_le_pow2; lia). lia.
    - assert (C : n = 1 \/ n = 2) by lia. destruct C; subst; reflexivity. }
  rewrite L. destruct (Z.ltb_spec 15 count); destruct (Z.ltb_spec 31 count); lia.
Qed.

Lemma list_ext : forall (l l' : list Z), length l = length l' ->
  (forall i, 0 <= i < zlen l -> nthZ l i = nthZ l' i) -> l = l'.
Proof.
  intros l l' Hl H. apply nth_ext with (d := 0) (d' := 0); auto.
  intros k Hk. specialize (H (Z.of_nat k)). unfold nthZ in H. rewrite Nat2Z.id in H.
  apply H. unfold zlen. lia.
Qed.

(** A characterisation of an adapted array. *)
Lemma adapted_ok : forall n cdf cdf' val, cdf_ok n cdf -> 0 <= val <= n -> zlen cdf' = zlen cdf ->
  (forall j, 0 <= j -> nthZ cdf' j =
    if j =? n then nthZ cdf n + b2z (nthZ cdf n <? 32)
    else if j <? n then upd_entry (the_rate n (nthZ cdf n)) (j <? val) (nthZ cdf j) else nthZ cdf j) ->
  cdf_ok n cdf' /\ spec_cdf n cdf' = adapt_cdf (spec_cdf n cdf) (n + 1) val.
Proof.
  intros n cdf cdf' val Hok Hval Hl H.
  pose proof Hok as (Hn & Hln & Hv & Hm & Hc).
  pose proof (the_rate_range n (nthZ cdf n) Hc) as Hr.
  assert (In : forall j, 0 <= j < n -> nthZ cdf' j = upd_entry (the_rate n (nthZ cdf n)) (j <? val) (nthZ cdf j)).
  { intros j Hj. rewrite H by lia. replace (j =? n) with false by lia.
    replace (j <? n) with true by lia. auto. }
  assert (Cn : nthZ cdf' n = nthZ cdf n + b2z (nthZ cdf n <? 32)).
  { rewrite H by lia. rewrite Z.eqb_refl. auto. }
  split.
  - unfold cdf_ok. split; [auto|]. split; [lia|]. split; [|split].
    + intros i Hi. rewrite In by lia. apply upd_entry_range; auto.
    + intros i H0 H1. rewrite !In by lia.
      pose proof (Hm i H0 H1). pose proof (Hv i ltac:(lia)). pose proof (Hv (i + 1) ltac:(lia)).
      destruct (Z.ltb_spec (i + 1) val); destruct (Z.ltb_spec i val); try lia.
      * apply upd_entry_mono; lia.
      * apply upd_entry_cross; lia.
      * apply upd_entry_mono; lia.
    + rewrite Cn. unfold b2z. destruct (Z.ltb_spec (nthZ cdf n) 32); lia.
  - set (sc := spec_cdf n cdf).
    assert (Hcnt : nth (Z.to_nat (n + 1)) sc 0 = nthZ cdf n)
      by (unfold sc; change (nth (Z.to_nat (n + 1)) (spec_cdf n cdf) 0) with (nthZ (spec_cdf n cdf) (n + 1));
          apply spec_cdf_cnt; lia).
    assert (Hlast : nth (Z.to_nat n) sc 0 = 32768) by (apply spec_cdf_last; lia).
    unfold adapt_cdf. rewrite Hcnt.
    replace (n + 1 - 1) with n by lia. rewrite Hlast.
    rewrite spec_rate by lia. set (rate := the_rate n (nthZ cdf n)) in *.
    unfold spec_cdf. rewrite Cn. f_equal.
    apply map_ext_in. intros k Hk. apply in_seq in Hk. rewrite In by lia.
    unfold adapt_entry. rewrite Nat2Z.id.
    replace (nth k sc 0) with (32768 - nthZ cdf (Z.of_nat k)).
    2:{ unfold sc, spec_cdf. rewrite nth_map_seq by lia. auto. }
    pose proof (Hv (Z.of_nat k) ltac:(lia)) as V.
    change (2 ^ 15) with 32768. unfold upd_entry.
    destruct (Z.ltb_spec (Z.of_nat k) val).
    + replace (val <=? Z.of_nat k) with false by lia.
      replace (0 <? 32768 - nthZ cdf (Z.of_nat k)) with true by lia.
      replace (32768 - nthZ cdf (Z.of_nat k) - 0) with (32768 - nthZ cdf (Z.of_nat k)) by lia. lia.
    + replace (val <=? Z.of_nat k) with true by lia.
      replace (32768 <? 32768 - nthZ cdf (Z.of_nat k)) with false by lia.
      replace (32768 - (32768 - nthZ cdf (Z.of_nat k))) with (nthZ cdf (Z.of_nat k)) by lia. lia.
Qed.

Lemma adapt_ok : forall n cdf val, cdf_ok n cdf -> 0 <= val <= n ->
  exists cdf', adapt cdf val n = Ok cdf' /\ cdf_ok n cdf' /\ zlen cdf' = zlen cdf /\
    spec_cdf n cdf' = adapt_cdf (spec_cdf n cdf) (n + 1) val.
Proof.
  intros n cdf val Hok Hval. pose proof Hok as (Hn & Hln & Hv & Hm & Hc).
  unfold adapt. rewrite rd_nthZ by lia. cbn [obind].
  rewrite shiftr_div by lia. change (2 ^ 4) with 16.
  fold (the_rate n (nthZ cdf n)). pose proof (the_rate_range n (nthZ cdf n) Hc) as Hr.
  destruct (adapt_loop_ok val n _ Hr (Z.to_nat n) cdf 0) as (c1 & A1 & A2 & A3); try lia; auto.
  rewrite A1. cbn [obind].
  destruct (wr_nthZ c1 n (u16 (nthZ cdf n + b2z (nthZ cdf n <? 32))) ltac:(lia)) as (c2 & W1 & W2 & W3).
  exists c2. split; auto.
  destruct (adapted_ok n cdf c2 val Hok Hval ltac:(lia)) as [K1 K2].
  - intros j Hj. rewrite W3 by auto. destruct (Z.eqb_spec j n).
    + rewrite u16_id; auto. change (2 ^ 16) with 65536. unfold b2z. destruct (nthZ cdf n <? 32); lia.
    + rewrite A3 by auto. replace (0 <=? j) with true by lia. auto.
  - split; auto. split; auto. lia.
Qed.

(** Executable check of [cdf_ok]. *)
Fixpoint noninc_from (hi : Z) (l : list Z) (k : nat) : bool :=
  match k, l with
  | O, _ => true
  | S k, x :: l => (0 <=? x) && (x <=? hi) && noninc_from x l k
  | S _, [] => false
  end.
Definition cdf_okb (n : Z) (cdf : list Z) : bool :=
  (1 <=? n) && (n <=? 15) && (n + 1 <=? zlen cdf) && noninc_from 32767 cdf (Z.to_nat n)
  && (0 <=? nthZ cdf n) && (nthZ cdf n <=? 32).

Lemma noninc_ok : forall k l hi, noninc_from hi l k = true ->
  (forall i, (i < k)%nat -> 0 <= nth i l 0 <= hi) /\
  (forall i, (S i < k)%nat -> nth (S i) l 0 <= nth i l 0).
Proof.
  induction k; intros l hi H; [split; intros; lia|].
  destruct l as [|x l]; cbn [noninc_from] in H; [discriminate|].
  apply andb_prop in H. destruct H as [H1 H2]. destruct (IHk l x H2) as [A B].
  split; intros i Hi.
  - destruct i; cbn [nth]; [lia|]. specialize (A i ltac:(lia)). lia.
  - destruct i; cbn [nth].
    + destruct k; [lia|]. specialize (A 0%nat ltac:(lia)). lia.
    + apply B. lia.
Qed.
Lemma cdf_okb_ok : forall n cdf, cdf_okb n cdf = true -> cdf_ok n cdf.
Proof.
  intros n cdf H. unfold cdf_okb in H. rewrite !andb_true_iff in H.
  destruct H as (((((H1 & H2) & H3) & H4) & H5) & H6).
  destruct (noninc_ok _ _ _ H4) as [A B].
  unfold cdf_ok. repeat split; try lia; unfold nthZ in *; try (apply A; lia).
  intros i Hi Hi1. replace (Z.to_nat (i + 1)) with (S (Z.to_nat i)) by lia. apply B. lia.
Qed.

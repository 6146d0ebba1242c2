(** The end-of-tile padding check against the specification's exit process. *)
From Coq Require Import ZArith List Bool Lia.
From Verif Require Import Base.CInt Base.Lemmas GetBits.Spec GetBits.Proofs.
From Verif Require Import Msac.Model Msac.Spec Msac.Window Msac.Cdf.
Import ListNotations.
Open Scope Z_scope.

Lemma all_zero_ok : forall buf sz, Forall is_byte buf -> 0 <= sz <= zlen buf ->
  forall fuel p, 0 <= p -> sz - p <= Z.of_nat fuel ->
  exists z, all_zero_from fuel buf p sz = Ok z /\
    (z = true <-> forall i, 8 * p <= i < 8 * sz -> stream_bit buf sz i = 0).
Proof.
  intros buf sz Hb Hsz. induction fuel; intros p Hp Hf; cbn [all_zero_from].
  - replace (sz <=? p) with true by lia. exists true. split; auto. split; auto. intros; lia.
  - destruct (Z.leb_spec sz p).
    + exists true. split; auto. split; auto. intros; lia.
    + rewrite rd_nthZ by lia. cbn [obind].
      destruct (IHfuel (p + 1) ltac:(lia) ltac:(lia)) as (z & E & I).
      assert (B : nthZ buf p = f_n (stream_bit buf sz) (8 * p) 8) by (symmetry; apply f_n_byte; auto; lia).
      destruct (Z.eqb_spec (nthZ buf p) 0) as [Q|Q].
      * exists z. split; auto. rewrite I. split; intros K i Hi.
        -- destruct (Z.ltb_spec i (8 * p + 8)); [|apply K; lia].
           rewrite Q in B. symmetry in B. unfold f_n in B.
           eapply f_n_zero_inv; [apply stream_bit_range|exact B|lia].
        -- apply K. lia.
      * exists false. split; auto. split; [discriminate|]. intros K. exfalso. apply Q. rewrite B.
        apply f_n_zero. intros. apply K. lia.
Qed.

(** Low [k+1] bits of a byte equal the pattern with only bit [k] set. *)
Lemma byte_tail : forall (f : Z -> Z) pos j x, (forall i, 0 <= f i <= 1) -> 0 <= j < 8 ->
  x = f_n f pos 8 ->
  (Z.land x (2 * 2 ^ (7 - j) - 1) = 2 ^ (7 - j) <->
   f (pos + j) = 1 /\ forall i, pos + j < i < pos + 8 -> f i = 0).
Proof.
  intros f pos j x Hf Hj ->.
  replace (2 * 2 ^ (7 - j)) with (2 ^ (8 - j)) by (rewrite <- Z.pow_succ_r by lia; f_equal; lia).
  rewrite land_ones_mod by lia. rewrite f_n_low by lia.
  pose proof (f_n_app f (pos + j) 1 (7 - j) ltac:(lia) ltac:(lia)) as A.
  replace (1 + (7 - j)) with (8 - j) in A by lia. rewrite A, f_n_1.
  pose proof (f_n_range f Hf (pos + j + 1) (7 - j) ltac:(lia)) as R.
  pose proof (Hf (pos + j)) as B.
  assert (C : f (pos + j) = 0 \/ f (pos + j) = 1) by lia.
  split.
  - intros E. destruct C as [C|C]; rewrite C in *; [lia|].
    split; auto. intros i Hi. assert (Z0 : f_n f (pos + j + 1) (7 - j) = 0) by lia.
    unfold f_n in Z0. eapply f_n_zero_inv; [exact Hf|exact Z0|lia].
  - intros [-> K]. rewrite (f_n_zero f (pos + j + 1)); [lia|]. intros; apply K; lia.
Qed.

Theorem trailing_ok : forall W buf sz m s strict last, win W -> Forall is_byte buf -> 0 <= sz <= zlen buf ->
  good W buf sz m s ->
  exists r, tile_sbrow_end m strict last = Ok r /\
    (r = 0 <-> -14 <= SymbolMaxBits s /\
      (strict = true -> last = true -> exit_conformant (stream_bit buf sz) sz s)) /\ (r = 0 \/ r = 1).
Proof.
  intros W buf sz m s strict last HW Hb Hsz G.
  destruct G as (Hbuf & He & Hr & Hrr & Hsv & Hp & Hc & Hm & Hbp & g & Hg & Hd & G1 & G2 & G3).
  clear Hd Hr Hrr Hsv. unfold tile_sbrow_end.
  assert (CN : ms_cnt m <= -15 <-> SymbolMaxBits s <= -15).
  { split; intros Q; [destruct (G3 ltac:(lia)); lia|].
    destruct (Z.ltb_spec (ms_cnt m) 0); [destruct (G3 ltac:(lia)); lia|lia]. }
  destruct (Z.leb_spec (ms_cnt m) (-15)) as [Q|Q].
  { exists 1. split; auto. split; [|auto]. split; [lia|]. intros [A _]. lia. }
  assert (M14 : -14 <= SymbolMaxBits s) by lia. clear CN G1 G2.
  destruct (strict && last) eqn:SL.
  2:{ exists 0. split; auto. split; [|auto]. split; auto. intros _. split; auto. intros -> ->. discriminate. }
  apply andb_prop in SL. destruct SL as [-> ->].
  unfold check_trailing_bits_after_symbol_coder.
  set (T := 8 * sz - SymbolMaxBits s) in *.
  assert (TP : trailingPosition s = T - 15) by (unfold trailingPosition; lia).
  replace (- (ms_cnt m + 14) <=? 0) with true by lia.
  set (q := - (ms_cnt m + 14) - 1).
  rewrite (shiftr_div _ 3) by lia. change (2 ^ 3) with 8.
  assert (PT : Z.shiftr 128 (Z.land q 7) = 2 ^ (7 - q mod 8)).
  { change 7 with (2 ^ 3 - 1) at 1. rewrite land_ones_mod by lia. change (2 ^ 3) with 8.
    assert (0 <= q mod 8 < 8) by (apply Z.mod_pos_bound; lia).
    rewrite shiftr_div by lia. change 128 with (2 ^ 7). rewrite Z.pow_sub_r by lia. auto. }
  rewrite PT. clear PT.
  replace (- (ms_cnt m + 14) + 7) with (q + 8) by (unfold q; lia).
  assert (IDX : 8 * (ms_pos m + (q + 8) / 8 - 1) + q mod 8 = T - 15) by (unfold q; lia).
  assert (J : 0 <= q mod 8 < 8) by (apply Z.mod_pos_bound; lia).
  set (P := ms_pos m + (q + 8) / 8) in *. set (j := q mod 8) in *.
  assert (PR : 0 <= P - 1 < sz) by lia.
  rewrite Hbuf, He. rewrite rd_nthZ by lia. cbn [obind].
  pose proof (byte_tail (stream_bit buf sz) (8 * (P - 1)) j (nthZ buf (P - 1)) (stream_bit_range buf sz) J) as BT.
  specialize (BT ltac:(symmetry; apply f_n_byte; auto; lia)).
  rewrite IDX in BT. unfold exit_conformant. rewrite TP.
  destruct (all_zero_ok buf sz Hb Hsz (Z.to_nat sz) P ltac:(lia) ltac:(lia)) as (z & E & I).
  destruct (Z.eqb_spec (Z.land (nthZ buf (P - 1)) (2 * 2 ^ (7 - j) - 1)) (2 ^ (7 - j))) as [K|K].
  - cbn [negb]. rewrite E. cbn [obind]. apply BT in K. destruct K as [K1 K2].
    eexists. split; [reflexivity|]. split; [|destruct z; auto].
    destruct z.
    + split; auto. intros _. split; auto. intros _ _. split; [auto|]. split; [auto|].
      intros i Hi. destruct (Z.ltb_spec i (8 * P)); [apply K2; lia|apply I; auto; lia].
    + split; [lia|]. intros [_ Z0]. destruct (Z0 eq_refl eq_refl) as (_ & _ & Z1).
      assert (false = true); [|discriminate]. apply I. intros. apply Z1. lia.
  - cbn [negb]. exists 1. split; auto. split; [|auto]. split; [lia|].
    intros [_ Z0]. destruct (Z0 eq_refl eq_refl) as (_ & Z1 & Z2). exfalso. apply K. apply BT.
    split; auto. intros. apply Z2. lia.
Qed.

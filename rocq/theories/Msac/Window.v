(** Refinement of the lazily refilled, inverted window of src/msac.c to the
    bit-serial symbol decoder of the specification. *)
From Coq Require Import ZArith List Bool Lia.
From Verif Require Import Base.CInt Base.Lemmas GetBits.Spec GetBits.Proofs.
From Verif Require Import Msac.Model Msac.Spec.
Import ListNotations.
Open Scope Z_scope.

Lemma f_n_ext : forall f g pos n, (forall i, f i = g i) -> f_n f pos n = f_n g pos n.
Proof.
  intros f g pos n H. unfold f_n. induction (Z.to_nat n); auto. cbn [bitsval].
  rewrite IHn0, H. auto.
Qed.

Lemma f_n_compl : forall f pos n, 0 <= n ->
  f_n (fun i => 1 - f i) pos n = 2 ^ n - 1 - f_n f pos n.
Proof.
  intros f pos n Hn. unfold f_n. rewrite <- (Z2Nat.id n) at 2 by lia.
  induction (Z.to_nat n); [reflexivity|]. cbn [bitsval]. rewrite IHn0.
  rewrite Nat2Z.inj_succ, Z.pow_succ_r by lia. lia.
Qed.

Lemma lxor_ones : forall x d, 0 <= d -> 0 <= x < 2 ^ d -> Z.lxor x (2 ^ d - 1) = 2 ^ d - 1 - x.
Proof.
  intros x d Hd Hx. replace (2 ^ d - 1) with (Z.ones d) by (rewrite Z.ones_equiv; lia).
  rewrite Z.sub_nocarry_ldiff.
  - apply Z.bits_inj'. intros i Hi. rewrite Z.lxor_spec, Z.ldiff_spec.
    destruct (Z.ltb_spec i d).
    + rewrite Z.ones_spec_low by lia. destruct (Z.testbit x i); auto.
    + rewrite Z.ones_spec_high by lia. rewrite (testbit_small x d) by lia. auto.
  - apply Z.bits_inj'. intros i Hi. rewrite Z.ldiff_spec, Z.bits_0.
    destruct (Z.ltb_spec i d).
    + rewrite Z.ones_spec_low by lia. destruct (Z.testbit x i); auto.
    + rewrite (testbit_small x d) by lia. auto.
Qed.

Lemma lxor_shift : forall a x y d, 0 <= d -> 0 <= x < 2 ^ d -> 0 <= y < 2 ^ d ->
  Z.lxor x (a * 2 ^ d + y) = a * 2 ^ d + Z.lxor x y.
Proof.
  intros a x y d Hd Hx Hy.
  assert (Hz : 0 <= Z.lxor x y < 2 ^ d).
  { assert (0 <= Z.lxor x y) by (apply Z.lxor_nonneg; lia). split; [lia|].
    destruct (Z.eq_dec (Z.lxor x y) 0); [pose proof (pow2_pos d Hd); lia|].
    apply Z.log2_lt_pow2; [lia|].
    destruct (Z.eq_dec d 0) as [->|]; [change (2 ^ 0) with 1 in *; assert (x = 0) by lia;
      assert (y = 0) by lia; subst; exfalso; apply n; reflexivity|].
    eapply Z.le_lt_trans; [apply Z.log2_lxor; lia|]. apply Z.max_lub_lt.
    - destruct (Z.eq_dec x 0); [subst; change (Z.log2 0) with 0; lia|]. apply Z.log2_lt_pow2; lia.
    - destruct (Z.eq_dec y 0); [subst; change (Z.log2 0) with 0; lia|]. apply Z.log2_lt_pow2; lia. }
  rewrite <- (lor_shift_add a y d) by lia.
  rewrite <- (lor_shift_add a (Z.lxor x y) d) by lia.
  rewrite <- !shiftl_mul by lia.
  apply Z.bits_inj'. intros i Hi.
  rewrite Z.lxor_spec, !Z.lor_spec, Z.lxor_spec.
  destruct (Z.ltb_spec i d).
  - rewrite Z.shiftl_spec_low by lia. auto.
  - rewrite (testbit_small x d), (testbit_small y d) by lia.
    destruct (Z.testbit (Z.shiftl a d) i); auto.
Qed.

Lemma lor_ones : forall h x n, 0 <= n -> 0 <= x < 2 ^ n ->
  Z.lor (h * 2 ^ n + x) (2 ^ n - 1) = h * 2 ^ n + (2 ^ n - 1).
Proof.
  intros h x n Hn Hx. rewrite <- (lor_shift_add h x n) by lia.
  rewrite <- (lor_shift_add h (2 ^ n - 1) n) by lia. rewrite <- Z.lor_assoc. f_equal.
  replace (2 ^ n - 1) with (Z.ones n) by (rewrite Z.ones_equiv; lia).
  apply Z.bits_inj'. intros i Hi. rewrite Z.lor_spec. destruct (Z.ltb_spec i n).
  - rewrite Z.ones_spec_low by lia. apply orb_true_r.
  - rewrite (testbit_small x n) by lia. auto.
Qed.

(** Inverted data bits. *)
Definition ib (buf : list Z) (sz : Z) (i : Z) : Z := 1 - stream_bit buf sz i.

Lemma ib_range : forall buf sz i, 0 <= ib buf sz i <= 1.
Proof. intros. unfold ib. pose proof (stream_bit_range buf sz i). lia. Qed.

Lemma f_n_ib_end : forall buf sz pos n, 8 * sz <= pos -> 0 <= n ->
  f_n (ib buf sz) pos n = 2 ^ n - 1.
Proof.
  intros. unfold ib. rewrite f_n_compl by lia.
  rewrite (f_n_zero (stream_bit buf sz)); [lia|].
  intros. apply stream_bit_end. lia.
Qed.

Definition win (W : Z) : Prop := W = 32 \/ W = 64.

Lemma shlW_ok : forall W x c, 0 <= c < W -> shlW W x c = Ok (x * 2 ^ c mod 2 ^ W).
Proof.
  intros. unfold shlW, uW. replace ((0 <=? c) && (c <? W)) with true by lia.
  rewrite shiftl_mul by lia. auto.
Qed.

Lemma refill_loop_spec : forall W buf sz, win W -> Forall is_byte buf -> 0 <= sz <= zlen buf ->
  forall fuel pos h x c, 0 <= pos <= sz -> 0 <= c -> c + 8 < W -> c < 8 * Z.of_nat fuel ->
  0 <= h -> (h + 1) * 2 ^ (c + 8) <= 2 ^ W -> 0 <= x < 2 ^ (c + 8) -> (pos < sz -> x = 0) ->
  exists pos' g c',
    refill_loop W fuel buf pos sz (h * 2 ^ (c + 8) + x) c =
      Ok (pos', h * 2 ^ (c + 8) + f_n (ib buf sz) (8 * pos) g * 2 ^ (c + 8 - g), c') /\
    pos <= pos' <= sz /\ 8 * (pos' - pos) = c - c' /\ 0 <= g <= c + 8 /\ -8 <= c' /\
    (0 <= c' -> pos' = sz /\ g = c + 8) /\
    (c' < 0 -> g = 8 * (pos' - pos)).
Proof.
  intros W buf sz HW Hb Hsz. induction fuel; intros pos h x c Hpos Hc Hc8 Hf Hh Hw Hx Hx0; [lia|].
  cbn [refill_loop]. destruct (Z.leb_spec sz pos).
  - assert (pos = sz) by lia. subst pos.
    rewrite shlW_ok by (destruct HW; lia). cbn [obind].
    exists sz, (c + 8), c. split.
    + assert (E : notW W ((notW W 255 * 2 ^ c) mod 2 ^ W) = 2 ^ (c + 8) - 1).
      { unfold notW. assert (P : 2 ^ (c + 8) = 2 ^ c * 256) by (rewrite Z.pow_add_r by lia; reflexivity).
        pose proof (pow2_pos c Hc).
        assert (2 ^ (c + 8) <= 2 ^ W) by (apply Z.pow_le_mono_r; lia).
        replace ((2 ^ W - 1 - 255) * 2 ^ c) with ((2 ^ W - 2 ^ (c + 8)) + (2 ^ c - 1) * 2 ^ W) by nia.
        rewrite Z.mod_add by lia. rewrite Z.mod_small by lia. lia. }
      rewrite E. rewrite lor_ones by lia. rewrite f_n_ib_end by lia.
      replace (c + 8 - (c + 8)) with 0 by lia. rewrite Z.mul_1_r. auto.
    + repeat split; try lia.
  - rewrite (rd_at_nth _ _ _ 0) by lia. cbn [obind].
    rewrite shlW_ok by lia. cbn [obind]. specialize (Hx0 ltac:(lia)). subst x. rewrite Z.add_0_r.
    pose proof (Forall_nth_Z _ _ buf pos 0 Hb ltac:(lia)) as B. unfold is_byte in B.
    rewrite (lxor_ones _ 8) by lia. change (2 ^ 8 - 1) with 255.
    set (v := 255 - nth (Z.to_nat pos) buf 0).
    assert (Hv : v = f_n (ib buf sz) (8 * pos) 8).
    { unfold ib. rewrite f_n_compl by lia. rewrite f_n_byte by (auto; lia).
      unfold v. reflexivity. }
    assert (Hvr : 0 <= v < 256) by (unfold v; lia).
    assert (P : 2 ^ (c + 8) = 256 * 2 ^ c) by (rewrite Z.pow_add_r by lia; lia).
    pose proof (pow2_pos c Hc) as Pc.
    assert (PW : 2 ^ (c + 8) <= 2 ^ W) by (apply Z.pow_le_mono_r; lia).
    rewrite Z.mod_small by nia.
    rewrite lor_shift_add by nia.
    destruct (Z.leb_spec 0 (c - 8)).
    + specialize (IHfuel (pos + 1) (h * 256 + v) 0 (c - 8)).
      replace (c - 8 + 8) with c in IHfuel by lia.
      destruct IHfuel as (pos' & g & c' & E & H1); try lia.
      * nia.
      * exists pos', (g + 8), c'.
        replace (h * 2 ^ (c + 8) + v * 2 ^ c) with ((h * 256 + v) * 2 ^ c + 0) by nia.
        rewrite E. split; [|repeat split; lia].
        f_equal. f_equal. f_equal.
        replace (g + 8) with (8 + g) by lia. rewrite f_n_app by lia. rewrite <- Hv.
        replace (8 * (pos + 1)) with (8 * pos + 8) by lia.
        replace (c + 8 - (8 + g)) with (c - g) by lia.
        assert (2 ^ c = 2 ^ (c - g) * 2 ^ g) by (apply pow2_split; lia). nia.
    + exists (pos + 1), 8, (c - 8). split; [|repeat split; lia].
      rewrite <- Hv. replace (c + 8 - 8) with c by lia. auto.
Qed.

(** The relation between the C context and the specification's state while
    at most 15 padding bits have been consumed. *)
Definition good (W : Z) (buf : list Z) (sz : Z) (m : msac) (s : sym) : Prop :=
  ms_buf m = buf /\ ms_end m = sz /\
  ms_rng m = SymbolRange s /\ 32768 <= SymbolRange s <= 65535 /\
  0 <= SymbolValue s < SymbolRange s /\
  0 <= ms_pos m <= sz /\
  ms_cnt m = 8 * ms_pos m - (8 * sz - SymbolMaxBits s) /\
  -15 <= SymbolMaxBits s <= 8 * sz - 15 /\
  bit_pos s = Z.min (8 * sz - SymbolMaxBits s) (8 * sz) /\
  exists g, 0 <= g <= W - 16 /\
    ms_dif m = SymbolValue s * 2 ^ (W - 16)
               + f_n (ib buf sz) (8 * sz - SymbolMaxBits s) g * 2 ^ (W - 16 - g) /\
    (ms_pos m < sz -> g = ms_cnt m) /\
    (0 <= ms_cnt m -> ms_cnt m <= g) /\
    (ms_cnt m < 0 -> ms_pos m = sz /\ ms_cnt m + 17 <= g).

Lemma good_intro : forall W buf sz m s g,
  ms_buf m = buf -> ms_end m = sz -> ms_rng m = SymbolRange s ->
  32768 <= SymbolRange s <= 65535 -> 0 <= SymbolValue s < SymbolRange s ->
  0 <= ms_pos m <= sz -> ms_cnt m = 8 * ms_pos m - (8 * sz - SymbolMaxBits s) ->
  -15 <= SymbolMaxBits s <= 8 * sz - 15 ->
  bit_pos s = Z.min (8 * sz - SymbolMaxBits s) (8 * sz) ->
  0 <= g <= W - 16 ->
  ms_dif m = SymbolValue s * 2 ^ (W - 16)
             + f_n (ib buf sz) (8 * sz - SymbolMaxBits s) g * 2 ^ (W - 16 - g) ->
  (ms_pos m < sz -> g = ms_cnt m) -> (0 <= ms_cnt m -> ms_cnt m <= g) ->
  (ms_cnt m < 0 -> ms_pos m = sz /\ ms_cnt m + 17 <= g) -> good W buf sz m s.
Proof.
  intros. unfold good. repeat (split; [assumption|]). exists g.
  repeat (split; [assumption|]). assumption.
Qed.

(** Sanity of the C context alone; this is all that is left after more than
    15 padding bits have been consumed. *)
Definition sane (W : Z) (buf : list Z) (sz : Z) (m : msac) : Prop :=
  ms_buf m = buf /\ ms_end m = sz /\ 0 <= ms_pos m <= sz /\
  32768 <= ms_rng m <= 65535 /\ 0 <= ms_dif m < 2 ^ W /\
  ms_dif m / 2 ^ (W - 16) < ms_rng m /\ ms_cnt m <= W - 16.

Definition overrun (W : Z) (buf : list Z) (sz : Z) (m : msac) : Prop :=
  sane W buf sz m /\ ms_cnt m <= -16.

Lemma good_sane : forall W buf sz m s, win W -> good W buf sz m s ->
  sane W buf sz m /\ -15 <= ms_cnt m /\ ms_dif m / 2 ^ (W - 16) = SymbolValue s.
Proof.
  intros W buf sz m s HW (Hb & He & Hr & Hrr & Hv & Hp & Hc & Hm & Hbp & g & Hg & Hd & G1 & G2 & G3).
  pose proof (f_n_range (ib buf sz) (ib_range buf sz) (8 * sz - SymbolMaxBits s) g ltac:(lia)) as F.
  assert (P : 2 ^ (W - 16) = 2 ^ g * 2 ^ (W - 16 - g)) by (rewrite <- Z.pow_add_r by lia; f_equal; lia).
  pose proof (pow2_pos (W - 16 - g) ltac:(lia)).
  assert (PW : 2 ^ W = 2 ^ 16 * 2 ^ (W - 16)) by (rewrite <- Z.pow_add_r by (destruct HW; lia); f_equal; lia).
  change (2 ^ 16) with 65536 in PW.
  set (L := f_n (ib buf sz) (8 * sz - SymbolMaxBits s) g * 2 ^ (W - 16 - g)) in *.
  assert (HL : 0 <= L < 2 ^ (W - 16)) by (unfold L; nia).
  assert (D : ms_dif m / 2 ^ (W - 16) = SymbolValue s).
  { rewrite Hd. rewrite Z.add_comm, Z.div_add by lia. rewrite Z.div_small by lia. lia. }
  split; [|split; [lia|exact D]].
  assert (C : ms_cnt m <= W - 16) by (destruct (Z.ltb_spec (ms_cnt m) 0); lia).
  clear G1 G2 G3 Hbp Hc Hm.
  unfold sane. rewrite D, He, Hr. repeat split; auto; try lia; rewrite Hd; nia.
Qed.

Lemma log2_16 : forall r, 1 <= r <= 65535 ->
  0 <= Z.log2 r <= 15 /\ Z.lxor 15 (Z.log2 r) = 15 - Z.log2 r /\
  32768 <= r * 2 ^ (15 - Z.log2 r) <= 65535.
Proof.
  intros r Hr.
  assert (L : 0 <= Z.log2 r <= 15).
  { split; [apply Z.log2_nonneg|]. assert (Z.log2 r < 16); [|lia].
    apply Z.log2_lt_pow2; [lia|]. change (2 ^ 16) with 65536. lia. }
  split; auto. split.
  - rewrite Z.lxor_comm. change 15 with (2 ^ 4 - 1) at 1. rewrite lxor_ones; [reflexivity|lia|].
    change (2 ^ 4) with 16. lia.
  - pose proof (Z.log2_spec r ltac:(lia)) as [A B].
    assert (P1 : 2 ^ Z.log2 r * 2 ^ (15 - Z.log2 r) = 32768)
      by (rewrite <- Z.pow_add_r by lia; replace (Z.log2 r + (15 - Z.log2 r)) with 15 by lia; reflexivity).
    rewrite Z.pow_succ_r in B by lia. pose proof (pow2_pos (15 - Z.log2 r) ltac:(lia)). nia.
Qed.

(** Renormalisation on the specification side. *)
Lemma renorm_value : forall buf sz s, 0 <= sz ->
  1 <= SymbolRange s <= 65535 -> SymbolMaxBits s <= 8 * sz - 15 ->
  bit_pos s = Z.min (8 * sz - SymbolMaxBits s) (8 * sz) ->
  let d := 15 - Z.log2 (SymbolRange s) in
  let s' := renorm (stream_bit buf sz) s in
  SymbolRange s' = SymbolRange s * 2 ^ d /\
  SymbolValue s' = SymbolValue s * 2 ^ d + f_n (ib buf sz) (8 * sz - SymbolMaxBits s) d /\
  SymbolMaxBits s' = SymbolMaxBits s - d /\
  bit_pos s' = Z.min (8 * sz - SymbolMaxBits s') (8 * sz).
Proof.
  intros buf sz s Hsz Hr Hm Hp d s'.
  destruct (log2_16 _ Hr) as (L & _ & _). assert (Hd : 0 <= d <= 15) by (unfold d; lia).
  unfold s', renorm. fold d. cbn [SymbolRange SymbolValue SymbolMaxBits bit_pos].
  split; auto. split; [|split; [auto|]].
  2:{ lia. }
  set (nb := Z.min d (Z.max 0 (SymbolMaxBits s))).
  assert (Hnb : 0 <= nb <= d) by (unfold nb; lia).
  assert (E : f_n (stream_bit buf sz) (bit_pos s) nb * 2 ^ (d - nb)
              = f_n (stream_bit buf sz) (8 * sz - SymbolMaxBits s) d).
  { pose proof (f_n_app (stream_bit buf sz) (8 * sz - SymbolMaxBits s) nb (d - nb) ltac:(lia) ltac:(lia)) as A.
    replace (nb + (d - nb)) with d in A by lia. rewrite A.
    destruct (Z.leb_spec 0 (SymbolMaxBits s)).
    - replace (bit_pos s) with (8 * sz - SymbolMaxBits s) by lia.
      destruct (Z.leb_spec d (SymbolMaxBits s)).
      + replace (d - nb) with 0 by lia. rewrite f_n_0. lia.
      + rewrite (f_n_zero _ (8 * sz - SymbolMaxBits s + nb)); [lia|].
        intros. apply stream_bit_end. lia.
    - replace nb with 0 by lia. rewrite !f_n_0.
      rewrite (f_n_zero _ (8 * sz - SymbolMaxBits s + 0)); [lia|].
      intros. apply stream_bit_end. lia. }
  rewrite E.
  pose proof (f_n_range _ (stream_bit_range buf sz) (8 * sz - SymbolMaxBits s) d ltac:(lia)) as F.
  replace ((SymbolValue s + 1) * 2 ^ d - 1) with (SymbolValue s * 2 ^ d + (2 ^ d - 1)) by lia.
  rewrite lxor_shift by lia. rewrite lxor_ones by lia.
  unfold ib. rewrite f_n_compl by lia. reflexivity.
Qed.

Definition with_uv (s : sym) (u v : Z) : sym :=
  {| SymbolRange := u - v; SymbolValue := SymbolValue s - v;
     SymbolMaxBits := SymbolMaxBits s; bit_pos := bit_pos s |}.

Lemma u32_cmp : forall cnt d, INT_MIN <= cnt <= INT_MAX -> 0 <= d <= 15 ->
  (u32 cnt <? u32 d) = (0 <=? cnt) && (cnt <? d).
Proof. intros. unfold INT_MIN, INT_MAX, u32 in *. lia. Qed.

Lemma shift_in : forall a b f p, 0 <= a < b -> 0 <= f < p ->
  0 <= a * p + f < b * p /\ a * p + f + 1 <= b * p.
Proof. intros. nia. Qed.
Lemma mul_in : forall f p q, 0 <= f < p -> 0 < q -> 0 <= f * q < p * q.
Proof. intros. nia. Qed.

Lemma div_bounds : forall x p v u, 0 < p -> v <= x / p < u -> v * p <= x < u * p.
Proof.
  intros x p v u Hp [H1 H2]. split.
  - apply Z.le_trans with (x / p * p); [apply Z.mul_le_mono_nonneg_r; lia|].
    rewrite Z.mul_comm. apply Z.mul_div_le; auto.
  - apply Z.lt_le_trans with (Z.succ (x / p) * p).
    + rewrite Z.mul_comm. apply Z.mul_succ_div_gt; auto.
    + apply Z.mul_le_mono_nonneg_r; lia.
Qed.

(** The part of ctx_norm before a refill. *)
Lemma norm_unfold : forall W m v u, win W ->
  0 <= v -> v * 2 ^ (W - 16) <= ms_dif m -> ms_dif m < u * 2 ^ (W - 16) -> u <= 65535 ->
  INT_MIN + 15 <= ms_cnt m <= 1000 ->
  let d := 15 - Z.log2 (u - v) in
  let m1 := {| ms_buf := ms_buf m; ms_pos := ms_pos m; ms_end := ms_end m;
               ms_dif := (ms_dif m - v * 2 ^ (W - 16)) * 2 ^ d;
               ms_rng := (u - v) * 2 ^ d; ms_cnt := ms_cnt m - d; ms_upd := ms_upd m |} in
  1 <= u - v <= 65535 /\ 0 <= d <= 15 /\ 32768 <= (u - v) * 2 ^ d <= 65535 /\
  0 <= ms_dif m1 < (u - v) * 2 ^ d * 2 ^ (W - 16) /\
  ctx_norm W m (ms_dif m - v * 2 ^ (W - 16)) (u - v) =
    if (0 <=? ms_cnt m) && (ms_cnt m <? d) then ctx_refill W m1 else Ok m1.
Proof.
  intros W m v u HW Hv Hd1 Hd2 Hu Hc d m1.
  assert (P16 : 0 < 2 ^ (W - 16)) by (apply pow2_pos; destruct HW; lia).
  assert (Huv : 1 <= u - v <= 65535) by nia.
  destruct (log2_16 _ Huv) as (L & X & R). fold d in R.
  assert (Hd : 0 <= d <= 15) by (unfold d; lia).
  pose proof (pow2_pos d ltac:(lia)) as Pd.
  assert (Dr : 0 <= (ms_dif m - v * 2 ^ (W - 16)) * 2 ^ d < (u - v) * 2 ^ d * 2 ^ (W - 16)) by nia.
  split; [auto|]. split; [auto|]. split; [auto|]. split; [exact Dr|].
  unfold ctx_norm. replace ((0 <? u - v) && (u - v <=? 65535)) with true by lia.
  rewrite X. fold d. rewrite shlW_ok by (destruct HW; lia). cbn [obind].
  assert (PW : 2 ^ W = 65536 * 2 ^ (W - 16)).
  { change 65536 with (2 ^ 16). rewrite <- Z.pow_add_r by (destruct HW; lia). f_equal; lia. }
  rewrite Z.mod_small by nia.
  rewrite fits_int_true by (unfold INT_MIN, INT_MAX in *; lia).
  rewrite shiftl_mul by lia. rewrite (u32_id ((u - v) * 2 ^ d)) by (change (2 ^ 32) with 4294967296; lia).
  rewrite u32_cmp by (unfold INT_MIN, INT_MAX in *; lia). reflexivity.
Qed.

Lemma norm_overrun : forall W buf sz m v u, win W -> overrun W buf sz m ->
  0 <= v -> v <= ms_dif m / 2 ^ (W - 16) < u -> u <= 65535 -> INT_MIN + 15 <= ms_cnt m ->
  exists m', ctx_norm W m (ms_dif m - v * 2 ^ (W - 16)) (u - v) = Ok m' /\
    overrun W buf sz m' /\ ms_upd m' = ms_upd m /\ ms_cnt m - 15 <= ms_cnt m' <= ms_cnt m.
Proof.
  intros W buf sz m v u HW [(Hb & He & Hp & Hr & Hd & Hdr & Hcw) Ho] Hv Hvu Hu Hi.
  assert (P16 : 0 < 2 ^ (W - 16)) by (apply pow2_pos; destruct HW; lia).
  destruct (div_bounds (ms_dif m) _ v u P16 ltac:(lia)) as [D1 D2].
  destruct (norm_unfold W m v u HW Hv D1 D2 Hu ltac:(lia)) as (A & B & C & D & E).
  set (d := 15 - Z.log2 (u - v)) in *. cbn [ms_dif] in D.
  eexists. split; [rewrite E; replace ((0 <=? ms_cnt m) && _) with false by lia; reflexivity|].
  unfold overrun, sane. cbn [ms_buf ms_end ms_pos ms_rng ms_dif ms_cnt ms_upd].
  assert (PW : 2 ^ W = 65536 * 2 ^ (W - 16)).
  { change 65536 with (2 ^ 16). rewrite <- Z.pow_add_r by (destruct HW; lia). f_equal; lia. }
  assert (Dw : (ms_dif m - v * 2 ^ (W - 16)) * 2 ^ d < 2 ^ W).
  { rewrite PW. eapply Z.lt_le_trans; [apply D|]. apply Z.mul_le_mono_nonneg_r; lia. }
  repeat split; auto; try lia.
  apply Z.div_lt_upper_bound; lia.
Qed.

Lemma norm_good : forall W buf sz m s v u, win W -> Forall is_byte buf -> 0 <= sz <= zlen buf ->
  good W buf sz m s -> 0 <= v <= SymbolValue s -> SymbolValue s < u <= 65535 ->
  let s' := renorm (stream_bit buf sz) (with_uv s u v) in
  exists m', ctx_norm W m (ms_dif m - v * 2 ^ (W - 16)) (u - v) = Ok m' /\
    ms_upd m' = ms_upd m /\ ms_cnt m - 15 <= ms_cnt m' /\
    (-15 <= SymbolMaxBits s' -> good W buf sz m' s') /\
    (SymbolMaxBits s' < -15 -> overrun W buf sz m').
Proof.
  intros W buf sz m s v u HW Hbytes Hsz G Hv Hu s'.
  destruct (good_sane _ _ _ _ _ HW G) as ((_ & _ & _ & _ & Hdr & _ & Hcw) & Hcl & Htop).
  destruct G as (Hb & He & Hr & Hrr & Hsv & Hp & Hc & Hm & Hbp & g & Hg & Hd & G1 & G2 & G3).
  assert (P16 : 0 < 2 ^ (W - 16)) by (apply pow2_pos; destruct HW; lia).
  destruct (div_bounds (ms_dif m) _ v u P16 ltac:(lia)) as [D1 D2].
  destruct (norm_unfold W m v u HW ltac:(lia) D1 D2 ltac:(lia)) as (A & B & C & D & E).
  { unfold INT_MIN. destruct HW; lia. }
  destruct (renorm_value buf sz (with_uv s u v) ltac:(lia)) as (S1 & S2 & S3 & S4);
    cbn [with_uv SymbolRange SymbolMaxBits bit_pos]; try lia.
  cbn [with_uv SymbolRange SymbolMaxBits SymbolValue bit_pos] in S1, S2, S3, S4. fold s' in S1, S2, S3, S4.
  set (d := 15 - Z.log2 (u - v)) in *. cbn [ms_dif] in D.
  set (T := 8 * sz - SymbolMaxBits s) in *.
  assert (HT : 0 <= T) by (unfold T; lia).
  pose proof (f_n_range _ (ib_range buf sz) T d ltac:(lia)) as Fd.
  pose proof (f_n_range _ (ib_range buf sz) T g ltac:(lia)) as Fg.
  pose proof (pow2_pos d ltac:(lia)) as Pd.
  assert (PW : 2 ^ W = 65536 * 2 ^ (W - 16)).
  { change 65536 with (2 ^ 16). rewrite <- Z.pow_add_r by (destruct HW; lia). f_equal; lia. }
  assert (SVr : 0 <= SymbolValue s' < SymbolRange s') by (rewrite S1, S2; apply shift_in; lia).
  set (m1 := {| ms_buf := ms_buf m; ms_pos := ms_pos m; ms_end := ms_end m;
               ms_dif := (ms_dif m - v * 2 ^ (W - 16)) * 2 ^ d;
               ms_rng := (u - v) * 2 ^ d; ms_cnt := ms_cnt m - d; ms_upd := ms_upd m |}) in *.
  (* value of the shifted window *)
  assert (Dv : ms_dif m1 = ((SymbolValue s - v) * 2 ^ g + f_n (ib buf sz) T g) * 2 ^ (W - 16 - g + d)).
  { unfold m1. cbn [ms_dif]. rewrite Hd. rewrite Z.pow_add_r by lia.
    assert (Q : 2 ^ (W - 16) = 2 ^ g * 2 ^ (W - 16 - g)) by (rewrite <- Z.pow_add_r by lia; f_equal; lia).
    rewrite Q. ring. }
  assert (K : d <= g -> -15 <= SymbolMaxBits s' -> (ms_pos m < sz -> g = ms_cnt m) ->
    (0 <= ms_cnt m - d -> ms_cnt m - d <= g - d) ->
    (ms_cnt m - d < 0 -> ms_pos m = sz /\ ms_cnt m - d + 17 <= g - d) -> good W buf sz m1 s').
  { intros Hdg Hov K1 K2 K3. apply good_intro with (g := g - d);
      unfold m1; cbn [ms_buf ms_end ms_pos ms_rng ms_dif ms_cnt ms_upd]; auto.
    - clear - S3 Hc. lia.
    - clear - S3 Hm B Hov. lia.
    - clear - Hg Hdg B. lia.
    - unfold m1 in Dv. cbn [ms_dif] in Dv. rewrite Dv, S2, S3.
      replace (8 * sz - (SymbolMaxBits s - d)) with (T + d) by (clear; unfold T; lia).
      replace (W - 16 - (g - d)) with (W - 16 - g + d) by (clear; lia).
      pose proof (f_n_app (ib buf sz) T d (g - d) ltac:(clear - B; lia) ltac:(clear - Hdg; lia)) as Ap.
      replace (d + (g - d)) with g in Ap by (clear; lia). rewrite Ap.
      assert (Q1 : 2 ^ (W - 16) = 2 ^ (g - d) * 2 ^ (W - 16 - g + d))
        by (rewrite <- Z.pow_add_r by (clear - Hdg Hg B; lia); f_equal; clear; lia).
      assert (Q2 : 2 ^ g = 2 ^ d * 2 ^ (g - d))
        by (rewrite <- Z.pow_add_r by (clear - Hdg B; lia); f_equal; clear; lia).
      rewrite Q1, Q2. ring.
    - clear - K1. intros Q. rewrite (K1 Q). auto. }
  destruct (Z.leb_spec 0 (ms_cnt m)) as [C0|C0]; [destruct (Z.ltb_spec (ms_cnt m) d) as [C1|C1]|].
  - (* refill *)
    cbn [andb] in E. set (cnt := ms_cnt m) in *. specialize (G2 C0).
    set (H := (SymbolValue s - v) * 2 ^ cnt + f_n (ib buf sz) T cnt).
    set (X := f_n (ib buf sz) (T + cnt) (g - cnt) * 2 ^ (W - 16 - g + d)).
    set (c := W - (cnt - d) - 24).
    assert (Hc8 : c + 8 = W - 16 - cnt + d) by (unfold c; lia).
    pose proof (f_n_range _ (ib_range buf sz) T cnt ltac:(lia)) as Fc.
    pose proof (f_n_range _ (ib_range buf sz) (T + cnt) (g - cnt) ltac:(lia)) as Fx.
    assert (EX : ms_dif m1 = H * 2 ^ (c + 8) + X).
    { rewrite Dv. pose proof (f_n_app (ib buf sz) T cnt (g - cnt) ltac:(lia) ltac:(lia)) as Ap.
      replace (cnt + (g - cnt)) with g in Ap by lia. rewrite Ap. unfold H, X. rewrite Hc8.
      assert (Q1 : 2 ^ (W - 16 - cnt + d) = 2 ^ (g - cnt) * 2 ^ (W - 16 - g + d))
        by (rewrite <- Z.pow_add_r by lia; f_equal; lia).
      assert (Q2 : 2 ^ g = 2 ^ cnt * 2 ^ (g - cnt)) by (rewrite <- Z.pow_add_r by lia; f_equal; lia).
      rewrite Q1, Q2. ring. }
    assert (HX : 0 <= X < 2 ^ (c + 8)).
    { unfold X. rewrite Hc8. pose proof (pow2_pos (W - 16 - g + d) ltac:(lia)).
      assert (Q1 : 2 ^ (W - 16 - cnt + d) = 2 ^ (g - cnt) * 2 ^ (W - 16 - g + d))
        by (rewrite <- Z.pow_add_r by lia; f_equal; lia).
      rewrite Q1. apply mul_in; lia. }
    assert (HH : 0 <= H /\ (H + 1) * 2 ^ (c + 8) <= 2 ^ W).
    { pose proof (pow2_pos cnt ltac:(lia)).
      assert (Q1 : 2 ^ cnt * 2 ^ (c + 8) = 2 ^ d * 2 ^ (W - 16))
        by (rewrite <- !Z.pow_add_r by (clear - HW Hc8 C0 C1 B; destruct HW; lia); f_equal; lia).
      pose proof (pow2_pos (c + 8) ltac:(destruct HW; lia)).
      destruct (shift_in (SymbolValue s - v) (u - v) _ _ ltac:(lia) Fc) as [I1 I2].
      split; [apply I1|].
      apply Z.le_trans with ((u - v) * 2 ^ cnt * 2 ^ (c + 8)).
      { apply Z.mul_le_mono_nonneg_r; [lia|exact I2]. }
      rewrite <- Z.mul_assoc, Q1, Z.mul_assoc, PW. apply Z.mul_le_mono_nonneg_r; lia. }
    destruct (refill_loop_spec W buf sz HW Hbytes Hsz 9 (ms_pos m) H X c) as
      (pos' & g' & c' & R1 & R2 & R3 & R4 & R5 & R6 & R7);
      [exact Hp|clear - HW Hc8 C0 C1 B; destruct HW; lia|clear - HW Hc8 C0 C1 B; lia
      |clear - HW Hc8 C0 C1 B; destruct HW; lia|apply HH|apply HH|exact HX| |].
    { intros Q. unfold X. rewrite (G1 Q). replace (cnt - cnt) with 0 by lia.
      rewrite f_n_0. lia. }
    rewrite E. unfold ctx_refill.
    replace (W - ms_cnt m1 - 24) with c by reflexivity.
    rewrite EX. unfold m1. cbn [ms_buf ms_end ms_pos ms_rng ms_dif ms_cnt ms_upd].
    rewrite Hb, He, R1. cbn [obind].
    assert (SR' : 32768 <= SymbolRange s' <= 65535) by (rewrite S1; exact C).
    clear K R1 EX HX HH Fx Fc D1 D2 Dv D Fd Fg P16 PW E m1 Htop Hd Hdr Pd.
    eexists. split; [reflexivity|]. cbn [ms_buf ms_end ms_pos ms_rng ms_dif ms_cnt ms_upd].
    split; [auto|]. split; [unfold c in *; lia|].
    set (g2 := cnt + g' - d).
    assert (K1 : 0 <= g2 <= W - 16 /\ (pos' < sz -> g2 = W - c' - 24) /\
                 (0 <= W - c' - 24 -> W - c' - 24 <= g2) /\
                 (W - c' - 24 < 0 -> pos' = sz /\ W - c' - 24 + 17 <= g2)).
    { destruct (Z.leb_spec 0 c') as [Q|Q].
      - destruct (R6 Q) as [-> ->]. unfold g2. destruct HW; lia.
      - specialize (R7 Q). unfold g2. destruct HW; lia. }
    assert (K2 : H * 2 ^ (c + 8) + f_n (ib buf sz) (8 * ms_pos m) g' * 2 ^ (c + 8 - g') =
                 SymbolValue s' * 2 ^ (W - 16)
                 + f_n (ib buf sz) (8 * sz - SymbolMaxBits s') g2 * 2 ^ (W - 16 - g2)).
    { rewrite S2, S3. replace (8 * sz - (SymbolMaxBits s - d)) with (T + d) by lia.
      replace (8 * ms_pos m) with (T + cnt) by lia.
      assert (Ap1 : f_n (ib buf sz) T (cnt + g') = f_n (ib buf sz) T cnt * 2 ^ g' + f_n (ib buf sz) (T + cnt) g')
        by (apply f_n_app; lia).
      assert (Ap2 : f_n (ib buf sz) T (d + g2) = f_n (ib buf sz) T d * 2 ^ g2 + f_n (ib buf sz) (T + d) g2)
        by (apply f_n_app; lia).
      replace (d + g2) with (cnt + g') in Ap2 by (unfold g2; lia).
      replace (W - 16 - g2) with (c + 8 - g') by (unfold g2; lia).
      assert (Q1 : 2 ^ (c + 8) = 2 ^ g' * 2 ^ (c + 8 - g')) by (rewrite <- Z.pow_add_r by lia; f_equal; lia).
      assert (Q2 : 2 ^ (W - 16) = 2 ^ g2 * 2 ^ (c + 8 - g'))
        by (rewrite <- Z.pow_add_r by lia; f_equal; unfold g2; lia).
      assert (Q3 : 2 ^ cnt * 2 ^ g' = 2 ^ d * 2 ^ g2) by (rewrite <- !Z.pow_add_r by lia; f_equal; unfold g2; lia).
      rewrite Q1, Q2. unfold H.
      transitivity (((SymbolValue s - v) * (2 ^ cnt * 2 ^ g') + f_n (ib buf sz) T (cnt + g')) * 2 ^ (c + 8 - g')).
      { rewrite Ap1. ring. }
      rewrite Q3, Ap2. ring. }
    split.
    + intros Q. apply good_intro with (g := g2);
        cbn [ms_buf ms_end ms_pos ms_rng ms_dif ms_cnt ms_upd]; auto; try exact K2; try apply K1;
        clear K2 S2 S1; clear K1 SVr; try (clear H X; lia).
    + clear K2 K1 S2 S1 SVr; intros Q. exfalso. clear H X. rewrite S3 in Q. destruct (Z.eq_dec (ms_pos m) sz); lia.
  - (* enough bits left in the window *)
    cbn [andb] in E. rewrite E. exists m1. specialize (G2 C0).
    split; [auto|]. split; [auto|]. split; [unfold m1; cbn [ms_cnt]; clear - B; lia|].
    assert (Nov : -15 <= SymbolMaxBits s') by (clear - S3 C0 C1 Hc Hp B; lia).
    split; [|intros; lia]. intros _. apply K; auto; lia.
  - (* past the end of the data: no refill *)
    cbn [andb] in E. rewrite E. exists m1.
    split; [auto|]. split; [auto|]. split; [unfold m1; cbn [ms_cnt]; clear - B; lia|].
    destruct (G3 C0) as [Pe Pg]. split.
    + intros Q. apply K; auto; clear - Q S3 Hc Pe Pg B C0; lia.
    + intros Q. unfold overrun, sane, m1. cbn [ms_buf ms_end ms_pos ms_rng ms_dif ms_cnt ms_upd].
      unfold m1 in D. cbn [ms_dif] in D.
      assert (Dw : (ms_dif m - v * 2 ^ (W - 16)) * 2 ^ d < 2 ^ W).
      { rewrite PW. eapply Z.lt_le_trans; [apply D|]. apply Z.mul_le_mono_nonneg_r; lia. }
      split; [|clear - Q S3 Hc Pe Pg B C0; lia].
      split; [exact Hb|]. split; [exact He|]. split; [exact Hp|]. split; [exact C|].
      split; [split; [apply D|exact Dw]|]. split.
      * apply Z.div_lt_upper_bound; [exact P16|]. rewrite (Z.mul_comm (2 ^ (W - 16))). apply D.
      * clear - HW C0 B. destruct HW; lia.
Qed.

Lemma init_good : forall W buf sz dis, win W -> Forall is_byte buf -> 0 <= sz <= zlen buf ->
  exists m, msac_init W buf sz dis = Ok m /\
    good W buf sz m (init_symbol (stream_bit buf sz) sz) /\
    ms_upd m = negb dis /\ -15 <= ms_cnt m.
Proof.
  intros W buf sz dis HW Hb Hsz.
  destruct (refill_loop_spec W buf sz HW Hb Hsz 9 0 0 0 (W - 9)) as
    (pos' & g' & c' & R1 & R2 & R3 & R4 & R5 & R6 & R7); try lia.
  { destruct HW; lia. } { destruct HW; lia. }
  { replace (W - 9 + 8) with (W - 1) by lia.
    assert (2 ^ (W - 1) <= 2 ^ W) by (apply Z.pow_le_mono_r; destruct HW; lia). lia. }
  { split; [lia|]. apply pow2_pos. destruct HW; lia. }
  unfold msac_init, ctx_refill. cbn [ms_buf ms_end ms_pos ms_rng ms_dif ms_cnt ms_upd].
  replace (W - -15 - 24) with (W - 9) by lia.
  replace (0 * 2 ^ (W - 9 + 8) + 0) with 0 in R1 by lia. rewrite R1. cbn [obind].
  eexists. split; [reflexivity|]. cbn [ms_buf ms_end ms_pos ms_rng ms_dif ms_cnt ms_upd].
  split; [|split; [auto|lia]].
  set (s' := init_symbol (stream_bit buf sz) sz).
  assert (SV : SymbolValue s' = f_n (ib buf sz) 0 15).
  { unfold s', init_symbol. cbn [SymbolValue].
    set (nb := Z.min (sz * 8) 15). assert (0 <= nb <= 15) by lia.
    assert (Q : f_n (stream_bit buf sz) 0 nb * 2 ^ (15 - nb) = f_n (stream_bit buf sz) 0 15).
    { pose proof (f_n_app (stream_bit buf sz) 0 nb (15 - nb) ltac:(lia) ltac:(lia)) as A.
      replace (nb + (15 - nb)) with 15 in A by lia. rewrite A.
      destruct (Z.eq_dec nb 15) as [->|]; [change (15 - 15) with 0; rewrite f_n_0; lia|].
      rewrite (f_n_zero _ (0 + nb)); [lia|]. intros. apply stream_bit_end. lia. }
    rewrite Q. pose proof (f_n_range _ (stream_bit_range buf sz) 0 15 ltac:(lia)).
    rewrite Z.lxor_comm, lxor_ones by lia. unfold ib. rewrite f_n_compl by lia. auto. }
  assert (F15 : 0 <= f_n (ib buf sz) 0 15 < 2 ^ 15) by (apply f_n_range; [apply ib_range|lia]).
  change (2 ^ 15) with 32768 in F15.
  unfold good. cbn [ms_buf ms_end ms_pos ms_rng ms_dif ms_cnt ms_upd]. rewrite SV.
  replace (SymbolRange s') with 32768 by reflexivity.
  replace (SymbolMaxBits s') with (8 * sz - 15) by reflexivity.
  replace (bit_pos s') with (Z.min (sz * 8) 15) by reflexivity.
  repeat match goal with |- _ /\ _ => split; try lia; auto end.
  replace (8 * sz - (8 * sz - 15)) with 15 by lia.
  assert (Hg : 15 <= g').
  { destruct (Z.leb_spec 0 c') as [Q|Q]; [destruct (R6 Q)|specialize (R7 Q)]; destruct HW; lia. }
  exists (g' - 15).
  pose proof (f_n_app (ib buf sz) 0 15 (g' - 15) ltac:(lia) ltac:(lia)) as Ap.
  replace (15 + (g' - 15)) with g' in Ap by lia.
  change (8 * 0) with 0. rewrite Ap. change (0 + 15) with 15.
  replace (W - 16 - (g' - 15)) with (W - 9 + 8 - g') by lia.
  assert (Q2 : 2 ^ (W - 16) = 2 ^ (g' - 15) * 2 ^ (W - 9 + 8 - g')) by (rewrite <- Z.pow_add_r by lia; f_equal; lia).
  rewrite Q2.
  assert (K1 : 0 <= g' - 15 <= W - 16 /\ (pos' < sz -> g' - 15 = W - c' - 24) /\
               (0 <= W - c' - 24 -> W - c' - 24 <= g' - 15) /\
               (W - c' - 24 < 0 -> pos' = sz /\ W - c' - 24 + 17 <= g' - 15)).
  { destruct (Z.leb_spec 0 c') as [Q|Q].
    - destruct (R6 Q) as [-> ->]. destruct HW; lia.
    - specialize (R7 Q). destruct HW; lia. }
  split; [apply K1|]. split; [|split; [apply K1|split; apply K1]].
  clear. generalize (2 ^ (W - 9 + 8)) (2 ^ (W - 9 + 8 - g')) (2 ^ (g' - 15))
    (f_n (ib buf sz) 0 15) (f_n (ib buf sz) 15 (g' - 15)). intros. ring.
Qed.

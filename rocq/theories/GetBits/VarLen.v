(** Variable-length codes: the C readers implement the AV1 descriptors. *)
From Coq Require Import ZArith List Bool Lia.
From Verif Require Import Base.CInt Base.Lemmas GetBits.Model GetBits.Spec GetBits.Abstract
  GetBits.Proofs GetBits.SpecProg GetBits.Sim.
Import ListNotations.
Open Scope Z_scope.

Lemma log2_bounds : forall n, 1 < n -> 0 < Z.log2 n /\ 2 ^ Z.log2 n <= n < 2 * 2 ^ Z.log2 n.
Proof.
  intros. pose proof (Z.log2_spec n ltac:(lia)). rewrite Z.pow_succ_r in H0 by (apply Z.log2_nonneg).
  split; [apply Z.log2_pos; lia|lia].
Qed.

Lemma sim_ns : forall N n, 1 < n < 2 ^ 31 -> 32 <= N ->
  sim N (get_uniform n) (ns n) (fun x y => x = y /\ 0 <= x < n).
Proof.
  intros N n Hn HN. unfold get_uniform, ns, ulog2, assert.
  pose proof (log2_bounds n ltac:(lia)) as (L0 & L1).
  assert (L31 : Z.log2 n < 31) by (apply Z.log2_lt_pow2; lia).
  replace (1 <? n) with true by lia. cbn [rbind].
  replace ((1 <? Z.log2 n + 1) && (Z.log2 n + 1 <? 32)) with true by lia. cbn [rbind].
  assert (P2 : 2 ^ (Z.log2 n + 1) = 2 * 2 ^ Z.log2 n).
  { rewrite Z.add_1_r. apply Z.pow_succ_r. lia. }
  assert (2 ^ Z.log2 n <= 2 ^ 30) by (apply Z.pow_le_mono_r; lia).
  replace (Z.log2 n + 1 - 1) with (Z.log2 n) by lia.
  eapply sim_bind with (N1 := Z.log2 n); [apply sim_f; lia| |lia].
  intros v ? (<- & Hv). rewrite shiftl_mul, Z.mul_1_l by lia.
  rewrite P2. rewrite (u32_id (2 * 2 ^ Z.log2 n)) by lia.
  rewrite (u32_id (2 * 2 ^ Z.log2 n - n)) by lia.
  apply sim_if; auto; intros Hc.
  - apply sim_ret; lia.
  - eapply sim_bind with (N1 := 1); [apply sim_f1; lia| |lia].
    intros b ? (<- & Hb). apply sim_ret; [lia|].
    rewrite shiftl_mul by lia. change (2 ^ 1) with 2.
    rewrite (u32_id (v * 2)) by lia.
    rewrite (u32_id (v * 2 - _)) by lia. rewrite u32_id by lia. lia.
Qed.

Lemma sim_vlc_loop : forall fuel n N, 0 <= n -> n + Z.of_nat fuel = 32 -> (0 < fuel)%nat -> Z.of_nat fuel <= N ->
  sim N (vlc_loop fuel n) (uvlc_zeros (pred fuel) (n + 1))
    (fun x y => match x with None => y = 32 | Some k => k = y /\ 1 <= k <= 31 end).
Proof.
  induction fuel; intros n N Hn Hs Hf HN; [lia|]. cbn [vlc_loop pred].
  destruct (Z.eqb_spec (n + 1) 32).
  - assert (fuel = 0)%nat by lia. subst. apply sim_ret; lia.
  - destruct fuel; [lia|]. cbn [uvlc_zeros].
    eapply sim_bind with (N1 := 1); [apply sim_f1; lia| |lia].
    intros b ? (<- & Hb). apply sim_if.
    + unfold z2b. destruct (Z.eqb_spec b 0), (Z.eqb_spec b 1); auto; lia.
    + intros. apply sim_ret; lia.
    + intros. apply (IHfuel (n + 1) (N - 1)); lia.
Qed.

Lemma sim_uvlc : forall N, 64 <= N ->
  sim N get_vlc uvlc (fun x y => x = y /\ 0 <= x < 2 ^ 32).
Proof.
  intros N HN. unfold get_vlc, uvlc. cbn [uvlc_zeros].
  apply sbind_assoc_sim.
  eapply sim_bind with (N1 := 1); [apply sim_f1; lia| |lia].
  intros b ? (<- & Hb). unfold z2b.
  destruct (Z.eqb_spec b 0); destruct (Z.eqb_spec b 1); try lia; cbn [negb].
  - eapply sim_bind with (N1 := 32).
    + apply (sim_vlc_loop 32 0 32); lia.
    + intros x y Hxy. destruct x as [k|].
      * destruct Hxy as (<- & Hk). replace (32 <=? k) with false by lia.
        replace (k =? 0) with false by lia.
        eapply sim_bind with (N1 := 31); [apply sim_f; lia| |lia].
        intros v ? (<- & Hv). apply sim_ret; [lia|].
        rewrite shiftl_mul, Z.mul_1_l by lia.
        assert (2 ^ k <= 2 ^ 31) by (apply Z.pow_le_mono_r; lia).
        pose proof (pow2_pos k ltac:(lia)).
        rewrite (u32_id (2 ^ k)) by lia. rewrite (u32_id (2 ^ k - 1)) by lia.
        rewrite u32_id by lia. lia.
      * subst y. simpl. apply sim_ret; [lia|]. lia.
    + lia.
  - simpl. apply sim_ret; [lia|]. lia.
Qed.

Lemma inv_recenter_spec : forall r v, 0 <= r < 2 ^ 30 -> 0 <= v < 2 ^ 30 ->
  inv_recenter r v = inverse_recenter r v /\ 0 <= inverse_recenter r v.
Proof.
  intros r v Hr Hv. unfold inv_recenter, inverse_recenter.
  rewrite !shiftl_mul, !shiftr_div by lia. change (2 ^ 1) with 2.
  rewrite (u32_id (r * 2)) by lia. rewrite (u32_id (v + 1)) by lia.
  replace (r * 2 <? v) with (2 * r <? v) by (f_equal; lia).
  destruct (Z.ltb_spec (2 * r) v); [lia|].
  change 1 with (2 ^ 1 - 1) at 1. rewrite land_ones_mod by lia. change (2 ^ 1) with 2.
  destruct (Z.eqb_spec (v mod 2) 0), (Z.eqb_spec (v mod 2) 1); try lia.
  - rewrite u32_id by lia. split; lia.
  - rewrite u32_id by lia. split; lia.
Qed.

Lemma sim_subexp_loop : forall fuel i v n N,
  0 <= i -> 0 <= v < n -> 8 < n <= 2 ^ 20 -> i + Z.of_nat fuel = 32 ->
  (i = 0 -> v = 0) -> (0 < i -> v = 2 ^ (i + 2)) -> i <= 20 -> 96 - i <= N ->
  sim N (subexp_loop fuel i v n) (decode_subexp_loop fuel i v (n + 1))
    (fun x y => x = y /\ 0 <= x <= n).
Proof.
  induction fuel; intros i v n N Hi Hv Hn Hfu Hi0 Hi1 Hi20 HN; [lia|].
  cbn [subexp_loop decode_subexp_loop]. unfold z2b.
  assert (Eb : (if negb (i =? 0) then 3 + i - 1 else 3) = (if 0 <? i then 3 + i - 1 else 3)).
  { destruct (Z.eqb_spec i 0), (Z.ltb_spec 0 i); auto; lia. }
  rewrite Eb. set (b := if 0 <? i then 3 + i - 1 else 3) in *.
  assert (Hb : 3 <= b <= 22) by (unfold b; destruct (Z.ltb_spec 0 i); lia).
  assert (Hb2 : i = 0 /\ b = 3 \/ 0 < i /\ b = i + 2).
  { unfold b; destruct (Z.ltb_spec 0 i); lia. }
  rewrite !shiftl_mul, !Z.mul_1_l by lia.
  assert (P1 : 2 ^ b <= 2 ^ 22) by (apply Z.pow_le_mono_r; lia).
  assert (P0 : 2 ^ 3 <= 2 ^ b) by (apply Z.pow_le_mono_r; lia).
  unfold assert. rewrite fits_int_true by (unfold INT_MIN, INT_MAX; lia). cbn [rbind].
  rewrite (u32_id (v + 3 * 2 ^ b)) by lia.
  replace (n + 1 <=? v + 3 * 2 ^ b) with (n <? v + 3 * 2 ^ b) by lia.
  apply sim_if; auto; intros Hc.
  - assert (1 < n - v + 1 <= 2 ^ 20 + 1) by lia.
    rewrite (u32_id (n - v)) by lia. rewrite u32_id by lia.
    replace (n + 1 - v) with (n - v + 1) by lia.
    eapply sim_bind with (N1 := 32); [apply sim_ns; lia| |lia].
    intros x ? (<- & Hx). apply sim_ret; [lia|]. rewrite u32_id by lia. lia.
  - eapply sim_bind with (N1 := 1); [apply sim_f1; lia| |lia].
    intros t ? (<- & Ht).
    apply sim_if.
    + destruct (Z.eqb_spec t 0), (Z.eqb_spec t 1); auto; lia.
    + intros. rewrite u32_id by lia. 
      assert (v + 2 ^ b = 2 ^ (i + 1 + 2)).
      { destruct Hb2 as [(E1 & E2)|(E1 & E2)].
        - subst i. rewrite (Hi0 eq_refl), E2. reflexivity.
        - rewrite (Hi1 E1), E2. replace (i + 1 + 2) with (Z.succ (i + 2)) by lia.
          rewrite Z.pow_succ_r by lia. lia. }
      assert (i + 1 <= 20).
      { assert (2 ^ (i + 1 + 2) < 2 ^ 21) by lia.
        apply Z.pow_lt_mono_r_iff in H1; lia. }
      apply IHfuel; lia.
    + intros. eapply sim_bind with (N1 := b); [apply sim_f; lia| |lia].
      intros x ? (<- & Hx). apply sim_ret; [lia|]. rewrite u32_id by lia. lia.
Qed.

(** decode_signed_subexp_with_ref(-2^n, 2^n + 1, r). *)
Lemma sim_subexp : forall N r n, 3 <= n <= 18 -> - 2 ^ n <= r <= 2 ^ n -> 96 <= N ->
  sim N (get_bits_subexp r n) (decode_signed_subexp_with_ref (- 2 ^ n) (2 ^ n + 1) r)
    (fun x y => x = y /\ - 2 ^ n <= x <= 2 ^ n).
Proof.
  intros N r n Hn Hr HN. unfold get_bits_subexp, decode_signed_subexp_with_ref.
  unfold get_bits_subexp_u, decode_unsigned_subexp_with_ref, decode_subexp.
  assert (Pn : 2 ^ n <= 2 ^ 18) by (apply Z.pow_le_mono_r; lia).
  assert (Pn3 : 2 ^ 3 <= 2 ^ n) by (apply Z.pow_le_mono_r; lia).
  rewrite !shiftl_mul, !Z.mul_1_l by lia.
  rewrite (u32_id (r + 2 ^ n)) by lia. rewrite (u32_id (2 * 2 ^ n)) by lia.
  set (M := 2 ^ n) in *. clearbody M.
  apply rbind_assoc_sim. apply sbind_assoc_sim.
  replace (M + 1 - - M) with (2 * M + 1) by lia.
  replace (r - - M) with (r + M) by lia.
  eapply sim_bind with (N1 := 96); [apply sim_subexp_loop; lia| |lia].
  intros v ? (<- & Hv). apply sim_bind_ret_l. apply sim_bind_ret_r. apply sim_ret; [lia|].
  rewrite (u32_id ((r + M) * 2)) by lia.
  replace ((r + M) * 2 <=? 2 * M) with (2 * (r + M) <=? 2 * M + 1) by lia.
  destruct (Z.leb_spec (2 * (r + M)) (2 * M + 1)).
  - destruct (inv_recenter_spec (r + M) v ltac:(lia) ltac:(lia)) as (-> & P).
    assert (inverse_recenter (r + M) v <= 2 * M).
    { unfold inverse_recenter. destruct (_ <? _); [lia|]. destruct (_ =? _); lia. }
    rewrite s32_id by lia. lia.
  - rewrite (u32_id (2 * M - (r + M))) by lia.
    destruct (inv_recenter_spec (2 * M - (r + M)) v ltac:(lia) ltac:(lia)) as (-> & P).
    replace (2 * M + 1 - 1 - (r + M)) with (2 * M - (r + M)) by lia.
    assert (inverse_recenter (2 * M - (r + M)) v <= 2 * M).
    { unfold inverse_recenter. destruct (_ <? _); [lia|]. destruct (_ =? _); lia. }
    rewrite u32_id by lia. rewrite s32_id by lia. lia.
Qed.

(** * leb128 *)
Lemma uleb_loop_ok : forall fuel rem i value s a,
  stream_ok s -> apos_ok s a -> a_pos a + 8 * Z.of_nat rem <= st_len s + 2 ^ 31 ->
  0 <= i -> i + Z.of_nat rem = 8 -> (rem < fuel)%nat -> (0 < rem)%nat -> 0 <= value < 2 ^ (7 * i) ->
  match srun (leb128_loop rem i value) (st_bit s) (a_pos a) with
  | (Some (v, _), pos') => 0 <= v < 2 ^ 56 /\ a_pos a <= pos' <= a_pos a + 8 * Z.of_nat rem /\
      aexec (uleb_loop fuel value (7 * i)) s a =
        Ok (inl (v, 0), {| a_pos := pos'; a_err := a_err a || (st_len s <? pos') |})
  | (None, pos') => a_pos a <= pos' <= a_pos a + 8 * Z.of_nat rem /\
      exists v, aexec (uleb_loop fuel value (7 * i)) s a =
        Ok (inl (v, 128), {| a_pos := pos'; a_err := a_err a || (st_len s <? pos') |})
  end.
Proof.
  induction fuel; intros rem i value s a Hs Ha Hb Hi Hir Hfu Hrem Hval; [lia|].
  destruct rem as [|rem]; [lia|].
  cbn [leb128_loop uleb_loop f sbind srun].
  unfold bits. cbn [rbind aexec Z.ltb Z.leb Z.compare Pos.compare Pos.compare_cont andb].
  unfold a_read. replace (a_pos a + 8 <=? st_len s + 2 ^ 31) with true by lia. cbn [obind].
  pose proof (f_n_range (st_bit s) (proj1 Hs) (a_pos a) 8 ltac:(lia)) as R.
  set (v := f_n (st_bit s) (a_pos a) 8) in *.
  pose proof (apos_ok_read s a 8 ltac:(lia) Ha) as Ha'.
  set (a' := {| a_pos := a_pos a + 8; a_err := a_err a || (st_len s <? a_pos a + 8) |}) in *.
  assert (L128 : Z.land v 128 = if v <? 128 then 0 else 128).
  { change 128 with (2 ^ (8 - 1)) at 1.
    pose proof (land_pow2_test v 8 ltac:(lia) R) as T. change (8 - 1) with 7 in *.
    assert (L : Z.land v (2 ^ 7) = 0 \/ Z.land v (2 ^ 7) = 128).
    { destruct (Z.testbit v 7) eqn:TB.
      - right. apply Z.bits_inj'. intros j Hj. change 128 with (2 ^ 7).
        rewrite Z.land_spec, Z.pow2_bits_eqb by lia. destruct (Z.eqb_spec 7 j); [subst; rewrite TB; auto|apply andb_false_r].
      - left. apply Z.bits_inj'. intros j Hj.
        rewrite Z.land_spec, Z.pow2_bits_eqb, Z.bits_0 by lia. destruct (Z.eqb_spec 7 j); [subst; rewrite TB; auto|apply andb_false_r]. }
    change (2 ^ 7) with 128 in *. destruct (Z.ltb_spec v 128); lia. }
  assert (L127 : Z.land v 127 = v mod 128) by (apply (land_ones_mod v 7); lia).
  rewrite L128, L127.
  assert (Pi : 0 < 2 ^ (7 * i)) by (apply pow2_pos; lia).
  assert (Pi7 : 2 ^ (7 * (i + 1)) = 128 * 2 ^ (7 * i)).
  { replace (7 * (i + 1)) with (7 + 7 * i) by lia. rewrite Z.pow_add_r by lia. reflexivity. }
  assert (P56 : 2 ^ (7 * (i + 1)) <= 2 ^ 56) by (apply Z.pow_le_mono_r; lia).
  assert (E56 : 2 ^ 56 < 2 ^ 64) by reflexivity.
  assert (NV : Z.lor value (u64 (Z.shiftl (v mod 128) (7 * i))) = value + v mod 128 * 2 ^ (i * 7)).
  { rewrite shiftl_mul by lia. rewrite u64_id by nia.
    rewrite Z.lor_comm, lor_shift_add by lia. rewrite (Z.mul_comm i 7). lia. }
  rewrite NV. rewrite (Z.mul_comm i 7) in *.
  set (value' := value + v mod 128 * 2 ^ (7 * i)) in *.
  assert (Hval' : 0 <= value' < 2 ^ (7 * (i + 1))).
  { unfold value'. rewrite Pi7. nia. }
  destruct (Z.ltb_spec v 128); cbn [z2b Z.eqb negb andb aexec srun].
  - split; [lia|]. split; [lia|]. reflexivity.
  - destruct (Z.ltb_spec (7 * i + 7) 56).
    + replace (7 * i + 7) with (7 * (i + 1)) by lia.
      assert (Hb' : a_pos a' + 8 * Z.of_nat rem <= st_len s + 2 ^ 31) by (unfold a'; cbn [a_pos]; lia).
      specialize (IHfuel rem (i + 1) value' s a' Hs Ha' Hb' ltac:(lia) ltac:(lia) ltac:(lia) ltac:(lia) Hval').
      change (a_pos a') with (a_pos a + 8) in IHfuel.
      assert (EQ : forall p'', a_pos a + 8 <= p'' -> a_err a' || (st_len s <? p'') = a_err a || (st_len s <? p'')).
      { intros. unfold a'; cbn [a_err]. destruct (a_err a); simpl; auto.
        destruct (Z.ltb_spec (st_len s) (a_pos a + 8)); simpl; auto. symmetry. apply Z.ltb_lt. lia. }
      destruct (srun (leb128_loop rem (i + 1) value') (st_bit s) (a_pos a + 8)) as [[[w j]|] pos'].
      * destruct IHfuel as (B1 & B2 & B3). rewrite EQ in B3 by lia. split; [lia|]. split; [lia|auto].
      * destruct IHfuel as (B2 & w & B3). rewrite EQ in B3 by lia. split; [lia|]. exists w. auto.
    + assert (rem = 0)%nat by lia. subst rem. cbn [leb128_loop srun].
      split; [lia|]. exists value'. reflexivity.
Qed.

(** dav1d_get_uleb128 returns leb128(); a value above 2^32-1 or a ninth byte
    raises the reader's error flag. *)
Lemma uleb128_ok : forall s a, stream_ok s -> apos_ok s a -> a_pos a + 64 <= st_len s + 2 ^ 31 ->
  match srun leb128 (st_bit s) (a_pos a) with
  | (Some v, pos') => 0 <= v < 2 ^ 32 /\ a_pos a < pos' <= a_pos a + 64 /\
      aexec get_uleb128 s a = Ok (inl v, {| a_pos := pos'; a_err := a_err a || (st_len s <? pos') |})
  | (None, pos') => a_pos a < pos' <= a_pos a + 64 /\
      aexec get_uleb128 s a = Ok (inl 0, {| a_pos := pos'; a_err := true |})
  end.
Proof.
  intros s a Hs Ha Hb. unfold leb128, get_uleb128. rewrite srun_bind, aexec_bind.
  pose proof (uleb_loop_ok 9 8 0 0 s a Hs Ha Hb ltac:(lia) ltac:(lia) ltac:(lia) ltac:(lia) ltac:(simpl; lia)) as L.
  change (7 * 0) with 0 in L.
  assert (Prog : a_pos a < snd (srun (leb128_loop 8 0 0) (st_bit s) (a_pos a))).
  { assert (G : forall rem i val p, p <= snd (srun (leb128_loop rem i val) (st_bit s) p)).
    { induction rem; intros; cbn [leb128_loop f sbind srun]; [simpl; lia|].
      destruct (_ <? 128); [simpl; lia|].
      specialize (IHrem (i + 1) (val + f_n (st_bit s) p 8 mod 128 * 2 ^ (i * 7)) (p + 8)). lia. }
    assert (G2 : forall rem i val p, p < snd (srun (leb128_loop (S rem) i val) (st_bit s) p)).
    { intros. cbn [leb128_loop f sbind srun].
      destruct (_ <? 128); [simpl; lia|].
      specialize (G rem (i + 1) (val + f_n (st_bit s) p 8 mod 128 * 2 ^ (i * 7)) (p + 8)). lia. }
    apply G2. }
  destruct (srun (leb128_loop 8 0 0) (st_bit s) (a_pos a)) as [[[v j]|] pos']; cbn [snd] in Prog.
  - destruct L as (L1 & L2 & L3). rewrite L3.
    unfold require, UINT_MAX. rewrite srun_bind.
    destruct (Z.leb_spec v (2 ^ 32 - 1)); cbn [srun].
    + replace (4294967295 <? v) with false by lia. cbn [z2b Z.eqb negb orb aexec].
      rewrite u32_id by lia. split; [lia|]. split; [lia|]. reflexivity.
    + replace (4294967295 <? v) with true by lia. cbn. split; [lia|]. reflexivity.
  - destruct L as (L2 & v & L3). rewrite L3. cbn [z2b Z.eqb negb].
    rewrite orb_true_r. cbn. split; [lia|]. reflexivity.
Qed.

(** * Encoders and round trips *)

(** [l] occurs in the stream at position [pos]. *)
Definition bits_at (b : Z -> Z) (pos : Z) (l : list Z) : Prop :=
  forall i, 0 <= i < zlen l -> b (pos + i) = nth (Z.to_nat i) l 0.

(** [n]-bit big-endian encoding of [v]. *)
Fixpoint enc_f (n : nat) (v : Z) : list Z :=
  match n with
  | O => []
  | S m => enc_f m (v / 2) ++ [v mod 2]
  end.

Lemma zlen_app : forall A (l1 l2 : list A), zlen (l1 ++ l2) = zlen l1 + zlen l2.
Proof. intros. unfold zlen. rewrite app_length. lia. Qed.

Lemma bits_at_app : forall b pos l1 l2, bits_at b pos (l1 ++ l2) <->
  bits_at b pos l1 /\ bits_at b (pos + zlen l1) l2.
Proof.
  intros. unfold bits_at. rewrite zlen_app. split.
  - intros H. split; intros i Hi.
    + rewrite H by (unfold zlen in *; lia). apply app_nth1. unfold zlen in *. lia.
    + specialize (H (zlen l1 + i) ltac:(unfold zlen in *; lia)). rewrite Z.add_assoc in H. rewrite H.
      rewrite app_nth2 by (unfold zlen; lia). f_equal. unfold zlen. lia.
  - intros (H1 & H2) i Hi. destruct (Z.ltb_spec i (zlen l1)).
    + rewrite app_nth1 by (unfold zlen in *; lia). apply H1. lia.
    + rewrite app_nth2 by (unfold zlen in *; lia).
      specialize (H2 (i - zlen l1) ltac:(lia)).
      replace (pos + zlen l1 + (i - zlen l1)) with (pos + i) in H2 by lia. rewrite H2.
      f_equal. unfold zlen in *. lia.
Qed.

Lemma enc_f_len : forall n v, zlen (enc_f n v) = Z.of_nat n.
Proof. induction n; intros; simpl; [reflexivity|]. rewrite zlen_app, IHn. unfold zlen; simpl. lia. Qed.

Lemma enc_f_val : forall b n v pos, 0 <= v < 2 ^ Z.of_nat n -> bits_at b pos (enc_f n v) ->
  bitsval b pos n = v.
Proof.
  intros b. induction n; intros v pos Hv H; simpl in *.
  - change (2 ^ Z.of_nat 0) with 1 in Hv. lia.
  - apply bits_at_app in H. destruct H as (H1 & H2). rewrite enc_f_len in H2.
    replace (Z.of_nat (S n)) with (Z.succ (Z.of_nat n)) in Hv by lia.
    rewrite Z.pow_succ_r in Hv by lia.
    rewrite (IHn (v / 2)) by (auto; lia).
    specialize (H2 0 ltac:(unfold zlen; simpl; lia)). rewrite Z.add_0_r in H2. rewrite H2.
    simpl. lia.
Qed.

Lemma enc_f_fn : forall b n v pos, 0 <= n -> 0 <= v < 2 ^ n -> bits_at b pos (enc_f (Z.to_nat n) v) ->
  f_n b pos n = v.
Proof. intros. unfold f_n. apply enc_f_val; auto. rewrite Z2Nat.id; lia. Qed.

(** leb128 encoder producing [w] bytes. *)
Fixpoint enc_leb (w : nat) (v : Z) : list Z :=
  match w with
  | O => []
  | S O => enc_f 8 (v mod 128)
  | S w' => enc_f 8 (128 + v mod 128) ++ enc_leb w' (v / 128)
  end.

Lemma leb_roundtrip_loop : forall b w rem i acc v pos, (0 < w <= rem)%nat -> 0 <= i ->
  0 <= v < 2 ^ (7 * Z.of_nat w) -> bits_at b pos (enc_leb w v) ->
  srun (leb128_loop rem i acc) b pos = (Some (acc + v * 2 ^ (7 * i), i + Z.of_nat w), pos + 8 * Z.of_nat w).
Proof.
  intros b. induction w; intros rem i acc v pos Hw Hi Hv H; [lia|].
  destruct rem as [|rem]; [lia|]. cbn [leb128_loop f sbind srun].
  assert (Hm : 0 <= v mod 128 < 128) by (apply Z.mod_pos_bound; lia).
  destruct w as [|w].
  - simpl enc_leb in H. rewrite (enc_f_fn b 8 (v mod 128)) by (auto; try lia; change (2^8) with 256; lia).
    rewrite Z.mod_mod by lia. replace (v mod 128 <? 128) with true by lia. cbn [srun].
    change (7 * Z.of_nat 1) with 7 in Hv. change (2 ^ 7) with 128 in Hv.
    rewrite (Z.mod_small v) by lia. rewrite (Z.mul_comm i 7). do 2 f_equal.
  - change (enc_leb (S (S w)) v) with (enc_f 8 (128 + v mod 128) ++ enc_leb (S w) (v / 128)) in H.
    apply bits_at_app in H. destruct H as (H1 & H2). rewrite enc_f_len in H2.
    rewrite (enc_f_fn b 8 (128 + v mod 128)) by (auto; try lia; change (2^8) with 256; lia).
    replace (128 + v mod 128 <? 128) with false by lia.
    rewrite (IHw rem (i + 1) _ (v / 128)); try lia.
    + f_equal; [|lia]. f_equal. f_equal; [|lia].
      replace (7 * (i + 1)) with (7 + 7 * i) by lia. rewrite Z.pow_add_r by lia.
      rewrite (Z.mul_comm i 7). change (2 ^ 7) with 128.
      replace ((128 + v mod 128) mod 128) with (v mod 128).
      2: { rewrite <- (Z.mul_1_l 128) at 2. rewrite Z.add_comm, Z.mod_add by lia. rewrite Z.mod_mod; lia. }
      rewrite (Z.div_mod v 128) at 3 by lia. ring.
    + replace (7 * Z.of_nat (S (S w))) with (7 + 7 * Z.of_nat (S w)) in Hv by lia.
      rewrite Z.pow_add_r in Hv by lia. change (2 ^ 7) with 128 in Hv.
      set (P := 2 ^ (7 * Z.of_nat (S w))) in *. clearbody P. split; [lia|].
      apply Z.div_lt_upper_bound; lia.
    + exact H2.
Qed.

Lemma leb_roundtrip : forall b w v pos, (1 <= w <= 8)%nat -> 0 <= v < 2 ^ (7 * Z.of_nat w) -> v < 2 ^ 32 ->
  bits_at b pos (enc_leb w v) -> srun leb128 b pos = (Some v, pos + 8 * Z.of_nat w).
Proof.
  intros. unfold leb128. rewrite srun_bind.
  rewrite (leb_roundtrip_loop b w 8 0 0 v) by (auto; lia).
  rewrite srun_bind. unfold require. change (2 ^ (7 * 0)) with 1. 
  replace (0 + v * 1 <=? 2 ^ 32 - 1) with true by lia. cbn. f_equal. f_equal. lia.
Qed.

(** ns(n) encoder. *)
Definition enc_ns (n v : Z) : list Z :=
  let w := Z.log2 n in
  let m := 2 ^ (w + 1) - n in
  if v <? m then enc_f (Z.to_nat w) v
  else enc_f (Z.to_nat w) ((v + m) / 2) ++ [(v + m) mod 2].

Lemma ns_roundtrip : forall b n v pos, 1 < n -> 0 <= v < n -> bits_at b pos (enc_ns n v) ->
  srun (ns n) b pos = (Some v, pos + zlen (enc_ns n v)).
Proof.
  intros b n v pos Hn Hv H. unfold ns, enc_ns in *.
  pose proof (log2_bounds n Hn) as (L0 & L1).
  set (w := Z.log2 n) in *.
  assert (Pw : 2 ^ (w + 1) = 2 * 2 ^ w) by (rewrite Z.add_1_r; apply Z.pow_succ_r; lia).
  replace (w + 1 - 1) with w by lia. cbn [f sbind srun]. rewrite Pw in *.
  set (m := 2 * 2 ^ w - n) in *. clearbody w.
  destruct (Z.ltb_spec v m) as [C|C].
  - rewrite (enc_f_fn b w v) by (auto; lia).
    replace (v <? m) with true by lia. cbn [srun]. rewrite enc_f_len. do 2 f_equal. lia.
  - apply bits_at_app in H. destruct H as (H1 & H2). rewrite enc_f_len in H2.
    rewrite (enc_f_fn b w ((v + m) / 2)) by (auto; lia).
    replace ((v + m) / 2 <? m) with false by lia. cbn [srun].
    rewrite f_n_1. specialize (H2 0 ltac:(unfold zlen; simpl; lia)).
    replace (pos + Z.of_nat (Z.to_nat w) + 0) with (pos + w) in H2 by lia. rewrite H2.
    simpl nth. rewrite zlen_app, enc_f_len. unfold zlen; simpl length.
    f_equal; [f_equal; lia|lia].
Qed.

(** uvlc encoder. *)
Definition enc_uvlc (v : Z) : list Z :=
  let k := Z.log2 (v + 1) in
  repeat 0 (Z.to_nat k) ++ [1] ++ enc_f (Z.to_nat k) (v + 1 - 2 ^ k).

Lemma uvlc_zeros_run : forall b fuel k pos z, (Z.to_nat k < fuel)%nat -> 0 <= k ->
  (forall i, 0 <= i < k -> b (pos + i) = 0) -> b (pos + k) = 1 ->
  srun (uvlc_zeros fuel z) b pos = (Some (z + k), pos + k + 1).
Proof.
  intros b. induction fuel; intros k pos z Hf Hk H0 H1; [lia|].
  cbn [uvlc_zeros f sbind srun]. rewrite f_n_1.
  destruct (Z.eq_dec k 0) as [->|].
  - rewrite Z.add_0_r in H1. rewrite H1. simpl. do 2 f_equal; lia.
  - specialize (H0 0 ltac:(lia)) as H00. rewrite Z.add_0_r in H00. rewrite H00. simpl.
    rewrite (IHfuel (k - 1)); try lia.
    + do 2 f_equal; lia.
    + intros. replace (pos + 1 + i) with (pos + (i + 1)) by lia. apply H0. lia.
    + replace (pos + 1 + (k - 1)) with (pos + k) by lia. auto.
Qed.

Lemma uvlc_roundtrip : forall b v pos, 0 <= v < 2 ^ 32 - 1 -> bits_at b pos (enc_uvlc v) ->
  srun uvlc b pos = (Some v, pos + zlen (enc_uvlc v)).
Proof.
  intros b v pos Hv H. unfold uvlc, enc_uvlc in *. rewrite srun_bind.
  set (k := Z.log2 (v + 1)) in *.
  assert (K : 0 <= k < 32) by (split; [apply Z.log2_nonneg|apply Z.log2_lt_pow2; lia]).
  pose proof (Z.log2_spec (v + 1) ltac:(lia)) as LS. fold k in LS.
  rewrite Z.pow_succ_r in LS by lia.
  apply bits_at_app in H. destruct H as (H1 & H2).
  apply bits_at_app in H2. destruct H2 as (H2 & H3).
  assert (RL : zlen (repeat 0 (Z.to_nat k)) = k) by (unfold zlen; rewrite repeat_length; lia).
  rewrite RL in *.
  rewrite (uvlc_zeros_run b 32 k pos 0); try lia.
  - rewrite Z.add_0_l. replace (32 <=? k) with false by lia. rewrite srun_bind.
    rewrite !zlen_app, RL, enc_f_len. change (zlen [1]) with 1 in *.
    destruct (Z.eqb_spec k 0) as [K0|K0].
    + cbn [srun]. rewrite K0 in *. change (2 ^ 0) with 1 in *. f_equal; [f_equal; lia|lia].
    + cbn [f srun]. rewrite (enc_f_fn b k (v + 1 - 2 ^ k)); try lia.
      * f_equal; [f_equal; lia|lia].
      * replace (pos + k + 1) with (pos + k + zlen [1]) by reflexivity. auto.
  - intros. rewrite H1 by lia.
    assert (In (nth (Z.to_nat i) (repeat 0 (Z.to_nat k)) 0) (repeat 0 (Z.to_nat k))).
    { apply nth_In. rewrite repeat_length. lia. }
    apply repeat_spec in H0. auto.
  - specialize (H2 0 ltac:(unfold zlen; simpl; lia)). rewrite Z.add_0_r in H2. rewrite H2. reflexivity.
Qed.

(** Signed subexponential encoder. *)
Definition recenter (r x : Z) : Z :=
  if 2 * r <? x then x else if r <=? x then 2 * (x - r) else 2 * (r - x) - 1.

Lemma recenter_inv : forall r x, 0 <= r -> 0 <= x ->
  inverse_recenter r (recenter r x) = x /\ 0 <= recenter r x.
Proof.
  intros. unfold recenter, inverse_recenter.
  destruct (Z.ltb_spec (2 * r) x).
  - replace (2 * r <? x) with true by lia. lia.
  - destruct (Z.leb_spec r x).
    + replace (2 * r <? 2 * (x - r)) with false by lia.
      replace ((2 * (x - r)) mod 2 =? 1) with false by lia. lia.
    + replace (2 * r <? 2 * (r - x) - 1) with false by lia.
      replace ((2 * (r - x) - 1) mod 2 =? 1) with true by lia. lia.
Qed.

Fixpoint enc_subexp_loop (fuel : nat) (i mk numSyms v : Z) : list Z :=
  match fuel with
  | O => []
  | S fuel =>
    let b2 := if 0 <? i then 3 + i - 1 else 3 in
    let a := 2 ^ b2 in
    if numSyms <=? mk + 3 * a then enc_ns (numSyms - mk) (v - mk)
    else if mk + a <=? v then 1 :: enc_subexp_loop fuel (i + 1) (mk + a) numSyms v
    else 0 :: enc_f (Z.to_nat b2) (v - mk)
  end.
Definition enc_signed_subexp (low high r x : Z) : list Z :=
  let mx := high - low in
  let r := r - low in
  let x := x - low in
  let v := if 2 * r <=? mx then recenter r x else recenter (mx - 1 - r) (mx - 1 - x) in
  enc_subexp_loop 32 0 0 mx v.

Lemma bits_at_cons : forall b pos x l, bits_at b pos (x :: l) -> b pos = x /\ bits_at b (pos + 1) l.
Proof.
  intros. change (x :: l) with ([x] ++ l) in H. apply bits_at_app in H. destruct H as (H1 & H2).
  split; [|exact H2]. specialize (H1 0 ltac:(unfold zlen; simpl; lia)). rewrite Z.add_0_r in H1. auto.
Qed.

Lemma subexp_roundtrip_loop : forall b fuel i mk numSyms v pos,
  0 <= i -> 0 <= mk <= v -> v < numSyms -> mk + 1 < numSyms ->
  numSyms < 2 ^ (i + Z.of_nat fuel) -> (0 < fuel)%nat ->
  bits_at b pos (enc_subexp_loop fuel i mk numSyms v) ->
  srun (decode_subexp_loop fuel i mk numSyms) b pos =
    (Some v, pos + zlen (enc_subexp_loop fuel i mk numSyms v)).
Proof.
  intros b. induction fuel; intros i mk numSyms v pos Hi Hmk Hv Hn Hf Hfu H; [lia|].
  cbn [decode_subexp_loop enc_subexp_loop] in *.
  set (b2 := if 0 <? i then 3 + i - 1 else 3) in *.
  assert (Hb2 : i + 2 <= b2 /\ 3 <= b2) by (unfold b2; destruct (Z.ltb_spec 0 i); lia).
  assert (P2 : 2 ^ 3 <= 2 ^ b2) by (apply Z.pow_le_mono_r; lia). change (2 ^ 3) with 8 in P2.
  destruct (Z.leb_spec numSyms (mk + 3 * 2 ^ b2)).
  - rewrite srun_bind. rewrite (ns_roundtrip b (numSyms - mk) (v - mk)) by (auto; lia).
    cbn [srun]. f_equal. f_equal. lia.
  - destruct (Z.leb_spec (mk + 2 ^ b2) v).
    + apply bits_at_cons in H. destruct H as (HA & HB). cbn [f sbind srun]. rewrite f_n_1, HA.
      cbn [Z.eqb Pos.eqb].
      assert (0 < fuel)%nat.
      { destruct fuel; [|lia]. exfalso.
        assert (2 ^ (i + Z.of_nat 1) <= 2 ^ b2) by (apply Z.pow_le_mono_r; lia). lia. }
      rewrite (IHfuel (i + 1) (mk + 2 ^ b2) numSyms v); try lia; auto.
      * f_equal. unfold zlen. simpl length. lia.
      * replace (i + 1 + Z.of_nat fuel) with (i + Z.of_nat (S fuel)) by lia. auto.
    + apply bits_at_cons in H. destruct H as (HA & HB). cbn [f sbind srun]. rewrite f_n_1, HA.
      cbn [Z.eqb Pos.eqb sbind srun]. rewrite (enc_f_fn b b2 (v - mk)) by (auto; lia).
      f_equal; [f_equal; lia|]. 
      change (0 :: enc_f (Z.to_nat b2) (v - mk)) with ([0] ++ enc_f (Z.to_nat b2) (v - mk)).
      rewrite zlen_app, enc_f_len. change (zlen [0]) with 1. lia.
Qed.

Lemma subexp_roundtrip : forall b low high r x pos,
  low + 1 < high <= low + 2 ^ 31 -> low <= r < high -> low <= x < high ->
  bits_at b pos (enc_signed_subexp low high r x) ->
  srun (decode_signed_subexp_with_ref low high r) b pos =
    (Some x, pos + zlen (enc_signed_subexp low high r x)).
Proof.
  intros b low high r x pos Hlh Hr Hx H.
  unfold decode_signed_subexp_with_ref, decode_unsigned_subexp_with_ref, enc_signed_subexp in *.
  rewrite !srun_bind. unfold decode_subexp.
  set (mx := high - low) in *.
  set (v := if 2 * (r - low) <=? mx then recenter (r - low) (x - low)
            else recenter (mx - 1 - (r - low)) (mx - 1 - (x - low))) in *.
  assert (Hv : 0 <= v < mx).
  { unfold v, recenter. destruct (Z.leb_spec (2 * (r - low)) mx).
    - destruct (Z.ltb_spec (2 * (r - low)) (x - low)); [lia|]. destruct (Z.leb_spec (r - low) (x - low)); lia.
    - destruct (Z.ltb_spec (2 * (mx - 1 - (r - low))) (mx - 1 - (x - low))); [lia|].
      destruct (Z.leb_spec (mx - 1 - (r - low)) (mx - 1 - (x - low))); lia. }
  rewrite (subexp_roundtrip_loop b 32 0 0 mx v); try lia; auto.
  cbn [srun]. do 2 f_equal. unfold v. destruct (Z.leb_spec (2 * (r - low)) mx).
  - destruct (recenter_inv (r - low) (x - low) ltac:(lia) ltac:(lia)) as (-> & _). lia.
  - destruct (recenter_inv (mx - 1 - (r - low)) (mx - 1 - (x - low)) ltac:(lia) ltac:(lia)) as (-> & _). lia.
Qed.

(** Arithmetic of film grain synthesis. *)
From Coq Require Import ZArith List Bool Lia.
From Verif Require Import Base.CInt Base.Lemmas Base.Loop Grain.Table Grain.Model Grain.Spec.
Import ListNotations.
Open Scope Z_scope.

Definition bdok (bd : Z) : Prop := bd = 8 \/ bd = 10 \/ bd = 12.

Lemma lxor_mod2 : forall a b, (Z.lxor a b) mod 2 = (a + b) mod 2.
Proof.
  intros a b. rewrite <- !Z.bit0_mod. rewrite Z.lxor_spec, Z.add_bit0. reflexivity.
Qed.
Lemma land1_mod : forall a, Z.land a 1 = a mod 2.
Proof. intros a. change 1 with (Z.ones 1). rewrite Z.land_ones by lia. reflexivity. Qed.
Lemma land255_mod : forall a, Z.land a 255 = a mod 256.
Proof. intros a. change 255 with (Z.ones 8). rewrite Z.land_ones by lia. reflexivity. Qed.
Lemma land15_mod : forall a, Z.land a 15 = a mod 16.
Proof. intros a. change 15 with (Z.ones 4). rewrite Z.land_ones by lia. reflexivity. Qed.
Lemma lxor_range : forall n a b, 0 <= n -> 0 <= a < 2 ^ n -> 0 <= b < 2 ^ n -> 0 <= Z.lxor a b < 2 ^ n.
Proof.
  intros n a b Hn Ha Hb. split; [apply Z.lxor_nonneg; lia|].
  assert (E : Z.lxor a b = Z.lxor a b mod 2 ^ n).
  { apply Z.bits_inj'. intros i Hi. destruct (Z.ltb_spec i n).
    - rewrite Z.mod_pow2_bits_low by lia. reflexivity.
    - rewrite Z.mod_pow2_bits_high by lia. rewrite Z.lxor_spec, !(testbit_small _ n) by lia. reflexivity. }
  rewrite E. apply Z.mod_pos_bound. apply pow2_pos; lia.
Qed.

Lemma rng_ok : forall bits r, bits = 8 \/ bits = 11 -> 0 <= r < 65536 ->
  get_random_number bits r = random_number bits r /\
  0 <= fst (random_number bits r) < 2 ^ bits /\ 0 <= snd (random_number bits r) < 65536.
Proof.
  intros bits r Hb Hr.
  assert (E : get_random_number bits r = random_number bits r).
  { unfold get_random_number, random_number. cbv zeta.
    assert (B : Z.land (Z.lxor (Z.lxor (Z.lxor (Z.shiftr r 0) (Z.shiftr r 1)) (Z.shiftr r 3)) (Z.shiftr r 12)) 1
                = (r + r / 2 + r / 8 + r / 4096) mod 2).
    { rewrite land1_mod, lxor_mod2. rewrite <- Z.add_mod_idemp_l by lia. rewrite lxor_mod2.
      rewrite <- (Z.add_mod_idemp_l (Z.lxor _ _)) by lia. rewrite lxor_mod2.
      rewrite (Z.add_mod_idemp_l _ (Z.shiftr r 3)) by lia. rewrite (Z.add_mod_idemp_l _ (Z.shiftr r 12)) by lia.
      rewrite Z.shiftr_0_r, !shiftr_div by lia. reflexivity. }
    rewrite B. set (bit := (r + r / 2 + r / 8 + r / 4096) mod 2).
    assert (0 <= bit < 2) by (apply Z.mod_pos_bound; lia).
    assert (S : Z.lor (Z.shiftr r 1) (Z.shiftl bit 15) = r / 2 + 32768 * bit).
    { rewrite Z.lor_comm, shiftl_mul, shiftr_div by lia. change (2 ^ 1) with 2. rewrite lor_shift_add by (change (2 ^ 15) with 32768; lia).
      change (2 ^ 15) with 32768. lia. }
    rewrite S. rewrite shiftr_div by lia. rewrite shiftl_mul by lia. rewrite Z.mul_1_l, land_ones_mod by lia. reflexivity. }
  split; [exact E|]. unfold random_number. cbv zeta. cbn [fst snd].
  split; [apply Z.mod_pos_bound; apply pow2_pos; lia|].
  pose proof (Z.mod_pos_bound (r + r / 2 + r / 8 + r / 4096) 2 ltac:(lia)) as HB.
  set (bit := (r + r / 2 + r / 8 + r / 4096) mod 2) in *. lia.
Qed.

Lemma round2_ok : forall x n, 0 <= n -> round2 x n = Round2 x n.
Proof.
  intros x n Hn. unfold round2, Round2. rewrite !shiftr_div, shiftl_mul by lia. destruct (Z.eqb_spec n 0) as [->|].
  - change ((1 * 2 ^ 0) / 2 ^ 1) with 0. change (2 ^ 0) with 1. rewrite Z.div_1_r. lia.
  - replace ((1 * 2 ^ n) / 2 ^ 1) with (2 ^ (n - 1)); [reflexivity|].
    replace n with (n - 1 + 1) at 2 by lia. rewrite Z.pow_add_r by lia. rewrite Z.mul_1_l. symmetry. apply Z.div_mul. lia.
Qed.
Lemma Round2_bound : forall x n a b, 0 <= n -> a * 2 ^ n <= x <= b * 2 ^ n -> a <= Round2 x n <= b.
Proof.
  intros x n a b Hn H. unfold Round2. destruct (Z.eqb_spec n 0) as [->|]; [change (2 ^ 0) with 1 in H; lia|].
  assert (P : 2 ^ n = 2 * 2 ^ (n - 1)). { replace n with (n - 1 + 1) at 1 by lia. rewrite Z.pow_add_r by lia. change (2 ^ 1) with 2. lia. }
  pose proof (pow2_pos (n - 1) ltac:(lia)).
  split.
  - apply Z.div_le_lower_bound; lia.
  - apply Z.lt_succ_r. apply Z.div_lt_upper_bound; [lia|]. nia.
Qed.

Lemma iclip_Clip3 : forall x lo hi, iclip x lo hi = Clip3 lo hi x.
Proof. reflexivity. Qed.
Lemma Clip3_bound : forall lo hi x, lo <= hi -> lo <= Clip3 lo hi x <= hi.
Proof. intros lo hi x H. unfold Clip3. destruct (Z.ltb_spec x lo), (Z.ltb_spec hi x); lia. Qed.

(** Ranges of grain. *)
Definition gr (bd v : Z) : Prop := - grain_ctr bd <= v <= grain_ctr bd - 1.
Lemma ctr_cases : forall bd, bdok bd -> (bd = 8 /\ grain_ctr bd = 128) \/ (bd = 10 /\ grain_ctr bd = 512) \/ (bd = 12 /\ grain_ctr bd = 2048).
Proof. intros bd [->|[->| ->]]; auto. Qed.
Lemma GrainMin_ctr : forall v, 8 <= BitDepth v -> GrainMin v = - grain_ctr (BitDepth v).
Proof. intros v H. unfold GrainMin, GrainCenter, grain_ctr. rewrite shiftl_mul by lia. reflexivity. Qed.
Lemma GrainMax_ctr : forall v, 8 <= BitDepth v -> GrainMax v = grain_ctr (BitDepth v) - 1.
Proof. intros v H. unfold GrainMax, GrainCenter, grain_ctr. rewrite shiftl_mul by lia. lia. Qed.
Lemma bdok_8 : forall bd, bdok bd -> 8 <= bd.
Proof. intros bd [->|[->| ->]]; lia. Qed.
Lemma grain_clip_ok : forall v x, bdok (BitDepth v) -> grain_clip (BitDepth v) x = Clip3 (GrainMin v) (GrainMax v) x.
Proof.
  intros v x H. unfold grain_clip. rewrite iclip_Clip3, GrainMin_ctr, GrainMax_ctr by (apply bdok_8; exact H). reflexivity.
Qed.
Lemma grain_clip_gr : forall bd x, bdok bd -> gr bd (grain_clip bd x).
Proof.
  intros bd x H. unfold gr, grain_clip. rewrite iclip_Clip3. destruct (ctr_cases bd H) as [(_ & ->)|[(_ & ->)|(_ & ->)]]; apply Clip3_bound; lia.
Qed.
Lemma entry_gr : forall bd x, bdok bd -> gr bd x -> entry bd x = x.
Proof.
  intros bd x H G. unfold gr in G. unfold entry, s8, s16, sN.
  destruct (ctr_cases bd H) as [(-> & E)|[(-> & E)|(-> & E)]]; rewrite E in G; cbn [Z.eqb Pos.eqb].
  - change (2 ^ (8 - 1)) with 128. change (2 ^ 8) with 256. rewrite Z.mod_small by lia. lia.
  - change (2 ^ (16 - 1)) with 32768. change (2 ^ 16) with 65536. rewrite Z.mod_small by lia. lia.
  - change (2 ^ (16 - 1)) with 32768. change (2 ^ 16) with 65536. rewrite Z.mod_small by lia. lia.
Qed.

(** The table of Gaussian values. *)
Lemma gaussian_length : length gaussian_list = 2048%nat.
Proof. vm_compute. reflexivity. Qed.
Lemma gaussian_range : forallb (fun v => (-1752 <=? v) && (v <=? 1688)) gaussian_list = true.
Proof. vm_compute. reflexivity. Qed.
Lemma gaussian_at : forall k, 0 <= k < 2048 ->
  rd_at gaussian_list k = Ok (nth (Z.to_nat k) gaussian_list 0) /\ -1752 <= nth (Z.to_nat k) gaussian_list 0 <= 1688.
Proof.
  intros k Hk. assert (L : 0 <= k < zlen gaussian_list) by (unfold zlen; rewrite gaussian_length; lia).
  split; [apply rd_at_nth; exact L|].
  pose proof (proj1 (forallb_forall _ _) gaussian_range (nth (Z.to_nat k) gaussian_list 0)) as Q.
  specialize (Q ltac:(apply nth_In; unfold zlen in L; lia)). cbv beta in Q. lia.
Qed.
Lemma noise_gr : forall bd g gss, bdok bd -> 0 <= gss <= 3 -> -1752 <= g <= 1688 -> gr bd (Round2 g (12 - bd + gss)).
Proof.
  intros bd g gss H1 H2 H3. unfold gr.
  destruct (ctr_cases bd H1) as [(-> & E)|[(-> & E)|(-> & E)]]; rewrite E.
  - apply Round2_bound; [lia|]. assert (2 ^ 4 <= 2 ^ (12 - 8 + gss)) by (apply Z.pow_le_mono_r; lia). change (2 ^ 4) with 16 in *. lia.
  - apply Round2_bound; [lia|]. assert (2 ^ 2 <= 2 ^ (12 - 10 + gss)) by (apply Z.pow_le_mono_r; lia). change (2 ^ 2) with 4 in *. lia.
  - apply Round2_bound; [lia|]. assert (2 ^ 0 <= 2 ^ (12 - 12 + gss)) by (apply Z.pow_le_mono_r; lia). change (2 ^ 0) with 1 in *. lia.
Qed.

From Coq Require Import ZArith List Bool Lia.
From Verif Require Import Base.CInt Base.Lemmas Lib.Model.
Import ListNotations.
Open Scope Z_scope.

(** Rounding up to a multiple of 128. *)
Lemma align127 : forall x, 0 <= x -> exists k, Z.land (x + 127) (Z.lnot 127) = 128 * k /\ x <= 128 * k < x + 128.
Proof.
  intros x X. exists ((x + 127) / 128). change 127 with (Z.ones 7) at 2. rewrite <- Z.ldiff_land, Z.ldiff_ones_r by lia.
  rewrite shiftl_mul, shiftr_div by lia. change (2 ^ 7) with 128.
  pose proof (Z.div_mod (x + 127) 128 ltac:(lia)). pose proof (Z.mod_pos_bound (x + 127) 128 ltac:(lia)). lia.
Qed.

Lemma iclip_range : forall v lo hi, lo <= hi -> lo <= iclip v lo hi <= hi.
Proof. intros v lo hi H. unfold iclip. destruct (Z.ltb_spec v lo), (Z.ltb_spec hi v); lia. Qed.

(** The table is min(8, ceil(sqrt n)) on 1..49. *)
Lemma lut_ok : forall n, 1 <= n < 50 -> exists v, rd_at fc_lut (n - 1) = Ok v /\ (v - 1) * (v - 1) < n <= v * v /\ 1 <= v <= 7.
Proof.
  intros n N. rewrite (rd_at_nth _ _ _ 0) by (change (zlen fc_lut) with 49; lia).
  eexists. split; [reflexivity|].
  assert (A : forallb (fun k => let v := nth (Z.to_nat (Z.of_nat k + 1 - 1)) fc_lut 0 in
     ((v - 1) * (v - 1) <? Z.of_nat k + 1) && (Z.of_nat k + 1 <=? v * v) && (1 <=? v) && (v <=? 7)) (seq 0 49) = true) by reflexivity.
  rewrite forallb_forall in A. specialize (A (Z.to_nat (n - 1))).
  rewrite in_seq in A. specialize (A ltac:(lia)). cbv zeta in A. rewrite Z2Nat.id in A by lia.
  replace (n - 1 + 1) with n in A by lia.
  rewrite !andb_true_iff, !Z.ltb_lt, !Z.leb_le in A. lia.
Qed.
Lemma threads_ok : forall t d c, 0 <= t <= 256 -> 0 <= d <= 256 -> exists n_tc n_fc,
  get_num_threads t d c = Ok (n_tc, n_fc) /\ 1 <= n_tc <= 256 /\ 1 <= n_fc <= n_tc /\
  (t <> 0 -> n_tc = t) /\ (t = 0 -> n_tc = Z.max 1 (Z.min c 256)) /\
  (d <> 0 -> n_fc = Z.min d n_tc) /\
  (d = 0 -> n_fc <= 8 /\ (n_tc <= 49 -> (n_fc - 1) * (n_fc - 1) < n_tc <= n_fc * n_fc) /\ (50 <= n_tc -> n_fc = 8)).
Proof.
  intros t d c T D. unfold get_num_threads.
  set (n := if z2b t then u32 t else u32 (iclip c 1 MAX_THREADS)).
  assert (N : 1 <= n <= 256 /\ (t <> 0 -> n = t) /\ (t = 0 -> n = Z.max 1 (Z.min c 256))).
  { unfold n, z2b. destruct (Z.eqb_spec t 0) as [->|NT]; cbn [negb].
    - unfold MAX_THREADS. pose proof (iclip_range c 1 256 ltac:(lia)). rewrite u32_id by lia. split; [lia|]. split; [lia|].
      intros _. unfold iclip. destruct (Z.ltb_spec c 1), (Z.ltb_spec 256 c); lia.
    - rewrite u32_id by lia. split; [lia|]. split; [auto|lia]. }
  clearbody n. destruct N as (N1 & N2 & N3). unfold z2b. destruct (Z.eqb_spec d 0) as [->|ND]; cbn [negb].
  - destruct (Z.ltb_spec n 50) as [L|L].
    + rewrite u32_id by lia. destruct (lut_ok n ltac:(lia)) as (v & E & V1 & V2). rewrite E. cbn [obind].
      exists n, v. split; [auto|]. split; [auto|]. split; [nia|]. do 2 (split; [auto|]). split; [lia|]. intros _. split; [lia|]. split; [auto|lia].
    + cbn [obind]. exists n, 8. split; [auto|]. split; [auto|]. split; [lia|]. do 2 (split; [auto|]). split; [lia|]. intros _. split; [lia|]. split; [lia|auto].
  - rewrite u32_id by lia. cbn [obind]. exists n, (Z.min d n). split; [auto|]. split; [auto|]. split; [lia|]. do 2 (split; [auto|]). split; [auto|lia].
Qed.

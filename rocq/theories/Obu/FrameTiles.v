(** Frame header: tile information. *)
From Coq Require Import ZArith List Bool Lia.
From Verif Require Import Base.CInt Base.Lemmas Base.Finite GetBits.Model GetBits.Spec GetBits.Abstract
  GetBits.Proofs GetBits.SpecProg GetBits.Sim GetBits.VarLen GetBits.Reads Obu.SimTac Obu.SeqModel Obu.SeqRel
  Obu.FrameModel Obu.FrameRel Obu.FrameSec Obu.FrameSec2 Obu.FrameSec3.
Import ListNotations.
Open Scope Z_scope.
Local Open Scope rd_scope.
Local Open Scope sp_scope.

(** * tile_log2 *)
Lemma ceil_le : forall sz tgt p, 0 < sz -> ((tgt + sz - 1) / sz <= p <-> tgt <= sz * p).
Proof.
  intros sz tgt p Hs. split; intros H.
  - pose proof (Z.div_mod (tgt + sz - 1) sz ltac:(lia)). pose proof (Z.mod_pos_bound (tgt + sz - 1) sz Hs). nia.
  - apply Z.lt_succ_r. apply Z.div_lt_upper_bound; [lia|]. nia.
Qed.

Lemma tile_log2_spec : forall sz tgt, 0 < sz -> 0 < tgt -> F.is_tile_log2 sz tgt (F.tile_log2 sz tgt).
Proof.
  intros sz tgt Hs Ht. unfold F.is_tile_log2, F.tile_log2. set (c := (tgt + sz - 1) / sz).
  assert (Hc : 1 <= c) by (unfold c; apply Z.div_le_lower_bound; lia).
  pose proof (Z.log2_up_nonneg c) as H0. split; [auto|].
  assert (HU : c <= 2 ^ Z.log2_up c).
  { destruct (Z.eq_dec c 1) as [->|]; [cbn; lia|]. apply Z.log2_up_spec. lia. }
  split; [apply ceil_le; auto|].
  intros j Hj. assert (HL : 1 < c).
  { destruct (Z.eq_dec c 1) as [E|]; [rewrite E in Hj; cbn in Hj; lia|lia]. }
  pose proof (Z.log2_up_spec c HL) as (B & _).
  assert (2 ^ j <= 2 ^ Z.pred (Z.log2_up c)) by (apply Z.pow_le_mono_r; lia).
  assert (~ c <= 2 ^ j) by lia. unfold c in H1. rewrite ceil_le in H1 by auto. lia.
Qed.
Lemma tile_log2_le : forall sz tgt k, 0 < sz -> 0 < tgt -> 0 <= k -> tgt <= sz * 2 ^ k -> F.tile_log2 sz tgt <= k.
Proof.
  intros sz tgt k Hs Ht Hk H. destruct (tile_log2_spec sz tgt Hs Ht) as (_ & _ & M).
  destruct (Z_lt_le_dec k (F.tile_log2 sz tgt)); [|auto]. specialize (M k ltac:(lia)). lia.
Qed.

Lemma tile_log2_loop_ok : forall sz tgt, 0 < sz <= 4096 -> 0 < tgt <= 2 ^ 20 ->
  forall fuel k, 0 <= k <= F.tile_log2 sz tgt -> F.tile_log2 sz tgt - k < Z.of_nat fuel ->
  tile_log2_loop fuel sz tgt k = Ok (F.tile_log2 sz tgt).
Proof.
  intros sz tgt Hs Ht. destruct (tile_log2_spec sz tgt ltac:(lia) ltac:(lia)) as (P0 & P1 & P2).
  set (K := F.tile_log2 sz tgt) in *. clearbody K.
  induction fuel; intros k Hk Hf; [lia|]. cbn [tile_log2_loop]. rewrite !shiftl_mul by lia.
  assert (HB : 0 < sz * 2 ^ k < 2 ^ 30).
  { pose proof (pow2_pos k ltac:(lia)). split; [nia|].
    destruct (Z.eq_dec k 0) as [->|]; [cbn; lia|].
    specialize (P2 (k - 1) ltac:(lia)). replace k with (1 + (k - 1)) by lia.
    rewrite Z.pow_add_r by lia. change (2 ^ 1) with 2. change (2 ^ 20) with 1048576 in *. change (2 ^ 30) with 1073741824. lia. }
  unfold fits_int, INT_MIN, INT_MAX. change (2 ^ 30) with 1073741824 in *.
  replace ((-2147483648 <=? sz * 2 ^ k) && (sz * 2 ^ k <=? 2147483647)) with true by lia.
  destruct (Z.ltb_spec (sz * 2 ^ k) tgt).
  - assert (k <> K) by (intros ->; lia). apply IHfuel; lia.
  - destruct (Z.eq_dec k K) as [->|]; [auto|]. specialize (P2 k ltac:(lia)). lia.
Qed.
Lemma tile_log2_ok : forall sz tgt, 0 < sz <= 4096 -> 0 < tgt <= 2 ^ 20 ->
  FrameModel.tile_log2 sz tgt = Ok (F.tile_log2 sz tgt).
Proof.
  intros sz tgt Hs Ht. assert (F.tile_log2 sz tgt <= 20) by (apply tile_log2_le; lia).
  destruct (tile_log2_spec sz tgt ltac:(lia) ltac:(lia)) as (P0 & _).
  apply tile_log2_loop_ok; auto; lia.
Qed.


(** * Tile counts *)
Lemma sim_incr : forall n k mx N, 0 <= k -> mx - k < Z.of_nat n -> 0 < Z.of_nat n -> Z.max 0 (mx - k) <= N ->
  sim N (incr_log2 n k mx) (F.increment_log2 n k mx) (fun x y => x = y /\ k <= x <= Z.max k mx).
Proof.
  induction n; intros k mx N Hk Hn Hp HN; [cbn in Hp; lia|].
  cbn [incr_log2 F.increment_log2]. destruct (Z.ltb_spec k mx).
  - rd1 b. rewrite z2b_1 by lia. destruct (b =? 1).
    + eapply sim_weaken; [apply (IHn (k + 1) mx (N - 1)); lia| lia | cbv beta; intros x y (-> & ?); split; [auto|lia]].
    + sret. split; [auto|lia].
  - sret. split; [auto|lia].
Qed.

(** * Boundaries *)
Lemma increasing_cons : forall a l, increasing l -> (l = [] \/ a < hd 0 l) -> increasing (a :: l).
Proof.
  intros a [|b l] H H1; cbn [increasing]; [exact I|].
  destruct H1 as [H1|H1]; [discriminate|]. cbn [hd] in H1. split; auto.
Qed.
Lemma hd_app : forall (l : list Z) x, hd 0 (l ++ [x]) = match l with [] => x | a :: _ => a end.
Proof. intros [|a l] x; reflexivity. Qed.
(** The list of starts from [sb] up to [sbn]. *)
Definition starts_from (sb sbn : Z) (l : list Z) : Prop :=
  increasing (l ++ [sbn]) /\ match l with [] => True | a :: _ => a = sb end.
Lemma starts_cons : forall sb w sbn l, sb < sbn -> 0 < w -> starts_from (sb + w) sbn l -> starts_from sb sbn (sb :: l).
Proof.
  intros sb w sbn l H Hw (A & B). split; [|reflexivity].
  change ((sb :: l) ++ [sbn]) with (sb :: (l ++ [sbn])). apply increasing_cons; auto. right.
  rewrite hd_app. destruct l; lia.
Qed.
Lemma starts_partition : forall sbn l, l <> [] -> starts_from 0 sbn l -> partition_of sbn (l ++ [sbn]).
Proof.
  intros sbn l Hl (A & B). red. rewrite hd_app, last_last, app_length. cbn [length].
  destruct l as [|a l]; [congruence|]. split; [auto|]. split; [reflexivity|]. split; [auto|]. cbn [length]. lia.
Qed.

Lemma uniform_eq : forall n m i sb tile sbn M, 0 < tile -> sb = i * tile -> 0 <= i -> sbn <= tile * M -> M <= 64 ->
  0 < Z.of_nat n -> sbn - sb < Z.of_nat n -> sbn - sb <= Z.of_nat m ->
  uniform_starts n i sb tile sbn = Ret (F.uniform_spacing m sb tile sbn) /\
  starts_from sb sbn (F.uniform_spacing m sb tile sbn) /\
  (i <= M -> i + zlen (F.uniform_spacing m sb tile sbn) <= M) /\ (sb < sbn -> F.uniform_spacing m sb tile sbn <> []).
Proof.
  induction n; intros m i sb tile sbn M Ht Hsb Hi HM H64 Hp Hn Hm; [cbn in Hp; lia|].
  assert (NIL : forall x, starts_from x sbn []) by (intros; split; exact I).
  cbn [uniform_starts]. destruct (Z.ltb_spec sb sbn) as [L|L].
  - destruct m as [|m]; [cbn in Hm; lia|]. cbn [F.uniform_spacing].
    replace (sb <? sbn) with true by lia.
    assert (i < M) by nia. unfold MAX_TILE_COLS, assert. replace (i <? 64 + 1) with true by lia. cbn [rbind].
    destruct (IHn m (i + 1) (sb + tile) tile sbn M) as (E & S & K & _); try lia.
    rewrite E. cbn [rbind]. split; [reflexivity|]. split; [apply starts_cons with (w := tile); auto|].
    split; [|discriminate]. intros _. specialize (K ltac:(lia)). unfold zlen in *. cbn [length]. lia.
  - assert (E : F.uniform_spacing m sb tile sbn = []).
    { destruct m; cbn [F.uniform_spacing]; [reflexivity|]. replace (sb <? sbn) with false by lia. reflexivity. }
    rewrite E. split; [reflexivity|]. split; [apply NIL|]. split; [unfold zlen; cbn; lia|lia].
Qed.

Lemma tile_size_eq : forall n k, 0 < n -> 0 <= k ->
  1 + Z.shiftr (n - 1) k = (n + 2 ^ k - 1) / 2 ^ k /\ 0 < (n + 2 ^ k - 1) / 2 ^ k /\ n <= (n + 2 ^ k - 1) / 2 ^ k * 2 ^ k.
Proof.
  intros n k Hn Hk. assert (0 < 2 ^ k) by (apply Z.pow_pos_nonneg; lia).
  rewrite Z.shiftr_div_pow2 by auto.
  assert (E : (n + 2 ^ k - 1) / 2 ^ k = (n - 1) / 2 ^ k + 1).
  { replace (n + 2 ^ k - 1) with (n - 1 + 1 * 2 ^ k) by ring. rewrite Z.div_add by lia. reflexivity. }
  rewrite E. split; [ring|].
  pose proof (Z.div_pos (n - 1) (2 ^ k) ltac:(lia) ltac:(lia)). split; [lia|].
  pose proof (Z.div_mod (n - 1) (2 ^ k) ltac:(lia)). pose proof (Z.mod_pos_bound (n - 1) (2 ^ k) ltac:(lia)). nia.
Qed.

(** Uniform tiling of [n] superblocks with 2^k tiles. *)
Lemma uniform_all : forall n k, 0 < n -> 0 <= k <= 6 ->
  let l := F.uniform_spacing (Z.to_nat n) 0 ((n + 2 ^ k - 1) / 2 ^ k) n in
  uniform_starts (Z.to_nat n + 1) 0 0 (1 + Z.shiftr (n - 1) k) n = Ret l /\
  partition_of n (l ++ [n]) /\ 1 <= zlen l <= 2 ^ k.
Proof.
  intros n k Hn Hk l. destruct (tile_size_eq n k ltac:(lia) ltac:(lia)) as (E & P & C). rewrite E.
  assert (2 ^ k <= 64) by (change 64 with (2 ^ 6); apply Z.pow_le_mono_r; lia).
  assert (0 < 2 ^ k) by (apply Z.pow_pos_nonneg; lia).
  destruct (uniform_eq (Z.to_nat n + 1) (Z.to_nat n) 0 0 ((n + 2 ^ k - 1) / 2 ^ k) n (2 ^ k)) as (A & B & D & G); try lia.
  fold l in A, B, D, G. specialize (G ltac:(lia)). specialize (D ltac:(lia)).
  split; [auto|]. split; [apply starts_partition; auto|].
  split; [|lia]. destruct l; [congruence|]. unfold zlen. cbn [length]. lia.
Qed.

(** * Explicit sizes *)
Lemma sim_map_l : forall A B C N (p : rd A) (q : sp B) (g : A -> C) (S : A -> B -> Prop) (R : C -> B -> Prop),
  sim N p q S -> (forall x y, S x y -> R (g x) y) -> sim N (rbind p (fun x => Ret (g x))) q R.
Proof.
  intros A B C N p q g S R H HR s a Hs Ha Hb. specialize (H s a Hs Ha Hb). rewrite aexec_bind.
  destruct (srun q (st_bit s) (a_pos a)) as [[b|] pos'].
  - destruct H as (P & x & E & RR). split; [exact P|]. rewrite E. exists (g x). auto.
  - destruct H as (P & E). split; [exact P|]. rewrite E. reflexivity.
Qed.
Lemma sim_explicit : forall n m i sb sbn mx wd N, 0 <= sb -> 0 < mx -> sbn < 2 ^ 30 -> mx < 2 ^ 30 ->
  i + Z.of_nat m = 64 -> 0 <= i -> 0 < Z.of_nat n -> sbn - sb < Z.of_nat n -> 32 * Z.of_nat m <= N -> sb <= sbn -> 0 <= wd ->
  sim N (explicit_starts n i sb sbn mx wd) (F.explicit_spacing m sb sbn mx wd)
    (fun x y => x = y /\ starts_from sb sbn (fst x) /\ zlen (fst x) <= Z.of_nat m /\
                (sb < sbn -> 0 < Z.of_nat m -> fst x <> [] /\ 1 <= snd x) /\ wd <= snd x).
Proof.
  induction n; intros m i sb sbn mx wd N Hsb Hmx H30 H30' Hi Hi0 Hp Hn HN Hle Hwd; [cbn in Hp; lia|].
  assert (NIL : forall x, starts_from x sbn []) by (intros; split; exact I).
  cbn [explicit_starts]. unfold MAX_TILE_COLS. destruct m as [|m].
  - replace ((sb <? sbn) && (i <? 64)) with false by lia. cbn [F.explicit_spacing]. sret. cbn [fst snd].
    unfold zlen. cbn [length]. repeat apply conj; auto; try (cbn; lia).
  - cbn [F.explicit_spacing]. replace (i <? 64) with true by lia. rewrite andb_true_r.
    destruct (Z.ltb_spec sb sbn) as [L|L].
    + cbv zeta. set (t := Z.min (sbn - sb) mx). assert (Ht : 1 <= t <= sbn - sb) by (unfold t; lia).
      assert (Ht' : t < 2 ^ 30) by (unfold t; lia). clearbody t.
      eapply sim_bind with (N1 := 32) (S := fun x y => x = y + 1 /\ 1 <= x <= t).
      * destruct (Z.eqb_spec t 1) as [->|T1].
        -- cbn [Z.ltb Z.compare]. change (1 <? 1) with false. cbv iota. sret. lia.
        -- replace (1 <? t) with true by lia.
           eapply sim_map_l; [apply sim_ns; lia|cbv beta; lia].
      * intros w y (-> & Hw). cbv beta. unfold assert. replace (i <? 64 + 1) with true by lia. apply sim_bind_ret_l.
        rewrite (Z.max_comm (y + 1) wd).
        eapply sim_bind with (N1 := 32 * Z.of_nat m).
        -- apply (IHn m (i + 1) (sb + (y + 1)) sbn mx (Z.max wd (y + 1))); lia.
        -- intros (l, v) ? (<- & S & K & G & W). cbn [fst snd] in *. sret. cbn [fst snd].
           split; [auto|]. split; [apply starts_cons with (w := y + 1); auto; lia|].
           split; [unfold zlen in *; cbn [length]; lia|]. split; [intros; split; [discriminate|lia]|lia].
        -- lia.
      * lia.
    + sret. cbn [fst snd]. unfold zlen; cbn [length]. repeat apply conj; auto; try lia; try (intros; lia).
      exact I.
Qed.

(** * Superblock counts *)
Lemma sb_dim : forall w b, 0 < w -> 0 <= b <= 1 ->
  Z.shiftr (w + (Z.shiftl 64 b - 1)) (6 + b) =
    (if b =? 1 then (2 * ((w + 7) / 8) + 31) / 32 else (2 * ((w + 7) / 8) + 15) / 16) /\
  Z.shiftr (w + (Z.shiftl 64 b - 1)) (6 + b) = (w + 64 * 2 ^ b - 1) / (64 * 2 ^ b).
Proof.
  intros w b Hw Hb. assert (b = 0 \/ b = 1) as [-> | ->] by lia.
  - change (Z.shiftl 64 0) with 64. change (0 =? 1) with false. cbv iota. rewrite Z.shiftr_div_pow2 by lia.
    change (2 ^ (6 + 0)) with 64. change (64 * 2 ^ 0) with 64. split; lia.
  - change (Z.shiftl 64 1) with 128. change (1 =? 1) with true. cbv iota. rewrite Z.shiftr_div_pow2 by lia.
    change (2 ^ (6 + 1)) with 128. change (64 * 2 ^ 1) with 128. split; lia.
Qed.

Lemma log2_up_mono' : forall a b, a <= b -> Z.log2_up a <= Z.log2_up b.
Proof. intros. apply Z.log2_up_le_mono; auto. Qed.

(** The number of tiles forced by the area limit needs at most 6 row bits. *)
Lemma min_rows_64 : forall w, 1 <= w <= 1024 ->
  Z.log2_up ((w * 1024 + 2304 - 1) / 2304) - Z.log2_up ((w + 64 - 1) / 64) <= 6.
Proof.
  intros w Hw.
  assert (B : forallb (fun k => Z.log2_up ((k * 1024 + 2304 - 1) / 2304) - Z.log2_up ((k + 64 - 1) / 64) <=? 6)
    (map Z.of_nat (seq 0 1025)) = true) by (vm_compute; reflexivity).
  rewrite forallb_forall in B. specialize (B w). apply Z.leb_le, B. apply in_map_iff. exists (Z.to_nat w).
  split; [lia|]. apply in_seq. lia.
Qed.
Lemma min_rows_128 : forall w, 1 <= w <= 512 ->
  Z.log2_up ((w * 512 + 576 - 1) / 576) - Z.log2_up ((w + 32 - 1) / 32) <= 6.
Proof.
  intros w Hw.
  assert (B : forallb (fun k => Z.log2_up ((k * 512 + 576 - 1) / 576) - Z.log2_up ((k + 32 - 1) / 32) <=? 6)
    (map Z.of_nat (seq 0 513)) = true) by (vm_compute; reflexivity).
  rewrite forallb_forall in B. specialize (B w). apply Z.leb_le, B. apply in_map_iff. exists (Z.to_nat w).
  split; [lia|]. apply in_seq. lia.
Qed.

Lemma sb_counts : forall w b, 1 <= w <= 65536 -> 0 <= b <= 1 ->
  1 <= (w + 64 * 2 ^ b - 1) / (64 * 2 ^ b) <= 1024 / 2 ^ b.
Proof.
  intros w b Hw Hb. assert (b = 0 \/ b = 1) as [-> | ->] by lia.
  - change (64 * 2 ^ 0) with 64. change (1024 / 2 ^ 0) with 1024. lia.
  - change (64 * 2 ^ 1) with 128. change (1024 / 2 ^ 1) with 512. lia.
Qed.

(** Bounds on the limits derived from the frame size. *)
Lemma tile_limits : forall b w h, 0 <= b <= 1 -> 1 <= w <= 1024 / 2 ^ b -> 1 <= h <= 1024 / 2 ^ b ->
  let mw := 64 / 2 ^ b in let ma := 2304 / 4 ^ b in
  let minc := F.tile_log2 mw w in
  let mint := Z.max (F.tile_log2 ma (w * h)) minc in
  0 <= minc <= 4 /\ 0 <= F.tile_log2 1 (Z.min w 64) <= 6 /\ 0 <= F.tile_log2 1 (Z.min h 64) <= 6 /\
  minc <= mint <= 10 /\ mint - minc <= 6.
Proof.
  intros b w h Hb Hw Hh mw ma minc mint.
  assert (M6 : forall n, 1 <= n -> 0 <= F.tile_log2 1 (Z.min n 64) <= 6).
  { intros n Hn. unfold F.tile_log2. rewrite Z.div_1_r. split; [apply Z.log2_up_nonneg|].
    change 6 with (Z.log2_up 64). apply log2_up_mono'. lia. }
  assert (N0 : forall a c, 0 <= F.tile_log2 a c) by (intros; apply Z.log2_up_nonneg).
  assert (b = 0 \/ b = 1) as [-> | ->] by lia.
  - change (1024 / 2 ^ 0) with 1024 in *. change mw with 64 in *. change ma with 2304 in *.
    assert (A : 0 <= minc <= 4).
    { split; [apply N0|]. unfold minc, F.tile_log2. change 4 with (Z.log2_up 16). apply log2_up_mono'. change mw with 64. lia. }
    assert (T : F.tile_log2 2304 (w * h) <= F.tile_log2 2304 (w * 1024)).
    { unfold F.tile_log2. apply log2_up_mono'. apply Z.div_le_mono; nia. }
    assert (T' : F.tile_log2 2304 (w * 1024) <= 9).
    { unfold F.tile_log2. change 9 with (Z.log2_up 512). apply log2_up_mono'. lia. }
    pose proof (min_rows_64 w ltac:(lia)) as MR. fold (F.tile_log2 2304 (w * 1024)) in MR.
    change (Z.log2_up ((w + 64 - 1) / 64)) with minc in MR.
    pose proof (N0 2304 (w * h)). pose proof (M6 w). pose proof (M6 h). clearbody minc. unfold mint. clear mint. lia.
  - change (1024 / 2 ^ 1) with 512 in *. change mw with 32 in *. change ma with 576 in *.
    assert (A : 0 <= minc <= 4).
    { split; [apply N0|]. unfold minc, F.tile_log2. change 4 with (Z.log2_up 16). apply log2_up_mono'. change mw with 32. lia. }
    assert (T : F.tile_log2 576 (w * h) <= F.tile_log2 576 (w * 512)).
    { unfold F.tile_log2. apply log2_up_mono'. apply Z.div_le_mono; nia. }
    assert (T' : F.tile_log2 576 (w * 512) <= 9).
    { unfold F.tile_log2. change 9 with (Z.log2_up 512). apply log2_up_mono'. lia. }
    pose proof (min_rows_128 w ltac:(lia)) as MR. fold (F.tile_log2 576 (w * 512)) in MR.
    change (Z.log2_up ((w + 32 - 1) / 32)) with minc in MR.
    pose proof (N0 576 (w * h)). pose proof (M6 w). pose proof (M6 h). clearbody minc. unfold mint. clear mint. lia.
Qed.

(** * The whole section *)
Lemma tile1_bounds : forall n, 1 <= n <= 64 -> 0 <= F.tile_log2 1 n <= 6 /\ n <= 2 ^ F.tile_log2 1 n.
Proof.
  intros n Hn. destruct (tile_log2_spec 1 n ltac:(lia) ltac:(lia)) as (A & B & _).
  split; [|lia]. split; [auto|]. unfold F.tile_log2. rewrite Z.div_1_r.
  change 6 with (Z.log2_up 64). apply log2_up_mono'. lia.
Qed.

Definition counts_ok (sbw sbh : Z) (x : Z * Z * Z * list Z * list Z) (y : Z * Z * list Z * list Z) : Prop :=
  let '(_, lc, lr, cs, rs) := x in
  y = (lc, lr, cs, rs) /\ 0 <= lc <= 6 /\ 0 <= lr <= 6 /\
  partition_of sbw (cs ++ [sbw]) /\ partition_of sbh (rs ++ [sbh]) /\
  1 <= zlen cs <= 64 /\ 1 <= zlen rs <= 64 /\ zlen cs <= 2 ^ lc /\ zlen rs <= 2 ^ lr.

Lemma pow2_64 : forall k, 0 <= k <= 6 -> 2 ^ k <= 64.
Proof. intros. change 64 with (2 ^ 6). apply Z.pow_le_mono_r; lia. Qed.

Lemma sim_counts_uniform : forall sbw sbh minc maxc maxr mint N,
  1 <= sbw <= 1024 -> 1 <= sbh <= 1024 -> 0 <= minc <= 6 -> 0 <= maxc <= 6 -> 0 <= maxr <= 6 ->
  minc <= mint -> mint - minc <= 6 -> 20 <= N ->
  sim N
    (do log2_cols <- incr_log2 16 minc maxc;
     let tile_w := 1 + Z.shiftr (sbw - 1) log2_cols in
     do cs <- uniform_starts (Z.to_nat sbw + 1) 0 0 tile_w sbw;
     let min_log2_rows := Z.max (mint - log2_cols) 0 in
     do log2_rows <- incr_log2 16 min_log2_rows maxr;
     let tile_h := 1 + Z.shiftr (sbh - 1) log2_rows in
     do rs <- uniform_starts (Z.to_nat sbh + 1) 0 0 tile_h sbh;
     Ret (min_log2_rows, log2_cols, log2_rows, cs, rs))
    (let* cl := F.increment_log2 16 minc maxc in
     let w := (sbw + 2 ^ cl - 1) / 2 ^ cl in
     let minLog2TileRows := Z.max (mint - cl) 0 in
     let* rl := F.increment_log2 16 minLog2TileRows maxr in
     let h := (sbh + 2 ^ rl - 1) / 2 ^ rl in
     SRet (cl, rl, F.uniform_spacing (Z.to_nat sbw) 0 w sbw, F.uniform_spacing (Z.to_nat sbh) 0 h sbh))
    (counts_ok sbw sbh).
Proof.
  intros sbw sbh minc maxc maxr mint N Hw Hh Hc Hxc Hxr Hm1 Hm2 HN.
  eapply sim_bind with (N1 := 8); [apply sim_incr; lia| |lia].
  intros lc ? (<- & Hlc). cbv beta zeta.
  destruct (uniform_all sbw lc ltac:(lia) ltac:(lia)) as (E & P & Q). cbv zeta in E, P, Q. rewrite E.
  apply sim_bind_ret_l.
  eapply sim_bind with (N1 := 8); [apply sim_incr; lia| |lia].
  intros lr ? (<- & Hlr). cbv beta zeta.
  destruct (uniform_all sbh lr ltac:(lia) ltac:(lia)) as (E' & P' & Q'). cbv zeta in E', P', Q'. rewrite E'.
  apply sim_bind_ret_l. clear E E'.
  set (cs := F.uniform_spacing (Z.to_nat sbw) 0 ((sbw + 2 ^ lc - 1) / 2 ^ lc) sbw) in *.
  set (rs := F.uniform_spacing (Z.to_nat sbh) 0 ((sbh + 2 ^ lr - 1) / 2 ^ lr) sbh) in *.
  clearbody cs rs. sret.
  assert (Hlc6 : 0 <= lc <= 6) by lia. assert (Hlr6 : 0 <= lr <= 6) by lia.
  pose proof (pow2_64 lc Hlc6) as P6. pose proof (pow2_64 lr Hlr6) as P6'. clear - P P' Q Q' Hlc6 Hlr6 P6 P6'.
  unfold counts_ok. repeat (apply conj; [solve [auto | lia]|]). lia.
Qed.

Lemma sim_counts_explicit : forall sbw sbh mw mint N,
  1 <= sbw <= 1024 -> 1 <= sbh <= 1024 -> 0 < mw <= 64 -> 0 <= mint <= 10 -> 4096 <= N ->
  sim N
    (do (cs, widest) <- explicit_starts (Z.to_nat sbw + 1) 0 0 sbw mw 0;
     do log2_cols <- lift (tile_log2 1 (zlen cs));
     let area := if z2b mint then Z.shiftr (sbw * sbh) (mint + 1) else sbw * sbh in
     do _ <- assert (negb (widest =? 0));
     let max_tile_height_sb := Z.max (area / widest) 1 in
     do (rs, _) <- explicit_starts (Z.to_nat sbh + 1) 0 0 sbh max_tile_height_sb 0;
     do log2_rows <- lift (tile_log2 1 (zlen rs));
     Ret (0, log2_cols, log2_rows, cs, rs))
    (let* (cs, widest) := F.explicit_spacing 64 0 sbw mw 0 in
     let area := if 0 <? mint then sbh * sbw / 2 ^ (mint + 1) else sbh * sbw in
     let maxTileHeightSb := Z.max (area / widest) 1 in
     let* (rs, _) := F.explicit_spacing 64 0 sbh maxTileHeightSb 0 in
     SRet (F.tile_log2 1 (Z.of_nat (length cs)), F.tile_log2 1 (Z.of_nat (length rs)), cs, rs))
    (counts_ok sbw sbh).
Proof.
  intros sbw sbh mw mint N Hw Hh Hmw Hmint HN.
  eapply sim_bind with (N1 := 2048).
  { apply sim_explicit; try lia. }
  2: lia.
  intros (cs, wd) ? (<- & S & K & G & _). cbn [fst snd] in *. cbv beta.
  destruct (G ltac:(lia) ltac:(lia)) as (NE & W1). clear G.
  assert (LC : 1 <= zlen cs <= 64) by (destruct cs; [congruence|]; unfold zlen in *; cbn [length] in *; lia).
  rewrite tile_log2_ok by lia. cbn [lift]. apply sim_bind_ret_l. cbv zeta.
  unfold assert. replace (wd =? 0) with false by lia. cbn [negb]. apply sim_bind_ret_l.
  assert (EA : (if z2b mint then Z.shiftr (sbw * sbh) (mint + 1) else sbw * sbh) =
               (if 0 <? mint then sbh * sbw / 2 ^ (mint + 1) else sbh * sbw)).
  { unfold z2b. rewrite Z.shiftr_div_pow2 by lia. rewrite (Z.mul_comm sbw sbh).
    destruct (Z.ltb_spec 0 mint); destruct (Z.eqb_spec mint 0); cbn [negb]; try lia; reflexivity. }
  rewrite EA. set (area := if 0 <? mint then sbh * sbw / 2 ^ (mint + 1) else sbh * sbw).
  assert (HA : 0 <= area <= 2 ^ 20).
  { unfold area. destruct (0 <? mint); [|nia]. split.
    - apply Z.div_pos; [nia|]. apply Z.pow_pos_nonneg; lia.
    - apply Z.div_le_upper_bound; [apply Z.pow_pos_nonneg; lia|].
      assert (1 <= 2 ^ (mint + 1)) by (change 1 with (2 ^ 0); apply Z.pow_le_mono_r; lia). nia. }
  clearbody area. clear EA.
  assert (HD : 0 <= area / wd <= 2 ^ 20).
  { split; [apply Z.div_pos; lia|]. apply Z.div_le_upper_bound; [lia|]. nia. }
  set (mh := Z.max (area / wd) 1). assert (Hmh : 0 < mh < 2 ^ 30) by (unfold mh; lia). clearbody mh.
  eapply sim_bind with (N1 := 2048); [apply sim_explicit; lia| |lia].
  intros (rs, wd') ? (<- & S' & K' & G' & _). cbn [fst snd] in *. cbv beta.
  destruct (G' ltac:(lia) ltac:(lia)) as (NE' & _). clear G'.
  assert (LR : 1 <= zlen rs <= 64) by (destruct rs; [congruence|]; unfold zlen in *; cbn [length] in *; lia).
  rewrite tile_log2_ok by lia. cbn [lift]. apply sim_bind_ret_l. sret.
  change (Z.of_nat (length cs)) with (zlen cs). change (Z.of_nat (length rs)) with (zlen rs).
  pose proof (tile1_bounds (zlen cs) LC) as (B1 & B2). pose proof (tile1_bounds (zlen rs) LR) as (B3 & B4).
  unfold counts_ok.
  pose proof (starts_partition sbw cs NE S). pose proof (starts_partition sbh rs NE' S').
  repeat (apply conj; [solve [auto | lia]|]). lia.
Qed.

Lemma sb_consts : forall b, 0 <= b <= 1 ->
  Z.shiftr 4096 (6 + b) = 64 / 2 ^ b /\ Z.shiftr (4096 * 2304) (2 * (6 + b)) = 2304 / 4 ^ b /\
  0 < 64 / 2 ^ b <= 64 /\ 0 < 2304 / 4 ^ b <= 4096 /\ 1024 / 2 ^ b <= 1024.
Proof. intros b Hb. assert (b = 0 \/ b = 1) as [-> | ->] by lia.
  - change (2 ^ 0) with 1. change (4 ^ 0) with 1. vm_compute. intuition congruence.
  - change (2 ^ 1) with 2. change (4 ^ 1) with 4. vm_compute. intuition congruence.
Qed.

Definition tiling_wf' (sbw sbh : Z) (t : tiling) : Prop :=
  partition_of sbw (t_col_start_sb t) /\ partition_of sbh (t_row_start_sb t) /\
  zlen (t_col_start_sb t) = t_cols t + 1 /\ zlen (t_row_start_sb t) = t_rows t + 1 /\
  1 <= t_cols t <= 64 /\ 1 <= t_rows t <= 64 /\
  0 <= t_log2_cols t <= 6 /\ 0 <= t_log2_rows t <= 6 /\
  t_cols t <= 2 ^ t_log2_cols t /\ t_rows t <= 2 ^ t_log2_rows t /\
  0 <= t_update t < t_cols t * t_rows t /\ 0 <= t_n_bytes t <= 4.

Lemma sim_tiling : forall sh ss w h N, seq_rel sh ss -> seq_wf sh -> 1 <= w <= 65536 -> 1 <= h <= 65536 -> 4200 <= N ->
  sim N (parse_tiling sh w h) (F.tile_info ss w h) (fun t s => tiling_rel t s /\ tiling_wf (sb128 sh) w h t).
Proof.
  intros sh ss w h N R W Hw Hh HN.
  assert (EB : sb128 sh = S.use_128x128_superblock ss) by (apply R).
  assert (HB : 0 <= sb128 sh <= 1) by (apply W).
  unfold parse_tiling, F.tile_info. cbv zeta. rewrite <- EB. set (b := sb128 sh) in *. clearbody b.
  destruct (sb_dim w b ltac:(lia) HB) as (E1 & E2). destruct (sb_dim h b ltac:(lia) HB) as (E3 & E4).
  rewrite <- E1, <- E3.
  pose proof (sb_counts w b Hw HB) as C1. pose proof (sb_counts h b Hh HB) as C2. rewrite <- E2 in C1. rewrite <- E4 in C2.
  destruct (sb_consts b HB) as (K1 & K2 & K3 & K4 & K5).
  replace (4096 / 2 ^ ((if b =? 1 then 5 else 4) + 2)) with (64 / 2 ^ b)
    by (assert (b = 0 \/ b = 1) as [-> | ->] by lia; reflexivity).
  replace (4096 * 2304 / 2 ^ (2 * ((if b =? 1 then 5 else 4) + 2))) with (2304 / 4 ^ b)
    by (assert (b = 0 \/ b = 1) as [-> | ->] by lia; reflexivity).
  rewrite K1, K2.
  set (sbw := Z.shiftr (w + (Z.shiftl 64 b - 1)) (6 + b)) in *.
  set (sbh := Z.shiftr (h + (Z.shiftl 64 b - 1)) (6 + b)) in *.
  pose proof (tile_limits b sbw sbh HB C1 C2) as TL. cbv zeta in TL.
  set (mw := 64 / 2 ^ b) in *. set (ma := 2304 / 4 ^ b) in *.
  clearbody sbw sbh.
  assert (W1 : 1 <= sbw <= 1024) by (split; [apply C1|eapply Z.le_trans; [apply C1|exact K5]]).
  assert (H1 : 1 <= sbh <= 1024) by (split; [apply C2|eapply Z.le_trans; [apply C2|exact K5]]).
  clear C1 C2 E1 E3 K1 K2 K5. clearbody mw ma.
  eapply sim_weaken with (N := N) (R := fun t s => tiling_rel t s /\ tiling_wf' sbw sbh t);
    [clear E2 E4 Hw Hh|lia|intros t s (Q1 & Q2); split; [exact Q1|]; red; cbv zeta; rewrite <- E2, <- E4; exact Q2].
  rd1 u. rewrite z2b_1 by lia.
  unfold MAX_TILE_COLS, MAX_TILE_ROWS.
  assert (HT : 0 < sbw * sbh <= 2 ^ 20) by (clear - W1 H1; nia).
  clear R W EB.
  rewrite !tile_log2_ok by lia. cbn [lift]. apply sim_bind_ret_l. apply sim_bind_ret_l. apply sim_bind_ret_l. apply sim_bind_ret_l.
  replace (F.tile_log2 ma (sbh * sbw)) with (F.tile_log2 ma (sbw * sbh)) by (rewrite Z.mul_comm; reflexivity).
  rewrite (Z.max_comm (F.tile_log2 mw sbw)).
  set (minc := F.tile_log2 mw sbw) in *. set (maxc := F.tile_log2 1 (Z.min sbw 64)) in *.
  set (maxr := F.tile_log2 1 (Z.min sbh 64)) in *. set (mint := Z.max (F.tile_log2 ma (sbw * sbh)) minc) in *.
  destruct TL as (T1 & T2 & T3 & T4 & T5).
  clearbody minc maxc maxr mint. clear ma K4 HT.
  eapply sim_bind with (N1 := 4120) (S := counts_ok sbw sbh); [| |lia].
  { apply sim_if; [reflexivity|intros _|intros _].
    - apply sim_counts_uniform; lia.
    - apply sim_counts_explicit; lia. }
  intros ((((mr, lc), lr), cs), rs) (((lc', lr'), cs'), rs') HC. unfold counts_ok in HC.
  destruct HC as (E & Q1 & Q2 & P1 & P2 & L1 & L2 & B1 & B2). injection E as -> -> -> ->. cbv beta iota.
  unfold assert. replace ((zlen cs <? 64 + 1) && (zlen rs <? 64 + 1)) with true by lia. apply sim_bind_ret_l.
  change (Z.of_nat (length cs)) with (zlen cs). change (Z.of_nat (length rs)) with (zlen rs).
  assert (POS : 0 < zlen cs * zlen rs) by (clear - L1 L2; nia).
  eapply sim_bind with (N1 := 20) (S := fun x y => x = y /\ 0 <= fst x < zlen cs * zlen rs /\ 0 <= snd x <= 4); [| |lia].
  { apply sim_if.
    - unfold z2b. f_equal; [destruct (Z.eqb_spec lc 0)|destruct (Z.eqb_spec lr 0)]; cbn [negb]; lia.
    - intros HZ. rewrite (Z.add_comm lr lc).
      eapply sim_bind with (N1 := 12).
      + eapply sim_weaken; [apply (sim_f (lc + lr) (lc + lr)); unfold z2b in HZ; lia|lia|intros x y Hx; exact Hx].
      + intros upd ? (<- & HU). cbv beta.
        apply sim_require; [lia|lia|intros HR].
        rdn nb 2. sret. cbn [fst snd]. clear - HR HU Hnb. change (2 ^ 2) with 4 in Hnb. split; [reflexivity|]. split; lia.
      + lia.
    - intros _. sret. cbn [fst snd]. clear - POS. split; [reflexivity|lia]. }
  intros (upd, nb) ? (<- & U1 & U2). cbn [fst snd] in *. sret.
  assert (LA : forall (l : list Z) x, zlen (l ++ [x]) = zlen l + 1)
    by (intros; unfold zlen; rewrite app_length; cbn [length]; lia).
  split; [red; cbn [t_uniform t_n_bytes t_log2_cols t_log2_rows t_col_start_sb t_row_start_sb t_cols t_rows t_update
      F.uniform_tile_spacing_flag F.TileSizeBytes F.TileColsLog2 F.TileRowsLog2 F.TileColStarts F.TileRowStarts F.context_update_tile_id];
      rewrite !LA; repeat apply conj; auto; lia|].
  red.
  cbn [t_uniform t_n_bytes t_log2_cols t_log2_rows t_col_start_sb t_row_start_sb t_cols t_rows t_update].
  rewrite !LA. repeat (apply conj; [solve [auto | lia]|]). lia.
Qed.

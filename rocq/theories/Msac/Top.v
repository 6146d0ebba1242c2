(** Statements from the initial state of a tile. *)
From Coq Require Import ZArith List Bool Lia.
From Verif Require Import Base.CInt Base.Lemmas GetBits.Spec GetBits.Proofs.
From Verif Require Import Msac.Model Msac.Spec Msac.Window Msac.Cdf Msac.SpecRun Msac.Proofs Msac.Run Msac.Trailing.
Import ListNotations.
Open Scope Z_scope.

Definition max_calls : Z := 100000000.

(** dav1d_msac_init followed by a program. *)
Definition run_tile {A} (W : Z) (buf : list Z) (sz : Z) (dis : bool) (p : dp A) (cdfs : list (list Z))
  : outcome (A * msac * list (list Z)) :=
  (let! m := msac_init W buf sz dis in drun W p m cdfs)%outcome.
(** The same on the specification side. *)
Definition spec_tile {A} (buf : list Z) (sz : Z) (dis : bool) (p : dp A) (cdfs : list (list Z))
  : option (A * sym * list (list Z)) :=
  let b := stream_bit buf sz in srun_dp b dis p (init_symbol b sz) cdfs.

Lemma tile_ok : forall W buf sz dis shape A n (p : dp A) cdfs,
  win W -> Forall is_byte buf -> 0 <= sz <= zlen buf -> wfp shape n p -> Z.of_nat n <= max_calls ->
  cdfs_ok shape cdfs ->
  exists a m cdfs' a2 s2 c2,
    run_tile W buf sz dis p cdfs = Ok (a, m, cdfs') /\
    spec_tile buf sz dis p (spec_cdfs shape cdfs) = Some (a2, s2, c2) /\
    sane W buf sz m /\ cdfs_ok shape cdfs' /\
    ((good W buf sz m s2 /\ a = a2 /\ c2 = spec_cdfs shape cdfs') \/
     (overrun W buf sz m /\ SymbolMaxBits s2 <= -16)).
Proof.
  intros W buf sz dis shape A n p cdfs HW Hb Hsz Hp Hn Hc.
  destruct (init_good W buf sz dis HW Hb Hsz) as (m0 & E & G & U & C).
  destruct (run_ok W buf sz shape A n p HW Hb Hsz Hp m0 _ cdfs G Hc) as (a & m & cdfs' & R1 & R2 & R3 & a2 & s2 & c2 & R4 & R5).
  { unfold max_calls, INT_MIN in *. lia. }
  rewrite U, negb_involutive in R4.
  exists a, m, cdfs', a2, s2, c2. unfold run_tile, spec_tile. rewrite E. auto.
Qed.

Lemma good_cnt : forall W buf sz m s, good W buf sz m s -> (-15 < ms_cnt m <-> -14 <= SymbolMaxBits s).
Proof.
  intros W buf sz m s (?&?&?&?&?&?&?&?&?&g&?&?&?&G2&G3). split; intros Q; [lia|].
  destruct (Z.ltb_spec (ms_cnt m) 0); [destruct (G3 ltac:(lia)); lia|lia].
Qed.

Theorem matches_spec : forall W buf sz dis shape A n (p : dp A) cdfs,
  win W -> Forall is_byte buf -> 0 <= sz <= zlen buf -> wfp shape n p -> Z.of_nat n <= max_calls ->
  cdfs_ok shape cdfs ->
  exists a m cdfs' a2 s2 c2,
    run_tile W buf sz dis p cdfs = Ok (a, m, cdfs') /\
    spec_tile buf sz dis p (spec_cdfs shape cdfs) = Some (a2, s2, c2) /\
    (-15 < ms_cnt m <-> -14 <= SymbolMaxBits s2) /\
    (-15 < ms_cnt m -> a = a2 /\ c2 = spec_cdfs shape cdfs' /\
       ms_rng m = SymbolRange s2 /\ ms_dif m / 2 ^ (W - 16) = SymbolValue s2).
Proof.
  intros W buf sz dis shape A n p cdfs HW Hb Hsz Hp Hn Hc.
  destruct (tile_ok W buf sz dis shape A n p cdfs HW Hb Hsz Hp Hn Hc)
    as (a & m & cdfs' & a2 & s2 & c2 & E1 & E2 & S & K & D).
  exists a, m, cdfs', a2, s2, c2. split; [exact E1|]. split; [exact E2|].
  destruct D as [(G & -> & ->) | [(O1 & O2) L]].
  - split; [eapply good_cnt; eauto|]. intros _. split; auto. split; auto.
    split; [apply G|]. eapply good_sane; eauto.
  - split; lia.
Qed.

Theorem window_size_irrelevant : forall buf sz dis shape A n (p : dp A) cdfs a32 m32 c32 a64 m64 c64,
  Forall is_byte buf -> 0 <= sz <= zlen buf -> wfp shape n p -> Z.of_nat n <= max_calls ->
  cdfs_ok shape cdfs ->
  run_tile 32 buf sz dis p cdfs = Ok (a32, m32, c32) ->
  run_tile 64 buf sz dis p cdfs = Ok (a64, m64, c64) ->
  (-15 < ms_cnt m32 <-> -15 < ms_cnt m64) /\
  (-15 < ms_cnt m32 -> a32 = a64 /\ spec_cdfs shape c32 = spec_cdfs shape c64 /\ ms_rng m32 = ms_rng m64).
Proof.
  intros buf sz dis shape A n p cdfs a32 m32 c32 a64 m64 c64 Hb Hsz Hp Hn Hc R32 R64.
  destruct (matches_spec 32 buf sz dis shape A n p cdfs (or_introl eq_refl) Hb Hsz Hp Hn Hc)
    as (a & m & c & a2 & s2 & c2 & E1 & E2 & E3 & E4).
  destruct (matches_spec 64 buf sz dis shape A n p cdfs (or_intror eq_refl) Hb Hsz Hp Hn Hc)
    as (a' & m' & c' & a2' & s2' & c2' & E1' & E2' & E3' & E4').
  rewrite R32 in E1. rewrite R64 in E1'. rewrite E2 in E2'.
  inversion E1. inversion E1'. inversion E2'. subst.
  split; [lia|]. intros Q. destruct (E4 Q) as (-> & -> & -> & _).
  destruct (E4' ltac:(lia)) as (-> & K & -> & _). auto.
Qed.

Theorem safe : forall W buf sz dis shape A n (p : dp A) cdfs,
  win W -> Forall is_byte buf -> 0 <= sz <= zlen buf -> wfp shape n p -> Z.of_nat n <= max_calls ->
  cdfs_ok shape cdfs ->
  exists a m cdfs', run_tile W buf sz dis p cdfs = Ok (a, m, cdfs') /\
    ms_buf m = buf /\ ms_end m = sz /\ 0 <= ms_pos m <= sz /\ 32768 <= ms_rng m <= 65535 /\
    ms_dif m / 2 ^ (W - 16) < ms_rng m.
Proof.
  intros W buf sz dis shape A n p cdfs HW Hb Hsz Hp Hn Hc.
  destruct (tile_ok W buf sz dis shape A n p cdfs HW Hb Hsz Hp Hn Hc)
    as (a & m & cdfs' & a2 & s2 & c2 & E1 & E2 & (S1 & S2 & S3 & S4 & S5 & S6 & S7) & K & D).
  exists a, m, cdfs'. repeat (split; [assumption|]). assumption.
Qed.

Lemma wfp_bind : forall A B shape n k (p : dp A) (f : A -> dp B), wfp shape n p ->
  (forall a, wfp shape k (f a)) -> wfp shape (n + k) (dbind p f).
Proof.
  intros A B shape n k p f H Hf. induction H; cbn [dbind].
  - eapply wfp_le; [apply Hf|lia].
  - constructor; auto.
Qed.
Lemma drun_dbind : forall A B W (p : dp A) (f : A -> dp B) m c,
  drun W (dbind p f) m c = (let! (a, m, c) := drun W p m c in drun W (f a) m c)%outcome.
Proof.
  induction p; intros; cbn [dbind drun]; auto.
  destruct (dstep W o m c) as [[[v m'] c']|]; cbn [obind]; auto.
Qed.

Definition res_okb (o : dop) (v : Z) : bool :=
  match o with DSym _ n => (0 <=? v) && (v <=? n) | _ => (0 <=? v) && (v <=? 1) end.
Lemma res_okb_ok : forall o v, res_okb o v = true <-> res_ok o v.
Proof. intros [] v; cbn; lia. Qed.

(** A call made after any history returns a result in range. *)
Theorem result_range : forall W buf sz dis shape A n (p : dp A) cdfs (o : A -> dop),
  win W -> Forall is_byte buf -> 0 <= sz <= zlen buf -> wfp shape n p -> Z.of_nat n < max_calls ->
  cdfs_ok shape cdfs -> (forall a, op_ok shape (o a)) ->
  exists a v m cdfs',
    run_tile W buf sz dis (dbind p (fun a => DDo (o a) (fun v => DRet (a, v)))) cdfs = Ok ((a, v), m, cdfs') /\
    res_ok (o a) v.
Proof.
  intros W buf sz dis shape A n p cdfs o HW Hb Hsz Hp Hn Hc Ho.
  set (q := dbind p (fun a => DDo (o a) (fun v => if res_okb (o a) v then DRet (a, v) else DStuck))).
  assert (Hq : wfp shape (n + 1) q).
  { apply wfp_bind; auto. intros a. constructor; auto. intros v Hv.
    apply res_okb_ok in Hv. rewrite Hv. constructor. }
  destruct (safe W buf sz dis shape _ (n + 1) q cdfs HW Hb Hsz Hq ltac:(lia) Hc)
    as ([a v] & m & cdfs' & E & _).
  exists a, v, m, cdfs'. unfold run_tile in *.
  destruct (msac_init W buf sz dis) as [m0|]; cbn [obind] in *; [|discriminate].
  unfold q in E. rewrite drun_dbind in E |- *.
  destruct (drun W p m0 cdfs) as [[[a1 m1] c1]|]; cbn [obind] in *; [|discriminate].
  cbn [drun] in *. destruct (dstep W (o a1) m1 c1) as [[[v2 m2] c2]|]; cbn [obind] in *; [|discriminate].
  destruct (res_okb (o a1) v2) eqn:R; cbn [drun] in E; [|discriminate].
  inversion E. subst. split; auto. apply res_okb_ok. auto.
Qed.

Theorem cdfs_stay_valid : forall W buf sz dis shape A n (p : dp A) cdfs a m cdfs',
  win W -> Forall is_byte buf -> 0 <= sz <= zlen buf -> wfp shape n p -> Z.of_nat n <= max_calls ->
  cdfs_ok shape cdfs -> run_tile W buf sz dis p cdfs = Ok (a, m, cdfs') -> cdfs_ok shape cdfs'.
Proof.
  intros W buf sz dis shape A n p cdfs a m cdfs' HW Hb Hsz Hp Hn Hc R.
  destruct (tile_ok W buf sz dis shape A n p cdfs HW Hb Hsz Hp Hn Hc)
    as (a' & m' & c' & a2 & s2 & c2 & E1 & E2 & S & K & D).
  rewrite R in E1. inversion E1. subst. auto.
Qed.

(** Any number of adaptations of one array, whatever the symbols. *)
Fixpoint adapt_many (cdf : list Z) (n : Z) (syms : list Z) : outcome (list Z) :=
  match syms with
  | [] => Ok cdf
  | v :: syms => (let! cdf := adapt cdf v n in adapt_many cdf n syms)%outcome
  end.
Theorem adapt_forever : forall n syms cdf, cdf_ok n cdf -> Forall (fun v => 0 <= v <= n) syms ->
  exists cdf', adapt_many cdf n syms = Ok cdf' /\ cdf_ok n cdf' /\ zlen cdf' = zlen cdf /\
    spec_cdf n cdf' = fold_left (fun c v => adapt_cdf c (n + 1) v) syms (spec_cdf n cdf).
Proof.
  intros n syms. induction syms as [|v syms IH]; intros cdf Hc Hs; cbn [adapt_many fold_left].
  - exists cdf. auto.
  - inversion Hs; subst. destruct (adapt_ok n cdf v Hc H1) as (c1 & A1 & A2 & A3 & A4).
    rewrite A1. cbn [obind]. destruct (IH c1 A2 H2) as (c2 & B1 & B2 & B3 & B4).
    exists c2. split; auto. split; auto. split; [lia|]. rewrite B4, A4. auto.
Qed.

(** End of a superblock row: the tile is accepted exactly when the
    specification's conformance requirements hold. *)
Theorem tile_end : forall W buf sz dis shape A n (p : dp A) cdfs strict last,
  win W -> Forall is_byte buf -> 0 <= sz <= zlen buf -> wfp shape n p -> Z.of_nat n <= max_calls ->
  cdfs_ok shape cdfs ->
  exists a m cdfs' a2 s2 c2 r,
    run_tile W buf sz dis p cdfs = Ok (a, m, cdfs') /\
    spec_tile buf sz dis p (spec_cdfs shape cdfs) = Some (a2, s2, c2) /\
    tile_sbrow_end m strict last = Ok r /\ (r = 0 \/ r = 1) /\
    (r = 0 <-> -14 <= SymbolMaxBits s2 /\
       (strict = true -> last = true -> exit_conformant (stream_bit buf sz) sz s2)).
Proof.
  intros W buf sz dis shape A n p cdfs strict last HW Hb Hsz Hp Hn Hc.
  destruct (tile_ok W buf sz dis shape A n p cdfs HW Hb Hsz Hp Hn Hc)
    as (a & m & cdfs' & a2 & s2 & c2 & E1 & E2 & S & K & D).
  destruct D as [(G & _) | [(O1 & O2) L]].
  - destruct (trailing_ok W buf sz m s2 strict last HW Hb Hsz G) as (r & R1 & R2 & R3).
    exists a, m, cdfs', a2, s2, c2, r. auto.
  - exists a, m, cdfs', a2, s2, c2, 1. split; auto. split; auto. split.
    + unfold tile_sbrow_end. replace (ms_cnt m <=? -15) with true by lia. auto.
    + split; auto. split; lia.
Qed.

(** The composite readers, from any state reached by a program. *)
Lemma init_swf : forall buf sz, Forall is_byte buf -> 0 <= sz <= zlen buf ->
  swf sz (init_symbol (stream_bit buf sz) sz).
Proof.
  intros buf sz Hb Hsz. destruct (init_good 64 buf sz true (or_intror eq_refl) Hb Hsz) as (m & _ & G & _).
  eapply good_swf; eauto.
Qed.
Theorem spec_tile_swf : forall buf sz dis shape A n (p : dp A) cdfs a s c,
  Forall is_byte buf -> 0 <= sz <= zlen buf -> wfp shape n p -> cdfs_ok shape cdfs ->
  spec_tile buf sz dis p (spec_cdfs shape cdfs) = Some (a, s, c) -> swf sz s.
Proof.
  intros buf sz dis shape A n p cdfs a s c Hb Hsz Hp Hc E.
  destruct (spec_run buf sz dis shape A n p ltac:(lia) Hp _ cdfs (init_swf buf sz Hb Hsz) Hc)
    as (a' & s' & c' & E' & S & _).
  unfold spec_tile in E. rewrite E in E'. inversion E'. subst. auto.
Qed.

(** The composite readers are themselves well-formed programs. *)
Lemma wfp_bools : forall shape n v, wfp shape n (decode_bools_loop n v).
Proof. intros shape n. induction n; intros v; cbn [decode_bools_loop]; [constructor|].
  unfold dop_. cbn [dbind]. constructor; [exact I|]. auto. Qed.
Lemma wfp_uniform : forall shape n, 2 <= n < 2 ^ 30 -> wfp shape 31 (decode_uniform n).
Proof.
  intros shape n Hn. unfold decode_uniform, ulog2.
  assert (L : 1 <= Z.log2 n < 30).
  { split; [change 1 with (Z.log2 2); apply Z.log2_le_mono; lia|apply Z.log2_lt_pow2; lia]. }
  replace (negb (0 <? n)) with false by lia.
  replace (negb ((1 <? Z.log2 n + 1) && (Z.log2 n + 1 <? 31))) with false by lia.
  change 31%nat with (30 + 1)%nat. apply wfp_bind.
  - unfold decode_bools. eapply wfp_le; [apply wfp_bools|lia].
  - intros v. destruct (v <? _); [constructor|]. unfold dop_. cbn [dbind]. constructor; [exact I|]. constructor.
Qed.
Lemma wfp_subexp : forall shape ref k, 0 <= k <= 10 -> wfp shape 20 (decode_subexp ref (8 * 2 ^ k) k).
Proof.
  intros shape ref k Hk. unfold decode_subexp.
  assert (0 < 2 ^ k) by (apply pow2_pos; lia).
  replace (negb (Z.shiftr (8 * 2 ^ k) k =? 8)) with false.
  2:{ rewrite shiftr_div by lia. rewrite Z.div_mul by lia. reflexivity. }
  assert (B : forall a (k' : Z), 0 <= k' <= 12 ->
    wfp shape 12 (dbind (decode_bools k') (fun x => DRet (if ref * 2 <=? 8 * 2 ^ k
      then s32 (inv_recenter ref (u32 (x + a)))
      else s32 (u32 (8 * 2 ^ k - 1 - inv_recenter (8 * 2 ^ k - 1 - ref) (u32 (x + a)))))))).
  { intros a k' Hk'. change 12%nat with (12 + 0)%nat. apply wfp_bind; [|intros; constructor].
    eapply wfp_le; [apply wfp_bools|lia]. }
  unfold dop_. cbn [dbind]. constructor; [exact I|]. intros b1 H1. cbn in H1.
  destruct (z2b b1); cbn [dbind].
  - constructor; [exact I|]. intros b2 H2. cbn in H2. destruct (z2b b2); cbn [dbind].
    + constructor; [exact I|]. intros b3 H3. cbn in H3. eapply wfp_le; [apply B; lia|lia].
    + eapply wfp_le; [apply B; lia|lia].
  - eapply wfp_le; [apply B; lia|lia].
Qed.
Lemma wfp_hi_tok : forall shape i, 0 <= i < zlen shape -> nthZ shape i = 3 -> wfp shape 4 (decode_hi_tok i).
Proof.
  intros shape i Hi Hn. assert (Ho : op_ok shape (DSym i 3)) by (split; auto).
  unfold decode_hi_tok, dop_. cbn [dbind].
  constructor; auto. intros v1 _. destruct (v1 =? 3); cbn [dbind]; [|constructor].
  constructor; auto. intros v2 _. destruct (v2 =? 3); cbn [dbind]; [|constructor].
  constructor; auto. intros v3 _. destruct (v3 =? 3); cbn [dbind]; [|constructor].
  constructor; auto. intros v4 _. constructor.
Qed.

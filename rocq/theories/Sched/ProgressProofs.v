From Coq Require Import ZArith List Bool Lia.
From Verif Require Import Base.CInt Base.Lemmas Sched.Progress.
Import ListNotations.
Open Scope Z_scope.

Section P.
Variable c : cfg.
Hypothesis SBH : 1 <= sbh c <= 1024.

Lemma sbsz_eq : sbsz c = 2 ^ (sb_shift c + 2) /\ (sbsz c = 64 \/ sbsz c = 128).
Proof. unfold sbsz, sb_shift. destruct (sb128 c); cbn; auto. Qed.
Lemma prog_sz_eq : prog_sz c = (sbh c + 31) / 32.
Proof.
  unfold prog_sz. change 31 with (Z.ones 5) at 2. rewrite <- Z.ldiff_land, Z.ldiff_ones_r by lia.
  rewrite Z.shiftr_shiftl_l, Z.sub_diag, Z.shiftl_0_r, shiftr_div by lia. reflexivity.
Qed.
Lemma prog_sz_bounds : 32 * prog_sz c - 31 <= sbh c <= 32 * prog_sz c.
Proof. rewrite prog_sz_eq. pose proof (Z.div_mod (sbh c + 31) 32 ltac:(lia)). pose proof (Z.mod_pos_bound (sbh c + 31) 32 ltac:(lia)). lia. Qed.

(** Bit of a row. *)
Definition bit (ws : list Z) (r : Z) : bool := Z.testbit (nth (Z.to_nat (r / 32)) ws 0) (r mod 32).
Definition marked (p : phase) : Prop := match p with Working | Finished => False | _ => True end.
Definition holding (p : phase) : Prop :=
  match p with Locked | Scanning _ | Scanned _ | Storing _ _ | Stored _ => True | _ => False end.
Definition released (p : phase) : Prop := match p with Unlocked _ | Done => True | _ => False end.
Definition passed (p : phase) : Prop := holding p \/ released p.

(** The number of rows a progress value stands for. *)
Definition rows_of (p : Z) : Z := if p =? UINT_MAX then sbh c else p / sbsz c.
Definition covers (P : phase -> Prop) (s : st) (n : Z) : Prop := forall r, 0 <= r < n -> P (ph s r).

(** The obligations of the worker holding the lock. *)
Definition resok (s : st) (n : Z) : Prop :=
  0 <= n <= sbh c /\ (forall m, m <= sbh c -> covers passed s m -> m <= n) /\
  (fthr c = true -> pub s <> FRAME_ERROR -> rows_of (pub s) <= n) /\
  (covers marked s n \/ (fthr c = true /\ pub s = FRAME_ERROR)).
Definition holder (s : st) (p : phase) : Prop :=
  match p with
  | Scanning idx => 0 <= idx < prog_sz c /\ 32 * idx <= sbh c /\ covers marked s (32 * idx)
  | Scanned r => resok s (r + 1)
  | Storing r e => resok s (r + 1) /\ (e = true -> err s = true) /\ (fthr c = true -> pub s = FRAME_ERROR -> e = true)
  | Stored r => resok s (r + 1) /\ (fthr c = true -> pub s <> FRAME_ERROR -> rows_of (pub s) = r + 1)
  | _ => True
  end.
Record inv (s : st) : Prop := {
  i_len : zlen (words s) = prog_sz c;
  i_rng : forall w, In w (words s) -> 0 <= w < 2 ^ 32;
  i_bit : forall r, 0 <= r < sbh c -> (bit (words s) r = true <-> marked (ph s r));
  i_high : forall r, sbh c <= r -> bit (words s) r = false;
  i_lock : forall r, 0 <= r < sbh c -> (holding (ph s r) <-> lock s = Some r);
  i_lock2 : forall r, lock s = Some r -> 0 <= r < sbh c;
  i_pub : pub s = UINT_MAX \/ (pub s = FRAME_ERROR /\ err s = true) \/ (exists k, 0 <= k < sbh c /\ pub s = k * sbsz c);
  i_nofc : fthr c = false -> pub s = 0;
  i_safe : pub s <> FRAME_ERROR -> covers marked s (rows_of (pub s));
  i_live : fthr c = true -> pub s <> FRAME_ERROR -> forall m, m <= sbh c -> covers released s m -> m <= rows_of (pub s);
  i_hold : forall r, 0 <= r < sbh c -> holder s (ph s r);
  i_unl : forall r q, 0 <= r < sbh c -> ph s r = Unlocked q -> q + 1 = sbh c -> covers marked s (sbh c) \/ err s = true;
  i_done : done0 s = true -> covers marked s (sbh c) \/ err s = true;
  i_fin : covers released s (sbh c) -> done0 s = true \/ exists r q, 0 <= r < sbh c /\ ph s r = Unlocked q /\ q + 1 = sbh c }.

(** Words and bits. *)
Lemma ctz_from_spec : forall n i v, 0 <= i -> let k := ctz_from n i v in
  i <= k <= i + Z.of_nat n /\ (forall j, i <= j < k -> Z.testbit v j = false) /\ (k < i + Z.of_nat n -> Z.testbit v k = true).
Proof.
  induction n as [|n IH]; intros i v I; cbv zeta.
  - cbn. split; [lia|]. split; [lia|lia].
  - cbn [ctz_from]. destruct (Z.testbit v i) eqn:E.
    + split; [lia|]. split; [lia|auto].
    + destruct (IH (i + 1) v ltac:(lia)) as (A & B & C). split; [lia|]. split.
      * intros j J. destruct (Z.eq_dec j i) as [->|]; [auto|]. apply B. lia.
      * intros L. apply C. lia.
Qed.
Lemma not32_bit : forall w i, 0 <= i < 32 -> Z.testbit (u32 (Z.lnot w)) i = negb (Z.testbit w i).
Proof. intros w i I. unfold u32. rewrite Z.mod_pow2_bits_low by lia. apply Z.lnot_spec. lia. Qed.
Lemma ctz_not : forall w, u32 (Z.lnot w) <> 0 -> let k := ctz (u32 (Z.lnot w)) in
  0 <= k < 32 /\ (forall j, 0 <= j < k -> Z.testbit w j = true) /\ Z.testbit w k = false.
Proof.
  intros w N. cbv zeta. unfold ctz. destruct (ctz_from_spec 32 0 (u32 (Z.lnot w)) ltac:(lia)) as (A & B & C).
  change (0 + Z.of_nat 32) with 32 in *.
  assert (L : ctz_from 32 0 (u32 (Z.lnot w)) < 32).
  { apply Z.nle_gt. intros G. apply N. apply Z.bits_inj'. intros i I. rewrite Z.bits_0.
    destruct (Z_lt_le_dec i 32).
    - apply B. lia.
    - pose proof (u32_range (Z.lnot w)). apply testbit_small with 32; lia. }
  split; [lia|]. split.
  - intros j J. specialize (B j ltac:(lia)). rewrite not32_bit in B by lia. destruct (Z.testbit w j); [auto|discriminate].
  - specialize (C L). rewrite not32_bit in C by lia. destruct (Z.testbit w _); [discriminate|auto].
Qed.
Lemma full_word : forall w, u32 (Z.lnot w) = 0 -> forall j, 0 <= j < 32 -> Z.testbit w j = true.
Proof. intros w E j J. pose proof (not32_bit w j J) as H. rewrite E, Z.bits_0 in H. destruct (Z.testbit w j); [auto|discriminate]. Qed.
Lemma bit_word : forall ws idx j, 0 <= idx -> 0 <= j < 32 -> bit ws (32 * idx + j) = Z.testbit (nth (Z.to_nat idx) ws 0) j.
Proof.
  intros ws idx j I J. unfold bit. replace (32 * idx + j) with (j + idx * 32) by lia.
  rewrite Z.div_add, Z.mod_add, Z.div_small, Z.mod_small by lia. reflexivity.
Qed.
Lemma lor_idx : forall idx p, 0 <= idx -> 0 <= p < 32 -> Z.lor (Z.shiftl idx 5) p = 32 * idx + p.
Proof. intros. rewrite shiftl_mul by lia. rewrite lor_shift_add by (change (2 ^ 5) with 32; lia). change (2 ^ 5) with 32. lia. Qed.

Lemma rows_of_k : forall k, 0 <= k < sbh c -> k * sbsz c < FRAME_ERROR /\ rows_of (k * sbsz c) = k.
Proof.
  intros k K. destruct sbsz_eq as (_ & S). unfold rows_of, FRAME_ERROR, UINT_MAX.
  assert (k * sbsz c < 4294967294) by nia. split; [lia|]. destruct (Z.eqb_spec (k * sbsz c) 4294967295); [lia|].
  apply Z.div_mul. lia.
Qed.
Lemma rows_of_max : rows_of UINT_MAX = sbh c.
Proof. reflexivity. Qed.
Lemma rows_bound : forall s, inv s -> pub s <> FRAME_ERROR -> 0 <= rows_of (pub s) <= sbh c.
Proof.
  intros s I N. destruct (i_pub s I) as [->|[(E & _)|(k & K & ->)]].
  - rewrite rows_of_max. lia.
  - contradiction.
  - rewrite (proj2 (rows_of_k k K)). lia.
Qed.

Lemma not_holding_trivial : forall s p, ~ holding p -> holder s p.
Proof. intros s p N. destruct p; cbn in *; auto; tauto. Qed.
Lemma released_marked : forall p, released p -> marked p. Proof. intros []; cbn; auto. Qed.
Lemma holding_marked : forall p, holding p -> marked p. Proof. intros []; cbn; auto. Qed.
Lemma passed_marked : forall p, passed p -> marked p. Proof. intros p [H|H]; [apply holding_marked|apply released_marked]; auto. Qed.
Lemma released_passed : forall p, released p -> passed p. Proof. right. auto. Qed.
Lemma holding_not_released : forall p, holding p -> ~ released p. Proof. intros []; cbn; auto. Qed.
Lemma covers_mono : forall (P Q : phase -> Prop) s s' n, (forall r, P (ph s r) -> Q (ph s' r)) -> covers P s n -> covers Q s' n.
Proof. unfold covers. auto. Qed.
Lemma covers_le : forall P s n m, m <= n -> covers P s n -> covers P s m.
Proof. unfold covers. intros. apply H0. lia. Qed.

(** Steps that keep the words, the published value and the error flag. *)
Lemma resok_frame : forall s s' n, pub s' = pub s -> (forall r, marked (ph s r) -> marked (ph s' r)) -> (forall r, passed (ph s' r) -> passed (ph s r)) ->
  resok s n -> resok s' n.
Proof.
  intros s s' n E M P (A & B & C & D). unfold resok. rewrite E. split; [auto|]. split.
  - intros m L Cv. apply B; auto. eapply covers_mono; [|exact Cv]. auto.
  - split; [auto|]. destruct D as [D|D]; [left|auto]. eapply covers_mono; [|exact D]. auto.
Qed.
Lemma holder_frame : forall s s' p, pub s' = pub s -> (err s = true -> err s' = true) -> (forall r, marked (ph s r) -> marked (ph s' r)) ->
  (forall r, passed (ph s' r) -> passed (ph s r)) -> holder s p -> holder s' p.
Proof.
  intros s s' p E Er M P. pose proof (fun n => resok_frame s s' n E M P) as RF. destruct p; cbn [holder]; auto.
  - intros (A & B & C). split; [auto|]. split; [auto|]. eapply covers_mono; [|exact C]. auto.
  - intros (A & B & C). rewrite E. auto.
  - intros (A & B). rewrite E. auto.
Qed.

(** A row step that changes only phases, keeping the marked set and with holding unchanged. *)
Lemma inv_quiet : forall s row p', inv s -> 0 <= row < sbh c ->
  (marked (ph s row) <-> marked p') -> (holding (ph s row) <-> holding p') -> (released (ph s row) <-> released p') ->
  (forall q, ph s row <> Unlocked q) -> (forall q, p' <> Unlocked q) ->
  holder (mkSt (words s) (pub s) (err s) (lock s) (upd (ph s) row p') (done0 s)) p' ->
  inv (mkSt (words s) (pub s) (err s) (lock s) (upd (ph s) row p') (done0 s)).
Proof.
  intros s row p' I R M H Rl NU NU' HO.
  set (s' := mkSt (words s) (pub s) (err s) (lock s) (upd (ph s) row p') (done0 s)) in *.
  assert (EM : forall r, marked (ph s' r) <-> marked (ph s r)).
  { intros r. cbn. unfold upd. destruct (Z.eqb_spec r row) as [->|]; [symmetry; auto|tauto]. }
  assert (ER : forall r, released (ph s' r) <-> released (ph s r)).
  { intros r. cbn. unfold upd. destruct (Z.eqb_spec r row) as [->|]; [symmetry; auto|tauto]. }
  assert (EH : forall r, holding (ph s' r) <-> holding (ph s r)).
  { intros r. cbn. unfold upd. destruct (Z.eqb_spec r row) as [->|]; [symmetry; auto|tauto]. }
  assert (EP : forall r, passed (ph s' r) <-> passed (ph s r)) by (intros r; unfold passed; rewrite EH, ER; tauto).
  assert (CM : forall n, covers marked s n -> covers marked s' n) by (intros n; apply covers_mono; intros r; apply EM).
  constructor; try apply I.
  - intros r Rr. rewrite EM. apply (i_bit s I r Rr).
  - intros r Rr. rewrite EH. apply (i_lock s I r Rr).
  - intros N. apply CM. apply (i_safe s I N).
  - intros F N m Lm Cv. apply (i_live s I F N m Lm). eapply covers_mono; [|exact Cv]. intros r. apply ER.
  - intros r Rr. cbn. unfold upd. destruct (Z.eqb_spec r row) as [->|NE]; [auto|].
    eapply holder_frame; [..|apply (i_hold s I r Rr)]; auto; intros r'; [apply EM|apply EP].
  - intros r q Rr E Q. cbn in E. unfold upd in E. destruct (Z.eqb_spec r row) as [->|NE]; [exfalso; eapply NU'; eauto|].
    destruct (i_unl s I r q Rr E Q); auto.
  - intros Dn. destruct (i_done s I Dn); auto.
  - intros Cv. destruct (i_fin s I) as [A|(r & q & A & B & C)].
    + eapply covers_mono; [|exact Cv]. intros r. apply ER.
    + auto.
    + right. exists r, q. split; [auto|]. split; [|auto]. cbn. unfold upd. destruct (Z.eqb_spec r row) as [->|NE]; [exfalso; eapply NU; eauto|auto].
Qed.

Lemma inv_err : forall s, inv s -> inv (set_err s).
Proof.
  intros s I. constructor; try apply I; auto.
  - destruct (i_pub s I) as [A|[(A & B)|A]]; [left|right; left|right; right]; auto.
  - intros r R. eapply holder_frame; [..|apply (i_hold s I r R)]; auto.
Qed.

Lemma shiftr5 : forall r, Z.shiftr r 5 = r / 32. Proof. intros. rewrite shiftr_div by lia. reflexivity. Qed.
Lemma land31 : forall r, Z.land r 31 = r mod 32. Proof. intros. apply (land_ones_mod r 5). lia. Qed.

(** Setting a bit. *)
Lemma mark_words : forall ws row, 0 <= row < 32 * zlen ws -> (forall w, In w ws -> 0 <= w < 2 ^ 32) -> exists w ws',
  rd_at ws (Z.shiftr row 5) = Ok w /\ wr_at ws (Z.shiftr row 5) (u32 (Z.lor w (Z.shiftl 1 (Z.land row 31)))) = Ok ws' /\
  zlen ws' = zlen ws /\ (forall w, In w ws' -> 0 <= w < 2 ^ 32) /\
  (forall r, 0 <= r -> bit ws' r = if r =? row then true else bit ws r).
Proof.
  intros ws row R W. rewrite shiftr5, land31.
  pose proof (Z.div_mod row 32 ltac:(lia)) as DM. pose proof (Z.mod_pos_bound row 32 ltac:(lia)) as MB.
  assert (B : 0 <= row / 32 < zlen ws) by (split; [apply Z.div_pos; lia|apply Z.div_lt_upper_bound; lia]).
  exists (nth (Z.to_nat (row / 32)) ws 0). eexists. split; [apply rd_at_nth; auto|].
  unfold wr_at. fold (zlen ws). destruct (Z.leb_spec 0 (row / 32)); [|lia]. destruct (Z.ltb_spec (row / 32) (zlen ws)); [|lia]. cbn [andb].
  split; [reflexivity|]. unfold zlen in *. rewrite upd_nat_length. split; [auto|]. split.
  - intros w H1. apply In_nth with (d := 0) in H1. destruct H1 as (n & L & <-). rewrite upd_nat_length in L. rewrite upd_nat_nth by lia.
    destruct (Nat.eqb _ _); [apply u32_range|]. apply W. apply nth_In. auto.
  - intros r Rr. unfold bit. rewrite upd_nat_nth by lia.
    pose proof (Z.div_mod r 32 ltac:(lia)) as DM'. pose proof (Z.mod_pos_bound r 32 ltac:(lia)) as MB'.
    destruct (Nat.eqb_spec (Z.to_nat (r / 32)) (Z.to_nat (row / 32))) as [E|E].
    + assert (E2 : r / 32 = row / 32) by (pose proof (Z.div_pos r 32 ltac:(lia) ltac:(lia)); lia).
      unfold u32. rewrite Z.mod_pow2_bits_low by lia. rewrite Z.lor_spec, Z.shiftl_spec by lia.
      rewrite E2. destruct (Z.eqb_spec r row) as [->|N].
      * rewrite Z.sub_diag. cbn. apply orb_true_r.
      * replace (Z.testbit 1 (r mod 32 - row mod 32)) with false; [apply orb_false_r|]. symmetry.
        destruct (Z_lt_le_dec (r mod 32) (row mod 32)); [apply Z.testbit_neg_r; lia|]. apply testbit_small with 1; lia.
    + destruct (Z.eqb_spec r row) as [->|N]; [contradiction|auto].
Qed.

Lemma inv_step : forall s row s', inv s -> 0 <= row < sbh c -> step c s row = Next s' -> inv s'.
Proof.
  intros s row s' I R ST. pose proof prog_sz_bounds as PB. unfold step in ST.
  pose proof (i_hold s I row R) as HO. pose proof (i_lock s I row R) as HL.
  destruct (ph s row) eqn:P; cbn [holding holder] in HO, HL.
  - (* Working *) injection ST as <-. apply inv_quiet; auto; rewrite ?P; cbn; try tauto; congruence.
  - (* Finished *)
    destruct (mark_words (words s) row) as (w & ws & E1 & E2 & L & G & B); [rewrite (i_len s I); lia|apply I|].
    rewrite E1, E2 in ST. injection ST as <-.
    set (s' := mkSt ws (pub s) (err s) (lock s) (upd (ph s) row Marked) (done0 s)).
    assert (M : forall r, marked (ph s r) -> marked (ph s' r)) by (intros r; cbn; unfold upd; destruct (Z.eqb_spec r row) as [->|]; cbn; auto).
    assert (EP : forall r, passed (ph s' r) <-> passed (ph s r)).
    { intros r. cbn. unfold upd. destruct (Z.eqb_spec r row) as [->|]; [|tauto]. rewrite P. unfold passed. cbn. tauto. }
    assert (ER : forall r, released (ph s' r) <-> released (ph s r)).
    { intros r. cbn. unfold upd. destruct (Z.eqb_spec r row) as [->|]; [|tauto]. rewrite P. cbn. tauto. }
    assert (CM : forall n, covers marked s n -> covers marked s' n) by (intros n; apply covers_mono; auto).
    constructor; try apply I; auto.
    + rewrite <- (i_len s I). auto.
    + intros r Rr. cbn. rewrite B by lia. unfold upd. destruct (Z.eqb_spec r row) as [->|]; [cbn; tauto|]. apply (i_bit s I r Rr).
    + intros r Rr. cbn. rewrite B by lia. destruct (Z.eqb_spec r row); [lia|]. apply (i_high s I r Rr).
    + intros r Rr. cbn. unfold upd. destruct (Z.eqb_spec r row) as [->|]; [cbn; tauto|]. apply (i_lock s I r Rr).
    + intros N. apply CM. apply (i_safe s I N).
    + intros F N m Lm Cv. apply (i_live s I F N m Lm). eapply covers_mono; [|exact Cv]. intros r. apply ER.
    + intros r Rr. destruct (Z.eq_dec r row) as [->|NE].
      * cbn. unfold upd. rewrite Z.eqb_refl. exact Logic.I.
      * replace (ph s' r) with (ph s r) by (cbn; unfold upd; destruct (Z.eqb_spec r row); [contradiction|auto]).
        eapply holder_frame; [..|apply (i_hold s I r Rr)]; auto; intros r'; apply EP.
    + intros r q Rr E Q. cbn in E. unfold upd in E. destruct (Z.eqb_spec r row) as [->|NE]; [discriminate|].
      destruct (i_unl s I r q Rr E Q); auto.
    + intros Dn. destruct (i_done s I Dn); auto.
    + intros Cv. exfalso. specialize (Cv row R). cbn in Cv. unfold upd in Cv. rewrite Z.eqb_refl in Cv. exact Cv.
  - (* Marked *)
    destruct (lock s) eqn:LK; [discriminate|]. injection ST as <-.
    set (s' := mkSt (words s) (pub s) (err s) (Some row) (upd (ph s) row Locked) (done0 s)).
    assert (NH : forall r, 0 <= r < sbh c -> ~ holding (ph s r)) by (intros r Rr H; apply (i_lock s I r Rr) in H; congruence).
    assert (EM : forall r, marked (ph s' r) <-> marked (ph s r)).
    { intros r. cbn. unfold upd. destruct (Z.eqb_spec r row) as [->|]; [|tauto]. rewrite P. cbn. tauto. }
    assert (ER : forall r, released (ph s' r) <-> released (ph s r)).
    { intros r. cbn. unfold upd. destruct (Z.eqb_spec r row) as [->|]; [|tauto]. rewrite P. cbn. tauto. }
    assert (CM : forall n, covers marked s n -> covers marked s' n) by (intros n; apply covers_mono; intros r; apply EM).
    constructor; try apply I; auto.
    + intros r Rr. rewrite EM. apply (i_bit s I r Rr).
    + intros r Rr. cbn. unfold upd. destruct (Z.eqb_spec r row) as [->|NE]; [cbn; tauto|]. split; [intros H; exfalso; apply (NH r Rr H)|congruence].
    + cbn. intros r E. injection E as <-. auto.
    + intros N. apply CM. apply (i_safe s I N).
    + intros F N m Lm Cv. apply (i_live s I F N m Lm). eapply covers_mono; [|exact Cv]. intros r. apply ER.
    + intros r Rr. cbn. unfold upd. destruct (Z.eqb_spec r row) as [->|NE]; [exact Logic.I|]. apply not_holding_trivial. auto.
    + intros r q Rr E Q. cbn in E. unfold upd in E. destruct (Z.eqb_spec r row) as [->|NE]; [discriminate|].
      destruct (i_unl s I r q Rr E Q); auto.
    + intros Dn. destruct (i_done s I Dn); auto.
    + intros Cv. exfalso. specialize (Cv row R). cbn in Cv. unfold upd in Cv. rewrite Z.eqb_refl in Cv. exact Cv.
  - (* Locked *)
    assert (LK : lock s = Some row) by tauto.
    destruct (Z.leb_spec FRAME_ERROR (if fthr c then pub s else 0)) as [FE|FE]; injection ST as <-.
    + (* error, or everything finished *)
      assert (F : fthr c = true) by (destruct (fthr c); [auto|unfold FRAME_ERROR, UINT_MAX in FE; lia]). rewrite F in FE.
      apply inv_quiet; auto; rewrite ?P; cbn [marked holding released]; try tauto; try congruence.
      cbn [holder]. unfold resok. split; [lia|]. cbn [pub]. split; [lia|]. split.
      * intros _ N. pose proof (rows_bound s I N). lia.
      * destruct (i_pub s I) as [E|[(E & _)|(k & K & E)]].
        -- left. replace (sbh c - 1 + 1) with (sbh c) by lia.
           assert (N : pub s <> FRAME_ERROR) by (rewrite E; unfold FRAME_ERROR, UINT_MAX; lia).
           pose proof (i_safe s I N) as Cv. rewrite E, rows_of_max in Cv. eapply covers_mono; [|exact Cv].
           intros r. cbn. unfold upd. destruct (Z.eqb_spec r row); cbn; auto.
        -- right. auto.
        -- destruct (rows_of_k k K). lia.
    + (* start of the scan *)
      apply inv_quiet; auto; rewrite ?P; cbn [marked holding released]; try tauto; try congruence.
      cbn [holder].
      assert (IX : exists k, 0 <= k < sbh c /\ Z.shiftr (if fthr c then pub s else 0) (sb_shift c + 7) = k / 32 /\ covers marked s k).
      { destruct (fthr c) eqn:F.
        - destruct (i_pub s I) as [E|[(E & _)|(k & K & E)]]; [rewrite E in FE; unfold FRAME_ERROR in FE; lia|lia|].
          exists k. split; [auto|]. split.
          + rewrite E. destruct sbsz_eq as (-> & _). assert (SS : 0 <= sb_shift c) by (unfold sb_shift; destruct (sb128 c); cbn; lia).
            rewrite shiftr_div by lia. replace (sb_shift c + 7) with (sb_shift c + 2 + 5) by lia. rewrite (Z.pow_add_r 2 (sb_shift c + 2) 5) by lia.
            rewrite <- Z.div_div by (try apply Z.pow_nonzero; try apply Z.pow_pos_nonneg; lia).
            rewrite Z.div_mul by (apply Z.pow_nonzero; lia). reflexivity.
          + assert (N : pub s <> FRAME_ERROR) by lia. pose proof (i_safe s I N) as Cv. rewrite E in Cv. rewrite (proj2 (rows_of_k k K)) in Cv. auto.
        - exists 0. split; [lia|]. split; [rewrite Z.shiftr_0_l; reflexivity|]. intros r Hr. lia. }
      destruct IX as (k & K & -> & Cv).
      pose proof (Z.div_mod k 32 ltac:(lia)). pose proof (Z.mod_pos_bound k 32 ltac:(lia)). pose proof (Z.div_pos k 32 ltac:(lia) ltac:(lia)).
      split; [lia|]. split; [lia|]. apply covers_le with k; [lia|]. eapply covers_mono; [|exact Cv].
      intros r. cbn. unfold upd. destruct (Z.eqb_spec r row); cbn; auto.
  - (* Scanning *)
    assert (LK : lock s = Some row) by tauto. destruct HO as (IX & IS & Cv).
    rewrite (rd_at_nth _ _ _ 0) in ST by (rewrite (i_len s I); lia).
    set (w := nth (Z.to_nat idx) (words s) 0) in *.
    assert (BW : forall j, 0 <= j < 32 -> Z.testbit w j = bit (words s) (32 * idx + j)) by (intros j J; symmetry; apply bit_word; lia).
    (* every row below n marked, n itself not: the result *)
    assert (RES : forall n p', 32 * idx <= n <= 32 * idx + 32 -> (forall j, 0 <= j < n - 32 * idx -> Z.testbit w j = true) ->
      (n < sbh c -> bit (words s) n = false) -> n <= sbh c -> p' = Scanned (n - 1) ->
      holder (mkSt (words s) (pub s) (err s) (lock s) (upd (ph s) row p') (done0 s)) p').
    { intros n p' N1 N2 N3 N4 ->. cbn [holder].
      assert (CN : covers marked s n).
      { intros r Rr. destruct (Z_lt_le_dec r (32 * idx)); [apply Cv; lia|]. apply (i_bit s I r); [lia|].
        replace r with (32 * idx + (r - 32 * idx)) by lia. rewrite <- BW by lia. apply N2. lia. }
      unfold resok. replace (n - 1 + 1) with n by lia. split; [lia|].
      assert (UB : forall m, m <= sbh c -> covers marked s m -> m <= n).
      { intros m Lm Cm. destruct (Z_le_gt_dec m n); [auto|]. exfalso. assert (LN : n < sbh c) by lia.
        assert (M : marked (ph s n)) by (apply Cm; lia). apply (i_bit s I n) in M; [|lia]. rewrite (N3 LN) in M. discriminate. }
      split; [|split].
      - intros m Lm Cm. apply UB; [auto|]. eapply covers_mono; [|exact Cm]. intros r. cbn. unfold upd. destruct (Z.eqb_spec r row) as [->|].
        + rewrite P. cbn. auto.
        + apply passed_marked.
      - intros F N. cbn [pub] in *. apply UB; [pose proof (rows_bound s I N); lia|]. apply (i_safe s I N).
      - left. eapply covers_mono; [|exact CN]. intros r. cbn. unfold upd. destruct (Z.eqb_spec r row); cbn; auto. }
    destruct (Z.eqb_spec (u32 (Z.lnot w)) 0) as [E0|E0]; cbn [negb] in ST.
    + pose proof (full_word w E0) as FW.
      assert (LE : 32 * (idx + 1) <= sbh c).
      { destruct (Z_le_gt_dec (32 * (idx + 1)) (sbh c)); [auto|]. exfalso.
        assert (J : 0 <= Z.max 0 (sbh c - 32 * idx) < 32) by lia. pose proof (FW _ J) as Q. rewrite BW in Q by auto.
        rewrite (i_high s I) in Q by lia. discriminate. }
      destruct (Z.ltb_spec (idx + 1) (prog_sz c)) as [LT|GE]; injection ST as <-.
      * apply inv_quiet; auto; rewrite ?P; cbn [marked holding released]; try tauto; try congruence.
        cbn [holder]. split; [lia|]. split; [lia|].
        intros r Rr. cbn. unfold upd. destruct (Z.eqb_spec r row) as [->|]; [exact Logic.I|].
        destruct (Z_lt_le_dec r (32 * idx)); [apply Cv; lia|]. apply (i_bit s I r); [lia|].
        replace r with (32 * idx + (r - 32 * idx)) by lia. rewrite <- BW by lia. apply FW. lia.
      * assert (EQ : Z.lor (Z.shiftl (idx + 1) 5) 0 = 32 * (idx + 1)) by (rewrite lor_idx; lia). rewrite EQ.
        apply inv_quiet; auto; rewrite ?P; cbn [marked holding released]; try tauto; try congruence.
        apply RES with (n := 32 * (idx + 1)); auto; try lia. intros j J. apply FW. lia.
    + destruct (ctz_not w E0) as (C1 & C2 & C3). injection ST as <-. rewrite lor_idx by lia.
      set (k := ctz (u32 (Z.lnot w))) in *. rewrite BW in C3 by auto.
      apply inv_quiet; auto; rewrite ?P; cbn [marked holding released]; try tauto; try congruence.
      apply RES with (n := 32 * idx + k); auto; try lia.
      * intros j J. apply C2. lia.
      * destruct (Z_le_gt_dec (32 * idx + k) (sbh c)); [auto|]. exfalso.
        assert (Q : Z.testbit w (sbh c - 32 * idx) = true) by (apply C2; lia). rewrite BW in Q by lia.
        rewrite (i_high s I) in Q by lia. discriminate.
  - (* Scanned *) injection ST as <-. apply inv_quiet; auto; rewrite ?P; cbn [marked holding released]; try tauto; try congruence.
    cbn [holder]. split; [|split].
    + eapply resok_frame; [..|exact HO]; auto; intros r'; cbn; unfold upd; destruct (Z.eqb_spec r' row) as [->|]; auto; rewrite ?P; unfold passed; cbn; auto.
    + auto.
    + intros F E. cbn [pub err] in *. destruct (i_pub s I) as [A|[(A & B)|(k & K & A)]]; auto.
      * rewrite A in E. unfold FRAME_ERROR, UINT_MAX in E. lia.
      * destruct (rows_of_k k K). lia.
  - (* Storing *)
    assert (LK : lock s = Some row) by tauto. destruct HO as (RK & E1 & E2).
    assert (PH : forall ws pb er lk dn r', marked (ph s r') <-> marked (ph (mkSt ws pb er lk (upd (ph s) row (Stored r)) dn) r')).
    { intros ws pb er lk dn r'. cbn. unfold upd. destruct (Z.eqb_spec r' row) as [->|]; [rewrite P|]; cbn; tauto. }
    destruct (fthr c) eqn:F; injection ST as <-.
    + set (y := if r + 1 =? sbh c then UINT_MAX else u32 ((r + 1) * sbsz c)).
      set (s' := mkSt (words s) (if e then FRAME_ERROR else y) (err s) (lock s) (upd (ph s) row (Stored r)) (done0 s)).
      destruct RK as (RB & RL & RM & RC).
      assert (EM : forall r', marked (ph s r') <-> marked (ph s' r')) by (intros r'; apply PH).
      assert (EO : forall r', r' <> row -> ph s' r' = ph s r') by (intros r' N; cbn; unfold upd; destruct (Z.eqb_spec r' row); [contradiction|auto]).
      assert (ER : forall r', released (ph s' r') <-> released (ph s r')).
      { intros r'. cbn. unfold upd. destruct (Z.eqb_spec r' row) as [->|]; [rewrite P|]; cbn; tauto. }
      assert (EP : forall r', passed (ph s' r') <-> passed (ph s r')).
      { intros r'. cbn. unfold upd. destruct (Z.eqb_spec r' row) as [->|]; [rewrite P|]; unfold passed; cbn; tauto. }
      assert (Y : y <> FRAME_ERROR /\ rows_of y = r + 1 /\ (y = UINT_MAX \/ exists k, 0 <= k < sbh c /\ y = k * sbsz c)).
      { unfold y. destruct (Z.eqb_spec (r + 1) (sbh c)) as [Q|Q].
        - split; [unfold FRAME_ERROR, UINT_MAX; lia|]. split; [rewrite rows_of_max; auto|auto].
        - destruct (rows_of_k (r + 1) ltac:(lia)) as (A & B). destruct sbsz_eq as (_ & SZ).
          rewrite u32_id by (unfold FRAME_ERROR, UINT_MAX in A; nia). split; [lia|]. split; [auto|]. right. exists (r + 1). split; [lia|auto]. }
      destruct Y as (Y1 & Y2 & Y3).
      assert (CM : forall n, covers marked s n -> covers marked s' n) by (intros n; apply covers_mono; intros r'; apply EM).
      assert (CC : e = false -> covers marked s' (r + 1)).
      { intros ->. destruct RC as [RC|(_ & RC)]; [auto|]. specialize (E2 eq_refl RC). discriminate. }
      constructor; try apply I.
      * intros r' R'. rewrite <- EM. apply (i_bit s I r' R').
      * intros r' R'. cbn. unfold upd. destruct (Z.eqb_spec r' row) as [->|NE]; [cbn; tauto|]. apply (i_lock s I r' R').
      * cbn. destruct e; [right; left; auto|]. destruct Y3; auto.
      * congruence.
      * cbn. destruct e; [congruence|]. intros _. rewrite Y2. auto.
      * cbn. destruct e; [congruence|]. intros _ _ m Lm Cv. rewrite Y2. apply RL; [auto|]. eapply covers_mono; [|exact Cv].
        intros r' H. apply ER in H. apply released_passed. auto.
      * intros r' R'. destruct (Z.eq_dec r' row) as [->|NE].
        -- cbn. unfold upd. rewrite Z.eqb_refl. cbn [holder]. split.
           ++ unfold resok. split; [auto|]. split.
              ** intros m Lm Cv. apply RL; [auto|]. eapply covers_mono; [|exact Cv]. intros q. apply EP.
              ** cbn [pub s']. destruct e; [split; [congruence|right; auto]|]. split; [rewrite Y2; lia|left; auto].
           ++ cbn [pub s']. destruct e; [congruence|auto].
        -- rewrite (EO r' NE). apply not_holding_trivial. intros H. apply (i_lock s I r' R') in H. congruence.
      * intros r' q R' E Q. destruct (Z.eq_dec r' row) as [->|NE].
        -- cbn in E. unfold upd in E. rewrite Z.eqb_refl in E. discriminate.
        -- rewrite (EO r' NE) in E. destruct (i_unl s I r' q R' E Q); auto.
      * intros Dn. destruct (i_done s I Dn); auto.
      * intros Cv. exfalso. specialize (Cv row R). cbn in Cv. unfold upd in Cv. rewrite Z.eqb_refl in Cv. exact Cv.
    + apply inv_quiet; auto; rewrite ?P; cbn [marked holding released]; try tauto; try congruence.
      cbn [holder]. split; [|congruence].
      eapply resok_frame; [..|exact RK]; auto; intros r'; cbn; unfold upd; destruct (Z.eqb_spec r' row) as [->|]; auto; rewrite ?P; unfold passed; cbn; auto.
  - (* Stored *)
    assert (LK : lock s = Some row) by tauto. injection ST as <-. destruct HO as ((RB & RL & RM & RC) & E1).
    set (s' := mkSt (words s) (pub s) (err s) None (upd (ph s) row (Unlocked r)) (done0 s)).
    assert (NH : forall r', 0 <= r' < sbh c -> r' <> row -> ~ holding (ph s r')) by (intros r' Rr N H; apply (i_lock s I r' Rr) in H; congruence).
    assert (EM : forall r', marked (ph s' r') <-> marked (ph s r')).
    { intros r'. cbn. unfold upd. destruct (Z.eqb_spec r' row) as [->|]; [rewrite P|]; cbn; tauto. }
    assert (EO : forall r', r' <> row -> ph s' r' = ph s r') by (intros r' N; cbn; unfold upd; destruct (Z.eqb_spec r' row); [contradiction|auto]).
    assert (EP : forall r', released (ph s' r') -> passed (ph s r')).
    { intros r'. cbn. unfold upd. destruct (Z.eqb_spec r' row) as [->|]; [rewrite P; unfold passed; cbn; auto|]. apply released_passed. }
    assert (CM : forall n, covers marked s n -> covers marked s' n) by (intros n; apply covers_mono; intros r'; apply EM).
    constructor; try apply I; auto.
    + intros r' R'. rewrite EM. apply (i_bit s I r' R').
    + intros r' R'. destruct (Z.eq_dec r' row) as [->|NE].
      * cbn. unfold upd. rewrite Z.eqb_refl. cbn. split; [tauto|discriminate].
      * rewrite (EO r' NE). cbn. split; [|discriminate]. intros H. exfalso. apply (NH r' R' NE H).
    + cbn. discriminate.
    + intros N. apply CM. apply (i_safe s I N).
    + cbn. intros F N m Lm Cv. rewrite (E1 F N). apply RL; [auto|]. eapply covers_mono; [|exact Cv]. auto.
    + intros r' R'. destruct (Z.eq_dec r' row) as [->|NE].
      * cbn. unfold upd. rewrite Z.eqb_refl. exact Logic.I.
      * rewrite (EO r' NE). apply not_holding_trivial. auto.
    + intros r' q R' E Q. destruct (Z.eq_dec r' row) as [->|NE].
      * cbn in E. unfold upd in E. rewrite Z.eqb_refl in E. injection E as <-. destruct RC as [RC|(_ & RC)].
        -- left. rewrite <- Q. auto.
        -- right. cbn. destruct (i_pub s I) as [A|[(A & B)|(k & K & A)]]; auto.
           ++ rewrite A in RC. unfold FRAME_ERROR, UINT_MAX in RC. lia.
           ++ destruct (rows_of_k k K). lia.
      * rewrite (EO r' NE) in E. destruct (i_unl s I r' q R' E Q); auto.
    + intros Dn. destruct (i_done s I Dn); auto.
    + intros Cv. right. exists row, r. split; [auto|]. split; [cbn; unfold upd; rewrite Z.eqb_refl; auto|].
      assert (sbh c <= r + 1) by (apply RL; [lia|]; eapply covers_mono; [|exact Cv]; auto). lia.
  - (* Unlocked *)
    injection ST as <-.
    set (s' := mkSt (words s) (pub s) (err s) (lock s) (upd (ph s) row Done) (done0 s || (r + 1 =? sbh c))).
    assert (EM : forall r', marked (ph s' r') <-> marked (ph s r')).
    { intros r'. cbn. unfold upd. destruct (Z.eqb_spec r' row) as [->|]; [rewrite P|]; cbn; tauto. }
    assert (EH : forall r', holding (ph s' r') <-> holding (ph s r')).
    { intros r'. cbn. unfold upd. destruct (Z.eqb_spec r' row) as [->|]; [rewrite P|]; cbn; tauto. }
    assert (ER : forall r', released (ph s' r') <-> released (ph s r')).
    { intros r'. cbn. unfold upd. destruct (Z.eqb_spec r' row) as [->|]; [rewrite P|]; cbn; tauto. }
    assert (EP : forall r', passed (ph s' r') <-> passed (ph s r')) by (intros r'; unfold passed; rewrite EH, ER; tauto).
    assert (EO : forall r', r' <> row -> ph s' r' = ph s r') by (intros r' N; cbn; unfold upd; destruct (Z.eqb_spec r' row); [contradiction|auto]).
    assert (CM : forall n, covers marked s n -> covers marked s' n) by (intros n; apply covers_mono; intros r'; apply EM).
    constructor; try apply I; auto.
    + intros r' R'. rewrite EM. apply (i_bit s I r' R').
    + intros r' R'. rewrite EH. apply (i_lock s I r' R').
    + intros N. apply CM. apply (i_safe s I N).
    + intros F N m Lm Cv. apply (i_live s I F N m Lm). eapply covers_mono; [|exact Cv]. intros r'. apply ER.
    + intros r' R'. destruct (Z.eq_dec r' row) as [->|NE].
      * cbn. unfold upd. rewrite Z.eqb_refl. exact Logic.I.
      * rewrite (EO r' NE). eapply holder_frame; [..|apply (i_hold s I r' R')]; auto; intros r''; [apply EM|apply EP].
    + intros r' q R' E Q. destruct (Z.eq_dec r' row) as [->|NE].
      * cbn in E. unfold upd in E. rewrite Z.eqb_refl in E. discriminate.
      * rewrite (EO r' NE) in E. destruct (i_unl s I r' q R' E Q); auto.
    + cbn. rewrite orb_true_iff, Z.eqb_eq. intros [Dn|Q].
      * destruct (i_done s I Dn); auto.
      * destruct (i_unl s I row r R P Q); auto.
    + intros Cv. cbn. destruct (i_fin s I) as [A|(r' & q & A & B & C)].
      * eapply covers_mono; [|exact Cv]. intros r'. apply ER.
      * left. rewrite A. auto.
      * destruct (Z.eq_dec r' row) as [->|NE].
        -- left. rewrite P in B. injection B as <-. rewrite orb_true_iff, Z.eqb_eq. auto.
        -- right. exists r', q. rewrite <- (EO r' NE) in B. auto.
  - discriminate.
Qed.
Lemma inv_init : inv (init c).
Proof.
  pose proof prog_sz_bounds as PB.
  assert (B0 : forall r, bit (repeat 0 (Z.to_nat (prog_sz c))) r = false).
  { intros r. unfold bit. replace (nth (Z.to_nat (r / 32)) (repeat 0 (Z.to_nat (prog_sz c))) 0) with 0; [apply Z.bits_0|]. symmetry. apply nth_repeat. }
  constructor; cbn.
  - unfold zlen. rewrite repeat_length. lia.
  - intros w W. apply repeat_spec in W. subst w. cbn. lia.
  - intros r R. rewrite B0. split; [discriminate|tauto].
  - auto.
  - intros r R. split; [tauto|discriminate].
  - discriminate.
  - right. right. exists 0. split; [lia|auto].
  - auto.
  - intros _ r R. change (rows_of 0) with (0 / sbsz c) in R. rewrite Z.div_0_l in R by (destruct sbsz_eq as (_ & [-> | ->]); lia). lia.
  - intros F N m Lm Cv. change (rows_of 0) with (0 / sbsz c). rewrite Z.div_0_l by (destruct sbsz_eq as (_ & [-> | ->]); lia).
    destruct (Z_le_gt_dec m 0); [auto|]. exfalso. apply (Cv 0). lia.
  - auto.
  - discriminate.
  - discriminate.
  - intros Cv. exfalso. apply (Cv 0). lia.
Qed.
Lemma inv_reach : forall s, reach c s -> inv s.
Proof.
  induction 1 as [|s s' H IH [row R S | ->]].
  - apply inv_init.
  - eapply inv_step; eauto.
  - apply inv_err. auto.
Qed.
End P.

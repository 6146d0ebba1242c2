(** The grain templates are those of the specification. *)
From Coq Require Import ZArith List Bool Lia.
From Verif Require Import Base.CInt Base.Lemmas Base.Loop Obu.FrameModel Obu.FrameSpec Grain.Table Grain.Model Grain.Spec Grain.Arith.
Import ListNotations.
Open Scope Z_scope.

(** [buf] holds the [h] x [w] array [g]. *)
Definition holds (bd h w : Z) (buf : plane) (g : array2) : Prop :=
  forall y x, 0 <= y < h -> 0 <= x < w -> buf y x = Some (g y x) /\ gr bd (g y x).

Lemma assign_same : forall a i j v, assign a i j v i j = v.
Proof. intros. unfold assign. rewrite !Z.eqb_refl. reflexivity. Qed.
Lemma assign_other : forall a i j v i' j', (i' <> i \/ j' <> j) -> assign a i j v i' j' = a i' j'.
Proof. intros a i j v i' j' H. unfold assign. destruct (Z.eqb_spec i' i), (Z.eqb_spec j' j); try reflexivity. lia. Qed.

Section T.
Variable v : video.
Variable s : film_grain.
Hypothesis HB : bdok (BitDepth v).
Let bd := BitDepth v.

(** * White noise *)
Definition nrel (w y x : Z) (st : plane * Z) (sp : array2 * Z) : Prop :=
  snd st = snd sp /\ 0 <= snd sp < 65536 /\
  forall y' x', 0 <= y' -> 0 <= x' < w -> (y' < y \/ (y' = y /\ x' < x)) -> fst st y' x' = Some (fst sp y' x') /\ gr bd (fst sp y' x').

Lemma noise_ok : forall h w seed, 0 <= h <= 73 -> 0 <= w <= 82 -> 0 <= seed < 65536 -> 0 <= grain_scale_shift s <= 3 ->
  exists st, noise_loop bd h w (12 - bd + grain_scale_shift s) seed = Ok st /\ holds bd h w (fst st) (gaussian v s h w seed).
Proof.
  intros h w seed Hh Hw Hs Hg. unfold noise_loop, gaussian. cbv zeta. fold bd.
  set (shift := 12 - bd + grain_scale_shift s).
  set (g := fun (y x : Z) (st : array2 * Z) =>
    let '(g, r) := st in let '(k, r) := random_number 11 r in (assign g y x (Round2 (nth (Z.to_nat k) gaussian_list 0) shift), r)).
  destruct (for_sim _ _ (fun y st sp => nrel w y 0 st sp)
    (fun y st => for_ 0 w (fun x st =>
       let '(buf, seed0) := st in
       let '(value, seed1) := get_random_number 11 seed0 in
       obind (rd_at gaussian_list value) (fun g =>
         obind (wr2 GRAIN_HEIGHT GRAIN_WIDTH buf y x (entry bd (round2 g shift))) (fun buf => Ok (buf, seed1)))) st)
    (fun y st => zfor 0 w (g y) st) 0 h (plane0, seed) ((fun _ _ => 0), seed)) as (st & E & R).
  - lia.
  - split; [reflexivity|]. split; [exact Hs|]. intros. lia.
  - intros y st sp Hy R.
    destruct (for_sim _ _ (fun x st sp => nrel w y x st sp)
      (fun x st =>
       let '(buf, seed0) := st in
       let '(value, seed1) := get_random_number 11 seed0 in
       obind (rd_at gaussian_list value) (fun g =>
         obind (wr2 GRAIN_HEIGHT GRAIN_WIDTH buf y x (entry bd (round2 g shift))) (fun buf => Ok (buf, seed1))))
      (g y) 0 w st sp) as (st' & E' & R').
    + lia.
    + exact R.
    + intros x [buf sd] [a r] Hx (R1 & R2 & R3). cbn [fst snd] in *. subst sd. unfold g.
      destruct (rng_ok 11 r ltac:(auto) R2) as (Er & Ek & En). rewrite Er.
      destruct (random_number 11 r) as [k r']. cbn [fst snd] in Ek, En. change (2 ^ 11) with 2048 in Ek.
      destruct (gaussian_at k Ek) as (Eg & Gb). rewrite Eg. cbn [obind].
      pose proof (noise_gr bd _ _ HB Hg Gb) as NG. fold shift in NG.
      assert (0 <= shift) by (unfold shift; destruct (ctr_cases bd HB) as [(-> & _)|[(-> & _)|(-> & _)]]; lia).
      rewrite round2_ok by assumption. rewrite entry_gr by auto.
      rewrite wr2_ok by (unfold GRAIN_HEIGHT, GRAIN_WIDTH; lia). cbn [obind].
      eexists. split; [reflexivity|]. split; [reflexivity|]. split; [exact En|]. cbn [fst snd].
      intros y' x' Hy' Hx' Hlt. destruct (Z.eq_dec y' y) as [->|Ny]; [destruct (Z.eq_dec x' x) as [->|Nx]|].
      * rewrite set2_same, assign_same. split; [reflexivity|exact NG].
      * rewrite set2_other, assign_other by lia. apply R3; lia.
      * rewrite set2_other, assign_other by lia. apply R3; lia.
    + exists st'. split; [exact E'|]. destruct R' as (A & B & C). split; [exact A|]. split; [exact B|].
      intros y' x' Hy' Hx' Hlt. apply C; lia.
  - exists st. split; [exact E|]. destruct R as (_ & _ & C). intros y x Hy Hx. apply C; lia.
Qed.

(** * The auto-regressive filter *)
(** [coeffs] are the coded coefficients [cs], at least [n] of them. *)
Definition has_coeffs (coeffs cs : list Z) (n : Z) : Prop :=
  forall k, 0 <= k < n -> rd_at coeffs k = Ok (coeff cs k) /\ -128 <= coeff cs k <= 127.

Definition spec_sum (cs : list Z) (g : array2) (y x : Z) : Z * Z :=
  let lag := ar_coeff_lag s in
  zfor (- lag) 1 (fun deltaRow st =>
      zfor (- lag) (if deltaRow =? 0 then 0 else lag + 1) (fun deltaCol st =>
        let '(sum, pos) := st in
        (sum + coeff cs pos * g (y + deltaRow) (x + deltaCol), pos + 1)) st) (0, 0).
Definition num_pos : Z := 2 * ar_coeff_lag s * (ar_coeff_lag s + 1).

Definition srel (k : Z) (st sp : Z * Z) : Prop := st = sp /\ snd sp = k /\ - (262144 * k) <= fst sp <= 262144 * k.
Definition row_pos (lag dy : Z) : Z := if dy =? 1 then 2 * lag * (lag + 1) else (dy + lag) * (2 * lag + 1).

Lemma gr_abs : forall x, gr bd x -> -2048 <= x <= 2047.
Proof. intros x H. unfold gr in H. destruct (ctr_cases bd HB) as [(_ & E)|[(_ & E)|(_ & E)]]; rewrite E in H; lia. Qed.

Lemma ar_sum_ok : forall coeffs cs h w buf g y x, 0 <= ar_coeff_lag s <= 3 -> has_coeffs coeffs cs num_pos ->
  holds bd h w buf g -> h <= 73 -> w <= 82 -> 3 <= y < h -> 3 <= x < w - 3 ->
  ar_sum coeffs (ar_coeff_lag s) buf y x = Ok (spec_sum cs g y x) /\
  snd (spec_sum cs g y x) = num_pos /\ -6291456 <= fst (spec_sum cs g y x) <= 6291456.
Proof.
  intros coeffs cs h w buf g y x Hl Hc Hb Hh Hw Hy Hx. unfold ar_sum, spec_sum. cbv zeta.
  unfold num_pos in *. set (lag := ar_coeff_lag s) in *.
  destruct (for_sim _ _ (fun dy st sp => srel (row_pos lag dy) st sp)
    (fun dy st => for_ (- lag) (if dy =? 0 then 0 else lag + 1) (fun dx st =>
       let '(sum, k) := st in
       obind (rd_at coeffs k) (fun c =>
       obind (rd2 GRAIN_HEIGHT GRAIN_WIDTH buf (y + dy) (x + dx)) (fun v =>
       obind (ck (sum + c * v)) (fun sum => Ok (sum, k + 1))))) st)
    (fun dy st => zfor (- lag) (if dy =? 0 then 0 else lag + 1) (fun dx st =>
       let '(sum, pos) := st in (sum + coeff cs pos * g (y + dy) (x + dx), pos + 1)) st)
    (- lag) 1 (0, 0) (0, 0)) as (st & E & R).
  - lia.
  - unfold srel, row_pos. cbn [fst snd]. destruct (Z.eqb_spec (- lag) 1); [lia|]. repeat split; lia.
  - intros dy st sp Hdy (-> & R1 & R2).
    destruct (for_sim _ _ (fun dx st sp => srel ((dy + lag) * (2 * lag + 1) + (dx + lag)) st sp)
      (fun dx st =>
       let '(sum, k) := st in
       obind (rd_at coeffs k) (fun c =>
       obind (rd2 GRAIN_HEIGHT GRAIN_WIDTH buf (y + dy) (x + dx)) (fun v =>
       obind (ck (sum + c * v)) (fun sum => Ok (sum, k + 1)))))
      (fun dx st =>
       let '(sum, pos) := st in (sum + coeff cs pos * g (y + dy) (x + dx), pos + 1))
      (- lag) (if dy =? 0 then 0 else lag + 1) sp sp) as (st' & E' & R').
    + destruct (dy =? 0); lia.
    + unfold srel. split; [reflexivity|]. unfold row_pos in *. destruct (Z.eqb_spec dy 1); [lia|].
      replace ((dy + lag) * (2 * lag + 1) + (- lag + lag)) with ((dy + lag) * (2 * lag + 1)) by lia. auto.
    + intros dx [sum k] sq Hdx (<- & Q1 & Q2). cbn [fst snd] in *.
      assert (K : 0 <= k < 2 * lag * (lag + 1)).
      { subst k. destruct (Z.eqb_spec dy 0) as [->|].
        - nia.
        - assert (dy + lag <= lag - 1) by lia. nia. }
      destruct (Hc k K) as (Ec & Cb). rewrite Ec. cbn [obind].
      destruct (Hb (y + dy) (x + dx)) as (Ev & Vb); [lia|destruct (Z.eqb_spec dy 0); lia|].
      rewrite (rd2_ok _ _ _ _ _ (g (y + dy) (x + dx))); [|unfold GRAIN_HEIGHT; lia|unfold GRAIN_WIDTH; destruct (Z.eqb_spec dy 0); lia|exact Ev].
      cbn [obind]. apply gr_abs in Vb. set (c := coeff cs k) in *. set (u := g (y + dy) (x + dx)) in *.
      assert (P : -262144 <= c * u <= 262144) by nia.
      assert (K2 : k <= 24) by nia.
      rewrite ck_ok by (unfold INT_MIN, INT_MAX; lia). cbn [obind].
      eexists. split; [reflexivity|]. split; [reflexivity|]. cbn [fst snd]. split; lia.
    + exists st'. split; [exact E'|]. destruct R' as (A & B & C). split; [exact A|].
      assert (K : (dy + lag) * (2 * lag + 1) + ((if dy =? 0 then 0 else lag + 1) + lag) = row_pos lag (dy + 1)).
      { unfold row_pos. destruct (Z.eqb_spec dy 0) as [e0|]; destruct (Z.eqb_spec (dy + 1) 1); try lia. }
      rewrite K in B, C. auto.
  - destruct R as (-> & R1 & R2). split; [exact E|]. unfold row_pos in R1, R2. cbn [Z.eqb Pos.eqb] in R1, R2.
    split; [exact R1|]. nia.
Qed.

Lemma ar_sample_sum : forall cs luma g y x,
  ar_sample v s cs luma g y x =
  Clip3 (GrainMin v) (GrainMax v) (g y x + Round2 (fst (spec_sum cs g y x) + luma (snd (spec_sum cs g y x))) (ar_coeff_shift_minus_6 s + 6)).
Proof.
  intros cs luma g y x. unfold ar_sample, spec_sum. cbv zeta.
  match goal with |- context [zfor ?a ?b ?f ?t] => destruct (zfor a b f t) as [sum pos] end. reflexivity.
Qed.

(** Filtering, given what the luma adds. *)
Lemma filter_ok : forall coeffs cs (lum : Z -> Z -> Z -> Z -> outcome Z) (luma : Z -> Z -> Z -> Z) h w buf g,
  0 <= ar_coeff_lag s <= 3 -> has_coeffs coeffs cs num_pos -> 0 <= ar_coeff_shift_minus_6 s ->
  6 <= h <= 73 -> 6 <= w <= 82 ->
  (forall y x sum, 3 <= y < h -> 3 <= x < w - 3 -> -6291456 <= sum <= 6291456 ->
     lum y x sum num_pos = Ok (sum + luma y x num_pos)) ->
  holds bd h w buf g ->
  exists buf', for_ 3 h (fun y buf => for_ 3 (w - 3) (fun x buf =>
      obind (ar_sum coeffs (ar_coeff_lag s) buf y x) (fun '(sum, k) =>
      obind (lum y x sum k) (fun sum =>
      obind (rd2 GRAIN_HEIGHT GRAIN_WIDTH buf y x) (fun v0 =>
      let grain := v0 + round2 sum (ar_coeff_shift_minus_6 s + 6) in
      wr2 GRAIN_HEIGHT GRAIN_WIDTH buf y x (entry bd (grain_clip bd grain)))))) buf) buf = Ok buf' /\
    holds bd h w buf' (ar_filter v s h w cs luma g).
Proof.
  intros coeffs cs lum luma h w buf g Hl Hc Hs Hh Hw HL H0. unfold ar_filter.
  apply (for_sim _ _ (fun _ buf g => holds bd h w buf g)); [lia|exact H0|].
  intros y b a Hy Hb. 
  apply (for_sim _ _ (fun _ buf g => holds bd h w buf g)); [lia|exact Hb|].
  clear b a Hb. intros x b a Hx Hb.
  destruct (ar_sum_ok coeffs cs h w b a y x Hl Hc Hb ltac:(lia) ltac:(lia) Hy Hx) as (E & Ep & Es).
  rewrite E. cbn [obind]. rewrite ar_sample_sum. destruct (spec_sum cs a y x) as [sum k]. cbn [fst snd] in *. subst k.
  rewrite (HL y x sum Hy Hx Es). cbn [obind].
  destruct (Hb y x ltac:(lia) ltac:(lia)) as (Ev & Vb).
  rewrite (rd2_ok _ _ _ _ _ (a y x)); [|unfold GRAIN_HEIGHT; lia|unfold GRAIN_WIDTH; lia|exact Ev]. cbn [obind]. cbv zeta.
  rewrite round2_ok by lia. set (gv := a y x + _).
  pose proof (grain_clip_gr bd gv HB) as CG. rewrite entry_gr by auto.
  rewrite wr2_ok by (unfold GRAIN_HEIGHT, GRAIN_WIDTH; lia).
  eexists. split; [reflexivity|]. rewrite <- grain_clip_ok by exact HB. fold bd.
  intros y' x' Hy' Hx'. destruct (Z.eq_dec y' y) as [->|Ny]; [destruct (Z.eq_dec x' x) as [->|Nx]|].
  - rewrite set2_same, assign_same. auto.
  - rewrite set2_other, assign_other by lia. apply Hb; lia.
  - rewrite set2_other, assign_other by lia. apply Hb; lia.
Qed.
End T.

(** The noise that a row of blocks adds is that of the specification. *)
From Coq Require Import ZArith List Bool Lia.
From Verif Require Import Base.CInt Base.Lemmas Base.Loop Obu.FrameModel Obu.FrameRel.
From Verif Require Import Grain.Model Grain.Spec Grain.Arith Grain.Templates Grain.Templates2 Grain.Stripe.
Import ListNotations.
Open Scope Z_scope.

(** [dst] has the values [T] in the region [C], and is [dst0] outside [full]. *)
Definition cov (T : array2) (full : Z -> Z -> Prop) (dst0 dst : plane) (C : Z -> Z -> Prop) : Prop :=
  (forall y x, C y x -> dst y x = Some (T y x)) /\ (forall y x, ~ full y x -> dst y x = dst0 y x).
Lemma cov_step : forall T (full : Z -> Z -> Prop) dst0 dst C y x, cov T full dst0 dst C -> full y x ->
  cov T full dst0 (set2 dst y x (T y x)) (fun y' x' => C y' x' \/ (y' = y /\ x' = x)).
Proof.
  intros T full dst0 dst C y x (A & B) F. split.
  - intros y' x' H. destruct (Z.eq_dec y' y) as [->|]; [destruct (Z.eq_dec x' x) as [->|]|].
    + apply set2_same.
    + rewrite set2_other by lia. apply A. destruct H as [H|(_ & H)]; [exact H|congruence].
    + rewrite set2_other by lia. apply A. destruct H as [H|(H & _)]; [exact H|congruence].
  - intros y' x' H. rewrite set2_other; [apply B; exact H|]. destruct (Z.eq_dec y' y) as [->|]; [|auto].
    destruct (Z.eq_dec x' x) as [->|]; [contradiction|auto].
Qed.
Lemma cov_weaken : forall T full dst0 dst (C C' : Z -> Z -> Prop), cov T full dst0 dst C -> (forall y x, C' y x -> C y x) -> cov T full dst0 dst C'.
Proof. intros T full dst0 dst C C' (A & B) H. split; [intros; apply A, H; assumption|exact B]. Qed.

Lemma shiftr2_ovl : forall t, sub01 t -> Z.shiftr 2 t = ovl t.
Proof. intros t [->| ->]; reflexivity. Qed.
Lemma shiftr32_bsz : forall t, sub01 t -> Z.shiftr FG_BLOCK_SIZE t = bsz t.
Proof. intros t [->| ->]; reflexivity. Qed.
Lemma bsz_cases : forall t, bsz t = 16 /\ ovl t = 1 \/ bsz t = 32 /\ ovl t = 2.
Proof. intros t. unfold bsz, ovl. destruct (t =? 1); auto. Qed.

Section B.
Variable v : video.
Variable d : fgdata.
Variable s : F.film_grain.
Hypothesis HB : bdok (BitDepth v).
Hypothesis HP : params_ok d s (monochrome v).
Hypothesis HW : 0 <= frame_w v.
Let bd := BitDepth v.
Variables sx sy : Z.
Hypothesis HX : sub01 sx.
Hypothesis HY : sub01 sy.
Variable lut : plane.
Variable Grain : array2.
Definition gw (t : Z) : Z := if t =? 1 then 44 else 82.
Definition gh (t : Z) : Z := if t =? 1 then 38 else 73.
Hypothesis HG : holds bd (gh sy) (gw sx) lut Grain.

Lemma sample_ok : forall r bx by_ x y, 0 <= r < 256 -> 0 <= bx <= 1 -> 0 <= by_ <= 1 -> 0 <= x -> 0 <= y ->
  x + bsz sx * bx < bsz sx + ovl sx -> y + bsz sy * by_ < bsz sy + ovl sy ->
  sample_lut lut (Ok r) sx sy bx by_ x y = Ok (blk Grain sx sy r (y + bsz sy * by_) (x + bsz sx * bx)) /\
  gr bd (blk Grain sx sy r (y + bsz sy * by_) (x + bsz sx * bx)).
Proof.
  intros r bx by_ x y Hr Hbx Hby Hx Hy Lx Ly. unfold sample_lut. cbn [obind].
  rewrite !shiftr2_ovl, !shiftr32_bsz by assumption. rewrite land15_mod, shiftr_div by lia. change (2 ^ 4) with 16.
  replace (3 + ovl sx * (3 + r / 16)) with (goff sx (r / 16)) by (unfold goff, ovl; destruct (sx =? 1); lia).
  replace (3 + ovl sy * (3 + r mod 16)) with (goff sy (r mod 16)) by (unfold goff, ovl; destruct (sy =? 1); lia).
  unfold blk. rewrite <- !Z.add_assoc.
  destruct (HG (goff sy (r mod 16) + (y + bsz sy * by_)) (goff sx (r / 16) + (x + bsz sx * bx))) as (E & R).
  - pose proof (bsz_cases sy). unfold goff, gh, bsz, ovl in *. destruct (sy =? 1); lia.
  - pose proof (bsz_cases sx). unfold goff, gw, bsz, ovl in *. destruct (sx =? 1); lia.
  - split; [|exact R]. apply rd2_ok; [| |exact E].
    + unfold GRAIN_HEIGHT. pose proof (bsz_cases sy). unfold goff, gh, bsz, ovl in *. destruct (sy =? 1); lia.
    + unfold GRAIN_WIDTH. pose proof (bsz_cases sx). unfold goff, gw, bsz, ovl in *. destruct (sx =? 1); lia.
Qed.

Lemma weights_ok : forall t pos old cur, sub01 t -> 0 <= pos < ovl t ->
  exists w, weights t pos = Ok w /\ blend bd w old cur = overlapped v t pos old cur.
Proof.
  intros t pos old cur Ht Hp. destruct Ht as [->| ->]; cbn [ovl Z.eqb Pos.eqb] in Hp; unfold ovl in Hp; cbn [Z.eqb Pos.eqb] in Hp.
  - assert (pos = 0 \/ pos = 1) as [->| ->] by lia; eexists; (split; [reflexivity|]);
      unfold blend, overlapped, bd; cbn [fst snd Z.eqb Pos.eqb]; rewrite grain_clip_ok by exact HB; rewrite round2_ok by lia; reflexivity.
  - assert (pos = 0) as -> by lia. eexists; split; [reflexivity|].
    unfold blend, overlapped, bd; cbn [fst snd Z.eqb Pos.eqb]; rewrite grain_clip_ok by exact HB; rewrite round2_ok by lia; reflexivity.
Qed.
Lemma overlapped_gr : forall t pos old cur, gr bd (overlapped v t pos old cur).
Proof. intros. unfold overlapped. rewrite <- grain_clip_ok by exact HB. apply grain_clip_gr. exact HB. Qed.

Lemma seed_rel : forall row i, row_seed d row i = reg0 s (row - i).
Proof.
  intros row i. destruct HP as (R & _). cbn [fg_rel] in R. destruct R as (R & _).
  unfold row_seed, reg0. rewrite R, !land255_mod, shiftl_mul by lia. reflexivity.
Qed.
Lemma seed_range : forall n, 0 <= reg0 s n < 65536.
Proof. intros n. apply reg0_range. destruct HP as (_ & _ & C). unfold coded_grain in C. cbv zeta in C. apply C. Qed.
Lemma overlap_rel : z2b (fg_overlap_flag d) = (F.overlap_flag s =? 1).
Proof.
  destruct HP as (R & _ & C). cbn [fg_rel] in R. unfold coded_grain in C. cbv zeta in C.
  destruct R as (_ & _ & _ & _ & _ & _ & _ & _ & _ & _ & _ & _ & _ & _ & R & _). rewrite R.
  assert (O : 0 <= F.overlap_flag s <= 1) by apply C. unfold z2b.
  destruct (Z.eqb_spec (F.overlap_flag s) 0), (Z.eqb_spec (F.overlap_flag s) 1); try lia; reflexivity.
Qed.

(** One row of blocks. *)
Variables row bh pw : Z.
Hypothesis HR : 0 <= row.
Hypothesis HH : 0 <= bh <= bsz sy.
Hypothesis HPW : pw = (frame_w v + sx) / 2 ^ sx.
Let ov := F.overlap_flag s =? 1.
Let base := row * bsz sy.
Let NI := NoiseImage v s Grain sx sy.
Let R0 (k : Z) := rnd (reg0 s row) k.
Let R1 (k : Z) := rnd (reg0 s (row - 1)) k.

Lemma pw_blocks : (pw + bsz sx - 1) / bsz sx = nblocks v.
Proof.
  unfold nblocks. destruct HX as [E|E]; rewrite HPW, E; unfold bsz; cbn [Z.eqb Pos.eqb].
  - change (2 ^ 0) with 1. rewrite Z.add_0_r, Z.div_1_r. lia.
  - change (2 ^ 1) with 2. lia.
Qed.

Lemma NI_closed : forall k y x, 0 <= k < nblocks v -> 0 <= y < bsz sy -> 0 <= x < bsz sx ->
  NI (base + y) (k * bsz sx + x) =
  let g := closed v s Grain sx sy row k y x in
  if (y <? ovl sy) && (0 <? row) && ov then overlapped v sy y (closed v s Grain sx sy (row - 1) k (y + bsz sy) x) g else g.
Proof.
  intros k y x Hk Hy Hx. unfold NI, NoiseImage. cbv zeta. change (if sy =? 1 then 16 else 32) with (bsz sy). change (if sy =? 1 then 1 else 2) with (ovl sy).
  fold ov. assert (D : (base + y) / bsz sy = row).
  { unfold base. rewrite Z.div_add_l, Z.div_small by lia. lia. }
  rewrite D. replace (base + y - row * bsz sy) with y by (unfold base; lia).
  pose proof (bsz_cases sy) as By. rewrite (stripe_closed v s Grain sx sy row k y x) by lia.
  destruct (Z.ltb_spec y (ovl sy)); cbn [andb]; [|reflexivity]. destruct (Z.ltb_spec 0 row); cbn [andb]; [|reflexivity].
  destruct ov; [|reflexivity]. rewrite stripe_closed by lia. reflexivity.
Qed.

(** What the offsets hold while block [k] is processed. *)
Definition offs_ok (k : Z) (f : offs) : Prop :=
  o00 f = Some (R0 k) /\ (ov && (0 <? row) = true -> o01 f = Some (R1 k)) /\
  (ov && (0 <? k) = true -> o10 f = Some (R0 (k - 1))) /\
  (ov && (0 <? row) && (0 <? k) = true -> o11 f = Some (R1 (k - 1))).

Lemma R0_range : forall k, 0 <= k -> 0 <= R0 k < 256.
Proof. intros k Hk. apply rnd_range; [apply seed_range|exact Hk]. Qed.
Lemma R1_range : forall k, 0 <= k -> 0 <= R1 k < 256.
Proof. intros k Hk. apply rnd_range; [apply seed_range|exact Hk]. Qed.

(** A horizontally blended or plain sample. *)
Lemma regions : forall k f y x, 0 <= k < nblocks v -> offs_ok k f -> 0 <= y < bsz sy -> 0 <= x < bsz sx ->
  let cx := (x <? ovl sx) && ov && (0 <? k) in
  let cy := (y <? ovl sy) && (0 <? row) && ov in
  (if cy then if cx then grain_corner bd lut f sx sy x y else grain_row bd lut f sx sy x y
   else if cx then grain_col bd lut f sx sy x y else grain_plain lut f sx sy x y) = Ok (NI (base + y) (k * bsz sx + x)) /\
  gr bd (NI (base + y) (k * bsz sx + x)).
Proof.
  intros k f y x Hk (O00 & O01 & O10 & O11) Hy Hx cx cy. rewrite NI_closed by assumption. cbv zeta. fold cy.
  pose proof (bsz_cases sx) as Bx. pose proof (bsz_cases sy) as By.
  destruct (sample_ok (R0 k) 0 0 x y (R0_range k ltac:(lia)) ltac:(lia) ltac:(lia) ltac:(lia) ltac:(lia) ltac:(lia) ltac:(lia)) as (S0 & G0).
  rewrite !Z.mul_0_r, !Z.add_0_r in S0, G0.
  destruct cy eqn:EY.
  - assert (CY : y < ovl sy /\ 0 < row /\ ov = true) by (unfold cy in EY; destruct (Z.ltb_spec y (ovl sy)), (Z.ltb_spec 0 row), ov; try discriminate; auto).
    destruct CY as (CY1 & CY2 & CY3).
    assert (T2 : ov && (0 <? row) = true) by (rewrite CY3; destruct (Z.ltb_spec 0 row); [reflexivity|lia]).
    specialize (O01 T2).
    destruct (sample_ok (R1 k) 0 1 x y (R1_range k ltac:(lia)) ltac:(lia) ltac:(lia) ltac:(lia) ltac:(lia) ltac:(lia) ltac:(lia)) as (S1 & G1).
    rewrite !Z.mul_0_r, !Z.add_0_r, !Z.mul_1_r in S1, G1.
    destruct cx eqn:EX.
    + assert (CX : x < ovl sx /\ 0 < k) by (unfold cx in EX; destruct (Z.ltb_spec x (ovl sx)), (Z.ltb_spec 0 k), ov; try discriminate; auto).
      destruct CX as (CX1 & CX2).
      assert (T3 : ov && (0 <? k) = true) by (rewrite CY3; destruct (Z.ltb_spec 0 k); [reflexivity|lia]).
      specialize (O10 T3). specialize (O11 ltac:(rewrite T2; destruct (Z.ltb_spec 0 k); [reflexivity|lia])).
      destruct (sample_ok (R0 (k - 1)) 1 0 x y (R0_range (k - 1) ltac:(lia)) ltac:(lia) ltac:(lia) ltac:(lia) ltac:(lia) ltac:(lia) ltac:(lia)) as (S2 & _).
      destruct (sample_ok (R1 (k - 1)) 1 1 x y (R1_range (k - 1) ltac:(lia)) ltac:(lia) ltac:(lia) ltac:(lia) ltac:(lia) ltac:(lia) ltac:(lia)) as (S3 & _).
      rewrite !Z.mul_0_r, !Z.add_0_r, !Z.mul_1_r in S2. rewrite !Z.mul_1_r in S3.
      unfold grain_corner. cbn [off_at]. unfold off_at. cbn [Z.eqb Pos.eqb]. rewrite O00, O01, O10, O11. cbn [get_off].
      rewrite S1. cbn [obind]. rewrite S3. cbn [obind].
      destruct (weights_ok sx x (blk Grain sx sy (R1 (k - 1)) (y + bsz sy) (x + bsz sx)) (blk Grain sx sy (R1 k) (y + bsz sy) x) HX ltac:(lia)) as (wx & Ew & E1).
      destruct (weights_ok sx x (blk Grain sx sy (R0 (k - 1)) y (x + bsz sx)) (blk Grain sx sy (R0 k) y x) HX ltac:(lia)) as (wx' & Ew' & E2).
      rewrite Ew in Ew'. inversion Ew'; subst wx'. rewrite Ew. cbn [obind]. rewrite S0. cbn [obind]. rewrite S2. cbn [obind]. rewrite E1, E2.
      set (t1 := overlapped v sx x (blk Grain sx sy (R1 (k - 1)) (y + bsz sy) (x + bsz sx)) (blk Grain sx sy (R1 k) (y + bsz sy) x)).
      set (t2 := overlapped v sx x (blk Grain sx sy (R0 (k - 1)) y (x + bsz sx)) (blk Grain sx sy (R0 k) y x)).
      destruct (weights_ok sy y t1 t2 HY ltac:(lia)) as (wy & Ewy & E3). rewrite Ewy. cbn [obind]. rewrite E3.
      unfold closed. cbv zeta. fold ov. fold cx. rewrite EX. fold (R0 k) (R1 k) (R0 (k - 1)) (R1 (k - 1)). fold t1 t2.
      split; [reflexivity|]. apply overlapped_gr.
    + unfold grain_row. unfold off_at. cbn [Z.eqb Pos.eqb]. rewrite O00, O01. cbn [get_off].
      rewrite S0. cbn [obind]. rewrite S1. cbn [obind].
      destruct (weights_ok sy y (blk Grain sx sy (R1 k) (y + bsz sy) x) (blk Grain sx sy (R0 k) y x) HY ltac:(lia)) as (wy & Ewy & E3).
      rewrite Ewy. cbn [obind]. rewrite E3. unfold closed. cbv zeta. fold ov. fold cx. rewrite EX. split; [reflexivity|]. apply overlapped_gr.
  - destruct cx eqn:EX.
    + assert (CX : x < ovl sx /\ 0 < k /\ ov = true) by (unfold cx in EX; destruct (Z.ltb_spec x (ovl sx)), (Z.ltb_spec 0 k), ov; try discriminate; auto).
      destruct CX as (CX1 & CX2 & CX3).
      assert (T3 : ov && (0 <? k) = true) by (rewrite CX3; destruct (Z.ltb_spec 0 k); [reflexivity|lia]).
      specialize (O10 T3).
      destruct (sample_ok (R0 (k - 1)) 1 0 x y (R0_range (k - 1) ltac:(lia)) ltac:(lia) ltac:(lia) ltac:(lia) ltac:(lia) ltac:(lia) ltac:(lia)) as (S2 & _).
      rewrite !Z.mul_0_r, !Z.add_0_r, !Z.mul_1_r in S2.
      unfold grain_col. unfold off_at. cbn [Z.eqb Pos.eqb]. rewrite O00, O10. cbn [get_off].
      rewrite S0. cbn [obind]. rewrite S2. cbn [obind].
      destruct (weights_ok sx x (blk Grain sx sy (R0 (k - 1)) y (x + bsz sx)) (blk Grain sx sy (R0 k) y x) HX ltac:(lia)) as (wx & Ew & E2).
      rewrite Ew. cbn [obind]. rewrite E2. unfold closed. cbv zeta. fold ov. fold cx. rewrite EX. split; [reflexivity|]. apply overlapped_gr.
    + unfold grain_plain. unfold off_at. cbn [Z.eqb Pos.eqb]. rewrite O00. cbn [get_off]. rewrite S0.
      unfold closed. cbv zeta. fold ov. fold cx. rewrite EX. split; [reflexivity|exact G0].
Qed.

Variable add : Z -> Z -> Z -> plane -> outcome plane.
Variable T : array2.
Variable full : Z -> Z -> Prop.
Hypothesis HADD : forall y x g dst, 0 <= y < bh -> 0 <= x < pw -> gr bd g -> g = NI (base + y) x ->
  add y x g dst = Ok (set2 dst (base + y) x (T (base + y) x)).
Hypothesis HFULL : forall y x, 0 <= y < bh -> 0 <= x < pw -> full (base + y) x.

Lemma seg_ok : forall dst0 dst C (G : Z -> outcome Z) y bx lo hi, lo <= hi -> 0 <= y < bh -> 0 <= bx + lo -> bx + hi <= pw ->
  (forall x, lo <= x < hi -> G x = Ok (NI (base + y) (bx + x)) /\ gr bd (NI (base + y) (bx + x))) ->
  cov T full dst0 dst C ->
  exists dst', for_ lo hi (fun x dst => obind (G x) (fun g => add y (bx + x) g dst)) dst = Ok dst' /\
    cov T full dst0 dst' (fun y' x' => C y' x' \/ (y' = base + y /\ bx + lo <= x' < bx + hi)).
Proof.
  intros dst0 dst C G y bx lo hi Hl Hy H0 H1 HGx HC.
  apply (for_inv _ (fun x dst => cov T full dst0 dst (fun y' x' => C y' x' \/ (y' = base + y /\ bx + lo <= x' < bx + x)))).
  - exact Hl.
  - apply (cov_weaken _ _ _ _ _ _ HC). intros y' x' [A|A]; [exact A|lia].
  - intros x b Hx HCb. destruct (HGx x Hx) as (E & R). rewrite E. cbn [obind].
    rewrite HADD by (auto; lia). eexists. split; [reflexivity|].
    apply (cov_weaken _ _ _ _ _ _ (cov_step _ _ _ _ _ _ _ HCb (HFULL y (bx + x) Hy ltac:(lia)))).
    intros y' x' [A|A]; [auto|]. destruct (Z.eq_dec x' (bx + x)) as [->|]; [right; lia|left; right; lia].
Qed.

Lemma block_ok : forall dst0 dst C k f, 0 <= k < nblocks v -> offs_ok k f -> cov T full dst0 dst C ->
  let bx := k * bsz sx in
  let bw := Z.min (bsz sx) (pw - bx) in
  let ystart := if ov && negb (row =? 0) then Z.min (Z.shiftr 2 sy) bh else 0 in
  let xstart := if ov && negb (bx =? 0) then Z.min (Z.shiftr 2 sx) bw else 0 in
  exists dst',
    obind (for_ ystart bh (fun y dst =>
          obind (for_ xstart bw (fun x dst => obind (grain_plain lut f sx sy x y) (fun g => add y (bx + x) g dst)) dst) (fun dst =>
          for_ 0 xstart (fun x dst => obind (grain_col bd lut f sx sy x y) (fun g => add y (bx + x) g dst)) dst)) dst) (fun dst =>
    for_ 0 ystart (fun y dst =>
          obind (for_ xstart bw (fun x dst => obind (grain_row bd lut f sx sy x y) (fun g => add y (bx + x) g dst)) dst) (fun dst =>
          for_ 0 xstart (fun x dst => obind (grain_corner bd lut f sx sy x y) (fun g => add y (bx + x) g dst)) dst)) dst) = Ok dst' /\
    cov T full dst0 dst' (fun y x => C y x \/ (base <= y < base + bh /\ bx <= x < bx + bw)).
Proof.
  intros dst0 dst C k f Hk Hf HC bx bw ystart xstart.
  pose proof (bsz_cases sx) as Bx. pose proof (bsz_cases sy) as By.
  assert (BW : 0 < bw <= bsz sx /\ bx + bw <= pw /\ 0 <= bx).
  { pose proof pw_blocks as PB. unfold bw, bx. assert (KP : k * bsz sx < pw).
    { clear - PB Hk Bx. destruct Bx as [(E & _)|(E & _)]; rewrite E in *; lia. }
    clear - KP Bx Hk. destruct Bx as [(E & _)|(E & _)]; rewrite E in *; lia. }
  assert (YS : 0 <= ystart <= bh /\ (forall y, 0 <= y < bh -> (y <? ovl sy) && (0 <? row) && ov = (y <? ystart))).
  { unfold ystart. rewrite shiftr2_ovl by assumption. destruct ov; cbn [andb]; [|split; [lia|intros y Hy; rewrite andb_false_r; destruct (Z.ltb_spec y 0); [lia|reflexivity]]].
    destruct (Z.eqb_spec row 0) as [E0|E0]; cbn [negb].
    - split; [lia|]. intros y Hy. rewrite E0. rewrite andb_true_r. change (0 <? 0) with false. rewrite andb_false_r. destruct (Z.ltb_spec y 0); [lia|reflexivity].
    - split; [lia|]. intros y Hy. rewrite andb_true_r. destruct (Z.ltb_spec 0 row); [|lia]. rewrite andb_true_r.
      destruct (Z.ltb_spec y (ovl sy)), (Z.ltb_spec y (Z.min (ovl sy) bh)); try lia; reflexivity. }
  assert (XS : 0 <= xstart <= bw /\ (forall x, 0 <= x < bw -> (x <? ovl sx) && ov && (0 <? k) = (x <? xstart))).
  { unfold xstart. rewrite shiftr2_ovl by assumption. destruct ov; cbn [andb]; [|split; [lia|intros x Hx; rewrite andb_false_r; destruct (Z.ltb_spec x 0); [lia|reflexivity]]].
    assert (EB : (bx =? 0) = negb (0 <? k)).
    { unfold bx. destruct (Z.eqb_spec (k * bsz sx) 0), (Z.ltb_spec 0 k); try reflexivity; destruct Bx as [(E & _)|(E & _)]; rewrite E in *; lia. }
    rewrite EB, negb_involutive. destruct (Z.ltb_spec 0 k).
    - split; [lia|]. intros x Hx. rewrite !andb_true_r. destruct (Z.ltb_spec x (ovl sx)), (Z.ltb_spec x (Z.min (ovl sx) bw)); try lia; reflexivity.
    - split; [lia|]. intros x Hx. rewrite andb_false_r. destruct (Z.ltb_spec x 0); [lia|reflexivity]. }
  destruct YS as (Y1 & Y2). destruct XS as (X1 & X2).
  assert (RG := fun y x Hy Hx => regions k f y x Hk Hf Hy Hx). cbv zeta in RG.
  clearbody ystart xstart bw.
  assert (ROW : forall (top : bool) y D b, 0 <= y < bh -> (y <? ystart) = top -> cov T full dst0 b D ->
    exists b', obind (for_ xstart bw (fun x dst => obind (if top then grain_row bd lut f sx sy x y else grain_plain lut f sx sy x y) (fun g => add y (bx + x) g dst)) b) (fun dst =>
          for_ 0 xstart (fun x dst => obind (if top then grain_corner bd lut f sx sy x y else grain_col bd lut f sx sy x y) (fun g => add y (bx + x) g dst)) dst) = Ok b' /\
      cov T full dst0 b' (fun y' x' => D y' x' \/ (y' = base + y /\ bx <= x' < bx + bw))).
  { intros top y D b Hy Ht HD.
    destruct (seg_ok dst0 b D (fun x => if top then grain_row bd lut f sx sy x y else grain_plain lut f sx sy x y) y bx xstart bw) as (b1 & E1 & C1); try lia; [|exact HD|].
    { intros x Hx. destruct (RG y x ltac:(lia) ltac:(lia)) as (Q & QG). rewrite Y2, X2 in Q by lia. rewrite Ht in Q.
      destruct (Z.ltb_spec x xstart); [lia|]. split; [exact Q|exact QG]. }
    rewrite E1. cbn [obind].
    destruct (seg_ok dst0 b1 (fun y' x' => D y' x' \/ (y' = base + y /\ bx + xstart <= x' < bx + bw)) (fun x => if top then grain_corner bd lut f sx sy x y else grain_col bd lut f sx sy x y) y bx 0 xstart) as (b2 & E2 & C2); try lia; [|exact C1|].
    { intros x Hx. destruct (RG y x ltac:(lia) ltac:(lia)) as (Q & QG). rewrite Y2, X2 in Q by lia. rewrite Ht in Q.
      destruct (Z.ltb_spec x xstart); [|lia]. split; [exact Q|exact QG]. }
    exists b2. split; [exact E2|]. apply (cov_weaken _ _ _ _ _ _ C2). intros y' x' [A|A]; [auto|].
    destruct (Z.ltb_spec x' (bx + xstart)); [right; lia|left; right; lia]. }
  destruct (for_inv _ (fun y dst => cov T full dst0 dst (fun y' x' => C y' x' \/ (base + ystart <= y' < base + y /\ bx <= x' < bx + bw)))
    (fun y dst =>
          obind (for_ xstart bw (fun x dst => obind (grain_plain lut f sx sy x y) (fun g => add y (bx + x) g dst)) dst) (fun dst =>
          for_ 0 xstart (fun x dst => obind (grain_col bd lut f sx sy x y) (fun g => add y (bx + x) g dst)) dst)) ystart bh dst) as (d1 & E1 & C1).
  - lia.
  - apply (cov_weaken _ _ _ _ _ _ HC). intros y' x' [A|A]; [exact A|lia].
  - intros y b Hy HCb. destruct (ROW false y _ b ltac:(lia) ltac:(destruct (Z.ltb_spec y ystart); [lia|reflexivity]) HCb) as (b' & E & C').
    exists b'. split; [exact E|]. apply (cov_weaken _ _ _ _ _ _ C'). intros y' x' [A|A]; [auto|].
    destruct (Z.eq_dec y' (base + y)); [right; lia|left; right; lia].
  - rewrite E1. cbn [obind].
    destruct (for_inv _ (fun y dst => cov T full dst0 dst (fun y' x' => (C y' x' \/ (base + ystart <= y' < base + bh /\ bx <= x' < bx + bw)) \/ (base <= y' < base + y /\ bx <= x' < bx + bw)))
    (fun y dst =>
          obind (for_ xstart bw (fun x dst => obind (grain_row bd lut f sx sy x y) (fun g => add y (bx + x) g dst)) dst) (fun dst =>
          for_ 0 xstart (fun x dst => obind (grain_corner bd lut f sx sy x y) (fun g => add y (bx + x) g dst)) dst)) 0 ystart d1) as (d2 & E2 & C2).
    + lia.
    + apply (cov_weaken _ _ _ _ _ _ C1). intros y' x' [A|A]; [exact A|lia].
    + intros y b Hy HCb. destruct (ROW true y _ b ltac:(lia) ltac:(destruct (Z.ltb_spec y ystart); [reflexivity|lia]) HCb) as (b' & E & C').
      exists b'. split; [exact E|]. apply (cov_weaken _ _ _ _ _ _ C'). intros y' x' [A|A]; [auto|].
      destruct (Z.eq_dec y' (base + y)); [right; lia|left; right; lia].
    + exists d2. split; [exact E2|]. apply (cov_weaken _ _ _ _ _ _ C2). intros y' x' [A|A]; [auto|].
      destruct (Z.ltb_spec y' (base + ystart)); [right; lia|left; right; lia].
Qed.

Lemma rows_ok : forall dst0 dst C, cov T full dst0 dst C ->
  exists dst', block_rows bd d lut pw bh row sx sy add dst = Ok dst' /\
    cov T full dst0 dst' (fun y x => C y x \/ (base <= y < base + bh /\ 0 <= x < pw)).
Proof.
  intros dst0 dst C HC. unfold block_rows. cbv zeta. rewrite overlap_rel. fold ov. rewrite shiftr32_bsz by assumption. rewrite pw_blocks.
  rewrite !seed_rel, Z.sub_0_r.
  set (two := ov && (0 <? row)).
  match goal with |- context [for_ 0 (nblocks v) ?b _] => set (body := b) end.
  destruct (for_inv _ (fun k (st : plane * offs * Z * Z) =>
      let '(dst, f, s0, s1) := st in
      cov T full dst0 dst (fun y x => C y x \/ (base <= y < base + bh /\ 0 <= x < Z.min (k * bsz sx) pw)) /\
      s0 = regs (reg0 s row) k /\ (two = true -> s1 = regs (reg0 s (row - 1)) k) /\
      (0 < k -> o00 f = Some (R0 (k - 1)) /\ (two = true -> o01 f = Some (R1 (k - 1)))))
    body 0 (nblocks v) (dst, mkOffs None None None None, reg0 s row, reg0 s (row - 1))) as ([[[d' f'] s0'] s1'] & E & I & _).
  - unfold nblocks. lia.
  - split; [apply (cov_weaken _ _ _ _ _ _ HC); intros y' x' [A|A]; [exact A|lia]|].
    split; [reflexivity|]. split; [reflexivity|lia].
  - intros k [[[b f] s0] s1] Hk (I1 & I2 & I3 & I4). unfold body. cbv zeta.
    subst s0. destruct (rng_ok 8 (regs (reg0 s row) k) ltac:(auto) (regs_range (reg0 s row) k (seed_range row) ltac:(lia))) as (ER & _).
    rewrite ER. destruct (random_number 8 (regs (reg0 s row) k)) as [r0 s0'] eqn:EN.
    assert (Er0 : r0 = R0 k) by (unfold R0, rnd; rewrite EN; reflexivity).
    assert (Es0 : s0' = regs (reg0 s row) (k + 1)) by (rewrite regs_S, EN by lia; reflexivity).
    assert (EB : (k * bsz sx =? 0) = negb (0 <? k)).
    { pose proof (bsz_cases sx) as Bx. destruct (Z.eqb_spec (k * bsz sx) 0), (Z.ltb_spec 0 k); try reflexivity; destruct Bx as [(Q & _)|(Q & _)]; rewrite Q in *; lia. }
    destruct (if two then get_random_number 8 s1 else (0, s1)) as [r1 s1'] eqn:EN1.
    assert (E1 : two = true -> r1 = R1 k /\ s1' = regs (reg0 s (row - 1)) (k + 1)).
    { intros Ht. rewrite Ht in EN1. rewrite (I3 Ht) in EN1.
      destruct (rng_ok 8 (regs (reg0 s (row - 1)) k) ltac:(auto) (regs_range (reg0 s (row - 1)) k (seed_range (row - 1)) ltac:(lia))) as (ER1 & _).
      rewrite ER1 in EN1. unfold R1, rnd. rewrite regs_S by lia. rewrite EN1. auto. }
    set (f1 := if ov && negb (k * bsz sx =? 0) then mkOffs (o00 f) (o01 f) (o00 f) (if two then o01 f else o11 f) else f).
    set (f2 := mkOffs (Some r0) (if two then Some r1 else o01 f1) (o10 f1) (o11 f1)).
    assert (OK : offs_ok k f2).
    { unfold offs_ok, f2. cbn [o00 o01 o10 o11]. fold two. split; [congruence|]. split.
      - intros Ht. rewrite Ht. destruct (E1 Ht) as (-> & _). reflexivity.
      - unfold f1. rewrite EB, negb_involutive. split.
        + intros Ht. rewrite Ht. cbn [o10]. apply I4. destruct (Z.ltb_spec 0 k); [lia|rewrite andb_false_r in Ht; discriminate].
        + intros Ht. apply andb_prop in Ht. destruct Ht as (Ht & Hk0). rewrite Hk0.
          assert (Eov : ov = true) by (unfold two in Ht; destruct ov; [reflexivity|discriminate]). rewrite Eov. cbn [andb o11]. rewrite Ht.
          apply I4; [lia|exact Ht]. }
    destruct (block_ok dst0 b _ k f2 Hk OK I1) as (b' & EB' & CB'). cbv zeta in EB', CB'.
    match type of EB' with obind ?m ?g = _ => destruct m as [b1|] eqn:EM; [|discriminate] end. cbn [obind] in EB' |- *.
    rewrite EB'. cbn [obind].
    eexists. split; [reflexivity|]. cbv beta iota. split; [|split; [exact Es0|split]].
    + apply (cov_weaken _ _ _ _ _ _ CB'). pose proof (bsz_cases sx) as Bx. intros y' x' [A|A]; [auto|].
      destruct (Z.ltb_spec x' (k * bsz sx)); [left; right; lia|right]. split; [lia|]. destruct Bx as [(Q & _)|(Q & _)]; rewrite Q in *; lia.
    + intros Ht. apply E1. exact Ht.
    + intros _. unfold f2. cbn [o00 o01]. replace (k + 1 - 1) with k by lia. split; [congruence|]. intros Ht. rewrite Ht. destruct (E1 Ht) as (-> & _). reflexivity.
  - rewrite E. cbn [obind]. exists d'. split; [reflexivity|]. apply (cov_weaken _ _ _ _ _ _ I). intros y x [A|A]; [auto|]. right.
    pose proof pw_blocks as PB. pose proof (bsz_cases sx) as Bx. split; [lia|]. destruct Bx as [(Q & _)|(Q & _)]; rewrite Q in *; lia.
Qed.
End B.

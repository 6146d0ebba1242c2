(** dav1d_apply_grain computes the output of the film grain synthesis process. *)
From Coq Require Import ZArith List Bool Lia.
From Verif Require Import Base.CInt Base.Lemmas Base.Loop Obu.FrameModel Obu.FrameRel.
From Verif Require Import Grain.Model Grain.Spec Grain.Arith Grain.Templates Grain.Templates2 Grain.Scaling2 Grain.Stripe Grain.Blocks.
Import ListNotations.
Open Scope Z_scope.

(** The visible part of a plane holds the array [a] of pixels. *)
Definition shows (bd w h : Z) (p : plane) (a : array2) : Prop :=
  forall y x, 0 <= y < h -> 0 <= x < w -> p y x = Some (a y x) /\ 0 <= a y x < 2 ^ bd.
Definition chroma_w (v : video) : Z := (frame_w v + subX v) / 2 ^ subX v.
Definition chroma_h (v : video) : Z := (frame_h v + subY v) / 2 ^ subY v.
Definition geom (v : video) : geometry := mkGeom (frame_w v) (frame_h v) (subX v) (subY v) (monochrome v) (mc_identity v).

Section A.
Variable v : video.
Variable d : fgdata.
Variable s : F.film_grain.
Hypothesis HB : bdok (BitDepth v).
Hypothesis HP : params_ok d s (monochrome v).
Hypothesis HW : 1 <= frame_w v.
Hypothesis HHt : 1 <= frame_h v.
Hypothesis HX : sub01 (subX v).
Hypothesis HY : sub01 (subY v).
Let bd := BitDepth v.
Let w := frame_w v.
Let h := frame_h v.
Let cw := chroma_w v.
Let ch := chroma_h v.

Definition lut_ok (pts : list (Z * Z)) (a : arr) : Prop :=
  forall i, 0 <= i < 2 ^ bd -> a i = Some (scale_lut v pts i) /\ 0 <= scale_lut v pts i <= 255.

Lemma rel_fields :
  csfl d = (F.chroma_scaling_from_luma s =? 1) /\ has_u d = (0 <? num_points (F.point_cb s)) /\ has_v d = (0 <? num_points (F.point_cr s)) /\
  z2b (fg_clip_to_restricted_range d) = (F.clip_to_restricted_range s =? 1) /\ fg_scaling_shift d = ScalingShift s /\ 8 <= ScalingShift s <= 11 /\
  fg_y_points d = F.point_y s /\ fg_u_points d = F.point_cb s /\ fg_v_points d = F.point_cr s /\
  fg_u_mult d = mult_of (F.cb_params s) /\ fg_v_mult d = mult_of (F.cr_params s) /\ coded_params (F.cb_params s) /\ coded_params (F.cr_params s) /\
  points_wf (F.point_y s) /\ points_wf (F.point_cb s) /\ points_wf (F.point_cr s) /\
  (monochrome v = true -> has_u d = false /\ has_v d = false /\ csfl d = false) /\
  (csfl d = true -> has_u d = false /\ has_v d = false).
Proof.
  destruct HP as (R & W & C). cbn [fg_rel] in R. unfold coded_grain in C. cbv zeta in C. unfold fg_wf in W.
  destruct R as (R1 & R2 & R3 & R4 & R5 & R6 & _ & _ & _ & _ & _ & _ & R7 & R8 & _ & R9).
  destruct C as (_ & _ & _ & _ & C1 & C2 & _ & _ & _ & _ & _ & _ & C3 & C4 & _ & C5 & C6 & C7).
  destruct W as (_ & _ & _ & _ & W1 & W2 & W3 & _).
  rewrite R2 in W1. rewrite R4 in W2. rewrite R5 in W3.
  assert (EC : csfl d = (F.chroma_scaling_from_luma s =? 1)).
  { unfold csfl, z2b. rewrite R3. destruct (Z.eqb_spec (F.chroma_scaling_from_luma s) 0), (Z.eqb_spec (F.chroma_scaling_from_luma s) 1); try lia; reflexivity. }
  assert (EU : has_u d = (0 <? num_points (F.point_cb s))).
  { unfold has_u, num_points. rewrite R4. unfold zlen. destruct (length (F.point_cb s)); reflexivity. }
  assert (EV : has_v d = (0 <? num_points (F.point_cr s))).
  { unfold has_v, num_points. rewrite R5. unfold zlen. destruct (length (F.point_cr s)); reflexivity. }
  assert (ECL : z2b (fg_clip_to_restricted_range d) = (F.clip_to_restricted_range s =? 1)).
  { unfold z2b. rewrite R9. destruct (Z.eqb_spec (F.clip_to_restricted_range s) 0), (Z.eqb_spec (F.clip_to_restricted_range s) 1); try lia; reflexivity. }
  unfold ScalingShift. repeat (apply conj; [solve [assumption|lia]|]). split.
  - intros M. destruct (C6 (or_introl M)) as (Q1 & Q2). rewrite EC, EU, EV, Q1, Q2, (C7 M). auto.
  - intros M. rewrite EC in M. destruct (C6 (or_intror (proj1 (Z.eqb_eq _ _) M))) as (Q1 & Q2). rewrite EU, EV, Q1, Q2. auto.
Qed.

Lemma pix_max : 256 * 2 ^ (bd - 8) = 2 ^ bd.
Proof. change 256 with (2 ^ 8). rewrite <- Z.pow_add_r by (pose proof (bdok_8 _ HB); lia). f_equal. lia. Qed.
Lemma pixel_id : forall p, 0 <= p < 2 ^ bd -> pixel bd p = p.
Proof.
  intros p Hp. unfold pixel, u8, u16. destruct (Z.eqb_spec bd 8) as [E|E].
  - rewrite E in Hp. apply Z.mod_small. exact Hp.
  - apply Z.mod_small. assert (B16 : bd <= 16) by (unfold bd; destruct HB as [E1|[E1|E1]]; rewrite E1; lia).
    assert (2 ^ bd <= 2 ^ 16) by (apply Z.pow_le_mono_r; lia). lia.
Qed.
Lemma noise_value : forall sc g, 0 <= sc <= 255 -> gr bd g ->
  ck (sc * g) = Ok (sc * g) /\ round2 (sc * g) (fg_scaling_shift d) = Round2 (sc * g) (ScalingShift s).
Proof.
  intros sc g Hs Hg. apply (gr_abs v HB) in Hg. destruct rel_fields as (_ & _ & _ & _ & E & R & _).
  split; [apply ck_ok; unfold INT_MIN, INT_MAX; nia|]. rewrite E. apply round2_ok. lia.
Qed.
Lemma clip_pixel : forall mx x, 0 <= minValue v s <= mx -> mx < 2 ^ bd ->
  pixel bd (iclip x (min_value bd d) mx) = Clip3 (minValue v s) mx x /\ 0 <= Clip3 (minValue v s) mx x < 2 ^ bd.
Proof.
  intros mx x H1 H2. pose proof (Clip3_bound (minValue v s) mx x ltac:(lia)) as CB.
  assert (E : min_value bd d = minValue v s).
  { destruct rel_fields as (_ & _ & _ & E & _). unfold min_value, minValue. rewrite E, shiftl_mul by (pose proof (bdok_8 _ HB); unfold bd; lia). reflexivity. }
  rewrite E, iclip_Clip3. split; [apply pixel_id; lia|lia].
Qed.
Lemma pow8_pos : 1 <= 2 ^ (bd - 8).
Proof. pose proof (pow2_pos (bd - 8) ltac:(pose proof (bdok_8 _ HB); unfold bd; lia)). lia. Qed.
Lemma bitdepth_max_eq : bitdepth_max bd = 2 ^ bd - 1.
Proof. unfold bitdepth_max. rewrite shiftl_mul by (pose proof (bdok_8 _ HB); unfold bd; lia). lia. Qed.
Lemma minmax : 0 <= minValue v s /\ minValue v s <= maxLuma v s < 2 ^ bd /\ minValue v s <= maxChroma v s < 2 ^ bd.
Proof.
  pose proof pix_max as PM. pose proof pow8_pos. unfold maxChroma, maxLuma, minValue. fold bd.
  destruct (F.clip_to_restricted_range s =? 1), (mc_identity v); lia.
Qed.

(** * Luma *)
Lemma fgy_ok : forall inY src scal lut Grain stride rows drows row dst0 dst (C : Z -> Z -> Prop),
  shows bd w h src inY -> lut_ok (F.point_y s) scal -> holds bd 73 82 lut Grain ->
  (0 < num_points (F.point_y s) -> Grain = LumaGrain v s) -> 0 < num_points (F.point_y s) ->
  stride mod 32 = 0 -> w <= stride -> h <= rows -> h <= drows -> 0 <= row -> row * 32 < h ->
  cov (OutY v s inY) (fun y x => 0 <= y < h /\ 0 <= x < w) dst0 dst C ->
  exists dst', fgy bd d scal lut src stride rows drows w (Z.min (h - row * 32) 32) row dst = Ok dst' /\
    cov (OutY v s inY) (fun y x => 0 <= y < h /\ 0 <= x < w) dst0 dst'
      (fun y x => C y x \/ (row * 32 <= y < row * 32 + Z.min (h - row * 32) 32 /\ 0 <= x < w)).
Proof.
  intros inY src scal lut Grain stride rows drows row dst0 dst C HS HL HG HE HN S1 S2 S3 S4 Hr0 Hr1 HC.
  specialize (HE HN). subst Grain. unfold fgy, FG_BLOCK_SIZE. rewrite S1. change (0 =? 0) with true. cbn iota.
  destruct rel_fields as (_ & _ & _ & ECL & ESH & RSH & _). rewrite ECL.
  replace (if F.clip_to_restricted_range s =? 1 then Z.shiftl 235 (bd - 8) else bitdepth_max bd) with (maxLuma v s).
  2:{ unfold maxLuma. fold bd. rewrite bitdepth_max_eq, shiftl_mul, pix_max by (pose proof (bdok_8 _ HB); unfold bd; lia). reflexivity. }
  pose proof minmax as (M0 & M1 & _).
  apply (rows_ok v d s HB HP ltac:(unfold w in *; lia) 0 0 (or_introl eq_refl) (or_introl eq_refl) lut (LumaGrain v s) HG row
    (Z.min (h - row * 32) 32) w Hr0).
  - unfold bsz. cbn [Z.eqb]. lia.
  - change (2 ^ 0) with 1. unfold w. rewrite Z.div_1_r. lia.
  - change (bsz 0) with 32. intros y x g b Hy Hx Hg Eg.
    destruct (HS (row * 32 + y) x ltac:(lia) Hx) as (Es & Ps). rewrite (rd2_ok _ _ _ _ _ (inY (row * 32 + y) x)) by (auto; lia). cbn [obind].
    destruct (HL _ Ps) as (El & Pl).
    assert (SZ : 2 ^ bd <= scaling_size bd) by (unfold bd, scaling_size; destruct HB as [->|[->| ->]]; cbn [Z.eqb Pos.eqb]; [change (2 ^ 8) with 256|change (2 ^ 10) with 1024|change (2 ^ 12) with 4096]; lia).
    rewrite (rd1_ok _ _ _ (scale_lut v (F.point_y s) (inY (row * 32 + y) x))) by (solve [exact El|lia]). cbn [obind].
    destruct (noise_value _ _ Pl Hg) as (E1 & E2). rewrite E1. cbn [obind]. rewrite E2.
    destruct (clip_pixel (maxLuma v s) (inY (row * 32 + y) x + Round2 (scale_lut v (F.point_y s) (inY (row * 32 + y) x) * g) (ScalingShift s)) ltac:(lia) ltac:(lia)) as (E3 & _).
    rewrite E3. rewrite wr2_ok by lia. do 2 f_equal. unfold OutY. destruct (Z.ltb_spec 0 (num_points (F.point_y s))); [|lia].
    cbv zeta. rewrite Eg. reflexivity.
  - change (bsz 0) with 32. intros y x Hy Hx. lia.
  - exact HC.
Qed.

(** * Chroma *)
Definition padded (src : plane) (inY : array2) (row bh : Z) : Prop :=
  subX v = 1 -> forall y, 0 <= y < bh -> w mod 2 = 1 -> src (row * 32 + y * 2 ^ subY v) w = Some (inY (row * 32 + y * 2 ^ subY v) (w - 1)).

Lemma ch_rows : forall row, 0 <= row -> row * 32 < h ->
  Z.shiftr (Z.min (h - row * 32) 32 + subY v) (subY v) = Z.min (ch - row * bsz (subY v)) (bsz (subY v)) /\ row * bsz (subY v) < ch.
Proof.
  intros row H0 H1. unfold ch, chroma_h. fold h. rewrite shiftr_div by (destruct HY; lia).
  destruct HY as [E|E]; rewrite E; unfold bsz; cbn [Z.eqb Pos.eqb]; [change (2 ^ 0) with 1; rewrite !Z.div_1_r|change (2 ^ 1) with 2]; lia.
Qed.

Lemma fguv_ok : forall uv inY inC luma src scal lut Grain pts params lstride lrows stride rows drows row dst0 dst (C : Z -> Z -> Prop),
  uv = 0 \/ uv = 1 ->
  (if uv =? 0 then fg_u_mult d else fg_v_mult d) = mult_of params -> coded_params params ->
  shows bd w h luma inY -> padded luma inY row (Z.min (ch - row * bsz (subY v)) (bsz (subY v))) -> shows bd cw ch src inC ->
  lut_ok (if F.chroma_scaling_from_luma s =? 1 then F.point_y s else pts) scal ->
  holds bd (chromaH v) (chromaW v) lut Grain ->
  (0 <? num_points pts) || (F.chroma_scaling_from_luma s =? 1) = true ->
  lstride mod 32 = 0 -> w <= lstride -> h <= lrows ->
  stride mod 32 = 0 -> cw <= stride -> ch <= rows -> ch <= drows -> 0 <= row -> row * 32 < h ->
  cov (out_chroma v s pts Grain params inY inC) (fun y x => 0 <= y < ch /\ 0 <= x < cw) dst0 dst C ->
  exists dst', fguv bd d scal lut luma src lstride lrows stride rows drows (Z.shiftr (w + subX v) (subX v))
      (Z.shiftr (Z.min (h - row * 32) 32 + subY v) (subY v)) row uv (mc_identity v) (subX v) (subY v) dst = Ok dst' /\
    cov (out_chroma v s pts Grain params inY inC) (fun y x => 0 <= y < ch /\ 0 <= x < cw) dst0 dst'
      (fun y x => C y x \/ (row * bsz (subY v) <= y < row * bsz (subY v) + Z.min (ch - row * bsz (subY v)) (bsz (subY v)) /\ 0 <= x < cw)).
Proof.
  intros uv inY inC luma src scal lut Grain pts params lstride lrows stride rows drows row dst0 dst C
    Huv HM HCP HS HPad HSC HL HG HAct L1 L2 L3 S1 S2 S3 S4 Hr0 Hr1 HC.
  destruct (ch_rows row Hr0 Hr1) as (EBH & ROWC). rewrite EBH.
  unfold fguv, FG_BLOCK_SIZE. rewrite HM.
  destruct rel_fields as (ECF & _ & _ & ECL & ESH & RSH & _). fold (csfl d). rewrite ECL, ECF. rewrite S1. change (0 =? 0) with true.
  replace (if F.clip_to_restricted_range s =? 1 then Z.shiftl (if mc_identity v then 235 else 240) (bd - 8) else bitdepth_max bd) with (maxChroma v s).
  2:{ unfold maxChroma, maxLuma. fold bd. rewrite bitdepth_max_eq, shiftl_mul, pix_max by (pose proof (bdok_8 _ HB); unfold bd; lia).
      destruct (F.clip_to_restricted_range s =? 1), (mc_identity v); reflexivity. }
  assert (EBase : Z.shiftr (row * 32) (subY v) = row * bsz (subY v)).
  { rewrite shiftr_div by (destruct HY; lia). destruct HY as [E|E]; rewrite E; unfold bsz; cbn [Z.eqb Pos.eqb]; [change (2 ^ 0) with 1|change (2 ^ 1) with 2]; lia. }
  assert (ECW : Z.shiftr (w + subX v) (subX v) = cw) by (rewrite shiftr_div by (destruct HX; lia); reflexivity).
  rewrite EBase, ECW.
  pose proof minmax as (M0 & _ & M1).
  assert (RB0 : 0 <= row * bsz (subY v)) by (clear - Hr0; destruct (bsz_cases (subY v)) as [(E & _)|(E & _)]; rewrite E; lia).
  assert (SZ : 2 ^ bd <= scaling_size bd) by (unfold bd, scaling_size; destruct HB as [->|[->| ->]]; cbn [Z.eqb Pos.eqb]; [change (2 ^ 8) with 256|change (2 ^ 10) with 1024|change (2 ^ 12) with 4096]; lia).
  destruct (mult_of params) as [[mult lmult] offset] eqn:EM. cbv zeta. cbn iota.
  assert (MB : -128 <= mult <= 127 /\ -128 <= lmult <= 127 /\ -256 <= offset <= 255).
  { destruct params as [[[a b] c]|]; cbn [mult_of coded_params] in *; inversion EM; lia. }
  assert (MS : match params with Some p => p | None => (128, 128, 256) end = (mult + 128, lmult + 128, offset + 256)).
  { destruct params as [[[a b] c]|]; cbn [mult_of] in EM; inversion EM; subst; repeat f_equal; lia. }
  apply (rows_ok v d s HB HP ltac:(unfold w in *; lia) (subX v) (subY v) HX HY lut Grain HG row
    (Z.min (ch - row * bsz (subY v)) (bsz (subY v))) cw Hr0).
  - pose proof (bsz_cases (subY v)). lia.
  - reflexivity.
  - intros y x g b Hy Hx Hg Eg.
    rewrite !shiftl_mul by (destruct HX, HY; lia).
    set (Ly := row * 32 + y * 2 ^ subY v). set (Lx := x * 2 ^ subX v).
    assert (HLy : 0 <= Ly < h).
    { clear - Hy HY Hr0 ROWC. unfold Ly, ch, chroma_h in *. fold h in Hy. destruct HY as [E|E]; rewrite E in *; unfold bsz in *; cbn [Z.eqb Pos.eqb] in *; [change (2 ^ 0) with 1 in *; rewrite Z.div_1_r in *|change (2 ^ 1) with 2 in *]; lia. }
    assert (HLx : 0 <= Lx < w).
    { clear - Hx HX. unfold Lx, cw, chroma_w in *. fold w in Hx. destruct HX as [E|E]; rewrite E in *; [change (2 ^ 0) with 1 in *; rewrite Z.div_1_r in *|change (2 ^ 1) with 2 in *]; lia. }
    assert (ELY : (row * bsz (subY v) + y) * 2 ^ subY v = Ly).
    { unfold Ly. destruct HY as [E|E]; rewrite E; unfold bsz; cbn [Z.eqb Pos.eqb]; [change (2 ^ 0) with 1|change (2 ^ 1) with 2]; lia. }
    destruct (HS Ly Lx HLy HLx) as (E0 & P0).
    rewrite (rd2_ok _ _ _ _ _ (inY Ly Lx)) by (auto; lia). cbn [obind].
    set (avg := if subX v =? 1 then Round2 (inY Ly Lx + inY Ly (Z.min (Lx + 1) (w - 1))) 1 else inY Ly Lx).
    assert (AV : (if subX v =? 0 then Ok (inY Ly Lx) else
                 obind (rd2 lrows lstride luma Ly (Lx + 1)) (fun l1 => Ok (pixel bd (Z.shiftr (inY Ly Lx + l1 + 1) 1)))) = Ok avg /\ 0 <= avg < 2 ^ bd).
    { unfold avg. destruct HX as [E|E]; rewrite E; cbn [Z.eqb Pos.eqb]; [split; [reflexivity|lia]|].
      assert (EN : luma Ly (Lx + 1) = Some (inY Ly (Z.min (Lx + 1) (w - 1))) /\ 0 <= inY Ly (Z.min (Lx + 1) (w - 1)) < 2 ^ bd /\ Lx + 1 < lstride).
      { destruct (Z.ltb_spec (Lx + 1) w).
        - rewrite Z.min_l by lia. destruct (HS Ly (Lx + 1) HLy ltac:(lia)) as (Q1 & Q2). split; [exact Q1|]. split; [exact Q2|lia].
        - assert (Lx + 1 = w) by lia. rewrite Z.min_r by lia. replace (Lx + 1) with w by lia.
          assert (ODD : w mod 2 = 1). { assert (EX : Lx = x * 2) by (unfold Lx; rewrite E; reflexivity). lia. }
          split; [apply (HPad E y Hy ODD)|]. split; [apply HS; lia|]. lia. }
      destruct EN as (EN1 & EN2 & EN3). rewrite (rd2_ok _ _ _ _ _ (inY Ly (Z.min (Lx + 1) (w - 1)))) by (solve [exact EN1|lia]). cbn [obind].
      assert (R : Z.shiftr (inY Ly Lx + inY Ly (Z.min (Lx + 1) (w - 1)) + 1) 1 = Round2 (inY Ly Lx + inY Ly (Z.min (Lx + 1) (w - 1))) 1).
      { rewrite <- round2_ok by lia. unfold round2. f_equal. }
      rewrite R. assert (RB : 0 <= Round2 (inY Ly Lx + inY Ly (Z.min (Lx + 1) (w - 1))) 1 <= 2 ^ bd - 1).
      { apply Round2_bound; [lia|]. change (2 ^ 1) with 2. lia. }
      rewrite pixel_id by lia. split; [reflexivity|lia]. }
    destruct AV as (AV & AVR). rewrite AV. cbn [obind].
    destruct (HSC (row * bsz (subY v) + y) x ltac:(lia) Hx) as (Es & Ps).
    set (orig := inC (row * bsz (subY v) + y) x) in *.
    rewrite (rd2_ok _ _ _ _ _ orig) by (auto; lia). cbn [obind].
    set (merged := if F.chroma_scaling_from_luma s =? 1 then avg else
                     Clip1 v ((avg * lmult + orig * mult) / 2 ^ 6 + offset * 2 ^ (bd - 8))).
    assert (P12 : 2 ^ bd <= 4096) by (unfold bd; destruct HB as [->|[->| ->]]; [change (2 ^ 8) with 256|change (2 ^ 10) with 1024|change (2 ^ 12) with 4096]; lia).
    assert (MG : (if F.chroma_scaling_from_luma s =? 1 then Ok avg else
                  obind (ck (avg * lmult + orig * mult)) (fun combined =>
                  Ok (iclip (Z.shiftr combined 6 + offset * (1 * 2 ^ (bd - 8))) 0 (bitdepth_max bd)))) = Ok merged /\ 0 <= merged < 2 ^ bd).
    { unfold merged. destruct (F.chroma_scaling_from_luma s =? 1); [auto|].
      assert (PR : forall a m, 0 <= a < 4096 -> -128 <= m <= 127 -> -524288 <= a * m <= 524288) by (clear; intros; nia).
      pose proof (PR avg lmult ltac:(lia) ltac:(lia)) as PR1. pose proof (PR orig mult ltac:(lia) ltac:(lia)) as PR2.
      rewrite ck_ok by (clear - PR1 PR2; unfold INT_MIN, INT_MAX; lia). cbn [obind]. rewrite iclip_Clip3, bitdepth_max_eq, shiftr_div, Z.mul_1_l by lia.
      unfold Clip1. fold bd. split; [reflexivity|].
      match goal with |- context [Clip3 0 _ ?t] => pose proof (Clip3_bound 0 (2 ^ bd - 1) t ltac:(lia)); lia end. }
    destruct MG as (MG & MR). rewrite (shiftl_mul 1 (bd - 8)) by (pose proof (bdok_8 _ HB); unfold bd; lia). rewrite MG. cbn [obind].
    destruct (HL _ MR) as (El & Pl). rewrite (rd1_ok _ _ _ (scale_lut v (if F.chroma_scaling_from_luma s =? 1 then F.point_y s else pts) merged)) by (solve [exact El|lia]). cbn [obind].
    destruct (noise_value _ _ Pl Hg) as (E1 & E2). rewrite E1. cbn [obind]. rewrite E2.
    match goal with |- context [iclip ?t _ _] => destruct (clip_pixel (maxChroma v s) t ltac:(lia) ltac:(lia)) as (E3 & _) end.
    rewrite E3. rewrite wr2_ok by lia. do 2 f_equal. unfold out_chroma. rewrite HAct. cbv zeta. fold orig. rewrite ELY. fold Lx w. fold avg.
    rewrite MS. replace (lmult + 128 - 128) with lmult by lia. replace (mult + 128 - 128) with mult by lia. replace (offset + 256 - 256) with offset by lia.
    fold bd. fold merged. rewrite Eg. reflexivity.
  - intros y x Hy Hx. lia.
  - exact HC.
Qed.
Definition luma_part (inY : array2) (y0 out : plane) (n : Z) (y : plane) : Prop :=
  if has_y d then cov (OutY v s inY) (fun y x => 0 <= y < h /\ 0 <= x < w) out y (fun y x => 0 <= y < Z.min (n * 32) h /\ 0 <= x < w)
  else y = y0.
Definition chroma_part (act : bool) (pts : list (Z * Z)) (Grain : array2) (params : option (Z * Z * Z)) (inY inC : array2) (c0 out : plane) (n : Z) (c : plane) : Prop :=
  if act || csfl d then
    cov (out_chroma v s pts Grain params inY inC) (fun y x => 0 <= y < ch /\ 0 <= x < cw) out c
      (fun y x => 0 <= y < Z.min (n * bsz (subY v)) ch /\ 0 <= x < cw)
  else c = c0.

(** * The tables *)
Definition tables_ok (t : tables) : Prop :=
  (exists g, holds bd 73 82 (t_ly t) g /\ (0 < num_points (F.point_y s) -> g = LumaGrain v s)) /\
  (has_u d || csfl d = true -> holds bd (chromaH v) (chromaW v) (t_lu t) (CbGrain v s)) /\
  (has_v d || csfl d = true -> holds bd (chromaH v) (chromaW v) (t_lv t) (CrGrain v s)) /\
  (has_y d || csfl d = true -> lut_ok (F.point_y s) (t_sy t)) /\
  (has_u d = true -> lut_ok (F.point_cb s) (t_su t)) /\ (has_v d = true -> lut_ok (F.point_cr s) (t_sv t)).
Lemma tables_ready : exists t, prep_tables bd d (geom v) = Ok t /\ tables_ok t.
Proof.
  unfold prep_tables. destruct (grain_y_ok v d s HB HP) as (ly & g & E & HG & HE). unfold bd. rewrite E. cbn [obind]. fold bd.
  destruct rel_fields as (_ & _ & _ & _ & _ & _ & PY & PU & PV & _ & _ & _ & _ & W1 & W2 & W3 & MONO & _).
  cbn [geom g_mono g_ssx g_ssy].
  assert (UV : forall uv, uv = 0 \/ uv = 1 -> let b := if uv =? 0 then has_u d else has_v d in
    exists l, (if b || csfl d then if negb (monochrome v) then generate_grain_uv bd d uv (subX v) (subY v) ly else Undef else Ok plane0) = Ok l /\
      (b || csfl d = true -> holds bd (chromaH v) (chromaW v) l (if uv =? 0 then CbGrain v s else CrGrain v s))).
  { intros uv Huv b. destruct (b || csfl d) eqn:EA; [|exists plane0; split; [reflexivity|discriminate]].
    destruct (monochrome v) eqn:EMo.
    { destruct (MONO eq_refl) as (Q1 & Q2 & Q3). unfold b in EA. rewrite Q1, Q2, Q3 in EA. destruct (uv =? 0); discriminate. }
    cbn [negb]. destruct (grain_uv_ok v d s HB ltac:(rewrite EMo; exact HP) uv ly g Huv HX HY HG HE EA) as (l & El & Hl).
    exists l. split; [exact El|]. intros _. exact Hl. }
  destruct (UV 0 ltac:(auto)) as (lu & EU & HU). destruct (UV 1 ltac:(auto)) as (lv & EV & HV). cbn [Z.eqb Pos.eqb] in *.
  rewrite EU. cbn [obind]. rewrite EV. cbn [obind].
  assert (SC : forall (b : bool) pts, points_wf pts -> exists a, (if b then generate_scaling bd pts else Ok arr0) = Ok a /\ (b = true -> lut_ok pts a)).
  { intros b pts HWf. destruct b; [|exists arr0; split; [reflexivity|discriminate]].
    destruct (generate_scaling_ok v pts HB HWf) as (a & Ea & Ha). exists a. split; [exact Ea|]. intros _. exact Ha. }
  rewrite PY, PU, PV.
  destruct (SC (has_y d || csfl d) _ W1) as (a1 & E1 & H1). destruct (SC (has_u d) _ W2) as (a2 & E2 & H2). destruct (SC (has_v d) _ W3) as (a3 & E3 & H3).
  rewrite E1. cbn [obind]. rewrite E2. cbn [obind]. rewrite E3. cbn [obind].
  eexists. split; [reflexivity|]. unfold tables_ok. cbn [t_ly t_lu t_lv t_sy t_su t_sv]. split; [exists g; auto|]. auto.
Qed.
(** * A row of the picture *)
Definition buffers_ok (i out : image) (inY inU inV : array2) : Prop :=
  shows bd w h (im_y i) inY /\ im_stride i mod 32 = 0 /\ w <= im_stride i /\ h <= im_rows i /\
  im_stride out = im_stride i /\ h <= im_rows out /\
  (monochrome v = false ->
     shows bd cw ch (im_u i) inU /\ shows bd cw ch (im_v i) inV /\ im_cstride i mod 32 = 0 /\ cw <= im_cstride i /\ ch <= im_crows i /\
     im_cstride out = im_cstride i /\ ch <= im_crows out).
(** The input changes in the column after the last one only. *)
Definition same_input (i0 i : image) : Prop :=
  (forall y x, x <> w -> im_y i y x = im_y i0 y x) /\ im_u i = im_u i0 /\ im_v i = im_v i0 /\
  im_stride i = im_stride i0 /\ im_cstride i = im_cstride i0 /\ im_rows i = im_rows i0 /\ im_crows i = im_crows i0.
Definition same_shape (o0 o : image) : Prop :=
  im_stride o = im_stride o0 /\ im_cstride o = im_cstride o0 /\ im_rows o = im_rows o0 /\ im_crows o = im_crows o0.
Definition inv (i0 out0 : image) (inY inU inV : array2) (n : Z) (st : image * image) : Prop :=
  let '(i, out) := st in
  same_input i0 i /\ same_shape out0 out /\ luma_part inY (im_y i0) (im_y out0) n (im_y out) /\
  (monochrome v = false ->
     chroma_part (has_u d) (F.point_cb s) (CbGrain v s) (F.cb_params s) inY inU (im_u i0) (im_u out0) n (im_u out) /\
     chroma_part (has_v d) (F.point_cr s) (CrGrain v s) (F.cr_params s) inY inV (im_v i0) (im_v out0) n (im_v out)).

Lemma shows_same : forall i0 i inY, shows bd w h (im_y i0) inY -> (forall y x, x <> w -> im_y i y x = im_y i0 y x) -> shows bd w h (im_y i) inY.
Proof. intros i0 i inY H E y x Hy Hx. rewrite E by lia. apply H; assumption. Qed.

Lemma next_rows : forall C1 C2 : Z -> Z -> Prop, (forall y x, C2 y x -> C1 y x) -> forall T full o p, cov T full o p C1 -> cov T full o p C2.
Proof. intros C1 C2 H T full o p HC. exact (cov_weaken _ _ _ _ _ _ HC H). Qed.

Lemma row_ok : forall i0 out0 inY inU inV t n st, buffers_ok i0 out0 inY inU inV -> tables_ok t -> 0 <= n -> n * 32 < h ->
  inv i0 out0 inY inU inV n st -> exists st', apply_row bd d (geom v) t n st = Ok st' /\ inv i0 out0 inY inU inV (n + 1) st'.
Proof.
  intros i0 out0 inY inU inV t n [i out] HBuf HT Hn0 Hn1 (SI & SS & LP & CP).
  destruct HBuf as (B1 & B2 & B3 & B4 & B5 & B6 & B7).
  destruct SI as (I1 & I2 & I3 & I4 & I5 & I6 & I7). destruct SS as (O1 & O2 & O3 & O4).
  destruct HT as ((GY & TY1 & TY2) & TU & TV & SY & SU & SV).
  destruct rel_fields as (ECF & EU & EV & _ & _ & _ & PY & PU & PV & MU & MV & CU & CV & _ & _ & _ & MONO & CSF).
  pose proof (has_y_points v d s HP) as EHY.
  unfold apply_row. cbn [geom g_w g_h g_ssx g_ssy g_identity]. cbv zeta. fold w h.
  assert (LUM : exists y', (if has_y d then fgy bd d (t_sy t) (t_ly t) (im_y i) (im_stride out) (im_rows i) (im_rows out) w (Z.min (h - n * 32) 32) n (im_y out)
                   else Ok (im_y out)) = Ok y' /\ luma_part inY (im_y i0) (im_y out0) (n + 1) y').
  { unfold luma_part in *. destruct (has_y d) eqn:HYD; [|exists (im_y out); split; [reflexivity|exact LP]].
    destruct (fgy_ok inY (im_y i) (t_sy t) (t_ly t) GY (im_stride out) (im_rows i) (im_rows out) n (im_y out0) (im_y out) _
      (shows_same _ _ _ B1 I1) (SY eq_refl) TY1 TY2 ltac:(lia) ltac:(congruence) ltac:(lia) ltac:(lia) ltac:(lia) Hn0 Hn1 LP) as (y' & E & HC').
    exists y'. split; [exact E|]. apply (cov_weaken _ _ _ _ _ _ HC'). intros y x Hyx. destruct (Z.ltb_spec y (n * 32)); [left; lia|right; lia]. }
  destruct LUM as (y' & EL & LP'). rewrite EL. cbn [obind im_y im_u im_v im_stride im_cstride im_rows im_crows].
  destruct (negb (has_u d) && negb (has_v d) && negb (csfl d)) eqn:ENO.
  - eexists. split; [reflexivity|]. split; [repeat split; assumption|]. split; [repeat split; assumption|]. cbn [im_y im_u im_v].
    split; [exact LP'|]. intros M. destruct (CP M) as (C1 & C2). unfold chroma_part in *.
    destruct (has_u d), (has_v d), (csfl d); try discriminate. cbn [orb] in *. auto.
  - assert (M : monochrome v = false).
    { destruct (monochrome v) eqn:EMo; [|reflexivity]. destruct (MONO eq_refl) as (Q1 & Q2 & Q3). rewrite Q1, Q2, Q3 in ENO. discriminate. }
    destruct (B7 M) as (U1 & U2 & U3 & U4 & U5 & U6 & U7). destruct (CP M) as (C1 & C2).
    destruct (ch_rows n Hn0 Hn1) as (EBH & ROWC).
    set (bh := Z.shiftr (Z.min (h - n * 32) 32 + subY v) (subY v)) in *.
    pose proof (bsz_cases (subY v)) as By.
    assert (YY : forall y, 0 <= y < bh -> 0 <= n * 32 + y * 2 ^ subY v < h).
    { clear - EBH HY Hn0 Hn1 ROWC. intros y Hy. rewrite EBH in Hy. unfold ch, chroma_h in *. fold h in Hy. destruct HY as [E|E]; rewrite E in *; unfold bsz in *; cbn [Z.eqb Pos.eqb] in *; [change (2 ^ 0) with 1 in *; rewrite Z.div_1_r in *|change (2 ^ 1) with 2 in *]; lia. }
    assert (PADL : exists ly, (if z2b (Z.land w (subX v)) then
       for_ 0 bh (fun y p => obind (rd2 (im_rows i) (im_stride i) p (n * 32 + Z.shiftl y (subY v)) (w - 1)) (fun u =>
         wr2 (im_rows i) (im_stride i) p (n * 32 + Z.shiftl y (subY v)) w u)) (im_y i) else Ok (im_y i)) = Ok ly /\
       (forall y x, x <> w -> ly y x = im_y i0 y x) /\ padded ly inY n bh).
    { destruct (z2b (Z.land w (subX v))) eqn:EW.
      - assert (SX : subX v = 1 /\ w mod 2 = 1).
        { destruct HX as [E|E]; rewrite E in EW; [rewrite Z.land_0_r in EW; discriminate|]. split; [exact E|]. rewrite land1_mod in EW. unfold z2b in EW. lia. }
        destruct SX as (SX & WO).
        destruct (for_inv _ (fun y p => (forall y x, x <> w -> p y x = im_y i0 y x) /\
            forall y', 0 <= y' < y -> p (n * 32 + y' * 2 ^ subY v) w = Some (inY (n * 32 + y' * 2 ^ subY v) (w - 1)))
          (fun y p => obind (rd2 (im_rows i) (im_stride i) p (n * 32 + Z.shiftl y (subY v)) (w - 1)) (fun u =>
             wr2 (im_rows i) (im_stride i) p (n * 32 + Z.shiftl y (subY v)) w u)) 0 bh (im_y i)) as (ly & E & P1 & P2).
        + rewrite EBH. lia.
        + split; [exact I1|intros; lia].
        + intros y p Hy (P1 & P2). rewrite shiftl_mul by (destruct HY; lia). pose proof (YY y Hy) as Hyy.
          destruct (B1 (n * 32 + y * 2 ^ subY v) (w - 1) Hyy ltac:(unfold w; lia)) as (Ev & _).
          rewrite (rd2_ok _ _ _ _ _ (inY (n * 32 + y * 2 ^ subY v) (w - 1))); [|lia|unfold w in *; lia|rewrite P1 by lia; exact Ev].
          cbn [obind]. rewrite wr2_ok by (rewrite ?I4, ?I6; lia). eexists. split; [reflexivity|]. split.
          * intros y1 x1 Hx1. rewrite set2_other by auto. apply P1. exact Hx1.
          * intros y1 Hy1. destruct (Z.eq_dec y1 y) as [->|Ne]; [apply set2_same|].
            rewrite set2_other; [apply P2; lia|]. left. clear - Ne HY. destruct HY as [Q|Q]; rewrite Q; [change (2 ^ 0) with 1|change (2 ^ 1) with 2]; lia.
        + exists ly. split; [exact E|]. split; [exact P1|]. intros _ y Hy _. apply P2. exact Hy.
      - exists (im_y i). split; [reflexivity|]. split; [exact I1|]. intros SX y Hy WO. exfalso.
        rewrite SX, land1_mod in EW. unfold z2b in EW. lia. }
    destruct PADL as (ly & EP & L1 & L2). rewrite EP. cbn [obind im_y im_u im_v im_stride im_cstride im_rows im_crows].
    rewrite EBH in L2.
    assert (HSl : shows bd w h ly inY) by (intros y x Hy Hx; rewrite L1 by lia; apply B1; assumption).
    assert (RN : n * bsz (subY v) + Z.min (ch - n * bsz (subY v)) (bsz (subY v)) = Z.min ((n + 1) * bsz (subY v)) ch) by lia.
    assert (RN0 : 0 <= n * bsz (subY v)) by (clear - Hn0 By; destruct By as [(E & _)|(E & _)]; rewrite E; lia).
    assert (UVS : forall uv (act : bool) pts Grain params inC c0 o0 lut scal src dst,
      uv = 0 \/ uv = 1 -> (if uv =? 0 then fg_u_mult d else fg_v_mult d) = mult_of params -> coded_params params ->
      act = (0 <? num_points pts) -> shows bd cw ch src inC -> (act || csfl d = true -> holds bd (chromaH v) (chromaW v) lut Grain) ->
      (act || csfl d = true -> lut_ok (if F.chroma_scaling_from_luma s =? 1 then F.point_y s else pts) scal) ->
      chroma_part act pts Grain params inY inC c0 o0 n dst -> act || csfl d = true ->
      exists dst', fguv bd d scal lut ly src (im_stride i) (im_rows i) (im_cstride i) (im_crows i) (im_crows out) (Z.shiftr (w + subX v) (subX v)) bh n uv (mc_identity v) (subX v) (subY v) dst = Ok dst' /\
        chroma_part act pts Grain params inY inC c0 o0 (n + 1) dst').
    { intros uv act pts Grain params inC c0 o0 lut scal src dst Huv HM HCP HA HSC HG HL HCPt ACT.
      unfold chroma_part in *. rewrite ACT in *. specialize (HG eq_refl). specialize (HL eq_refl).
      destruct (fguv_ok uv inY inC ly src scal lut Grain pts params (im_stride i) (im_rows i) (im_cstride i) (im_crows i) (im_crows out) n o0 dst _
        Huv HM HCP HSl L2 HSC HL HG ltac:(rewrite <- HA, <- ECF; exact ACT) ltac:(congruence) ltac:(lia) ltac:(lia) ltac:(congruence) ltac:(lia) ltac:(lia) ltac:(lia) Hn0 Hn1 HCPt) as (dst' & E & HC').
      exists dst'. split; [exact E|]. apply (cov_weaken _ _ _ _ _ _ HC'). intros y x Hyx. rewrite RN. destruct (Z.ltb_spec y (n * bsz (subY v))); [left; lia|right; lia]. }
    assert (FIN : exists u' v', (if csfl d
        then obind (fguv bd d (t_sy t) (t_lu t) ly (im_u i) (im_stride i) (im_rows i) (im_cstride i) (im_crows i) (im_crows out) (Z.shiftr (w + subX v) (subX v)) bh n 0 (mc_identity v) (subX v) (subY v) (im_u out)) (fun u =>
             obind (fguv bd d (t_sy t) (t_lv t) ly (im_v i) (im_stride i) (im_rows i) (im_cstride i) (im_crows i) (im_crows out) (Z.shiftr (w + subX v) (subX v)) bh n 1 (mc_identity v) (subX v) (subY v) (im_v out)) (fun v => Ok (u, v)))
        else obind (if has_u d then fguv bd d (t_su t) (t_lu t) ly (im_u i) (im_stride i) (im_rows i) (im_cstride i) (im_crows i) (im_crows out) (Z.shiftr (w + subX v) (subX v)) bh n 0 (mc_identity v) (subX v) (subY v) (im_u out) else Ok (im_u out)) (fun u =>
             obind (if has_v d then fguv bd d (t_sv t) (t_lv t) ly (im_v i) (im_stride i) (im_rows i) (im_cstride i) (im_crows i) (im_crows out) (Z.shiftr (w + subX v) (subX v)) bh n 1 (mc_identity v) (subX v) (subY v) (im_v out) else Ok (im_v out)) (fun v => Ok (u, v))))
        = Ok (u', v') /\
        chroma_part (has_u d) (F.point_cb s) (CbGrain v s) (F.cb_params s) inY inU (im_u i0) (im_u out0) (n + 1) u' /\
        chroma_part (has_v d) (F.point_cr s) (CrGrain v s) (F.cr_params s) inY inV (im_v i0) (im_v out0) (n + 1) v').
    { assert (U1' : shows bd cw ch (im_u i) inU) by (rewrite I2; exact U1). assert (U2' : shows bd cw ch (im_v i) inV) by (rewrite I3; exact U2).
      destruct (csfl d) eqn:ECS.
      - symmetry in ECF.
        destruct (UVS 0 (has_u d) (F.point_cb s) (CbGrain v s) (F.cb_params s) inU (im_u i0) (im_u out0) (t_lu t) (t_sy t) (im_u i) (im_u out)
          ltac:(auto) MU CU EU U1' TU ltac:(intros _; rewrite ECF; apply SY; apply orb_true_r) C1 ltac:(apply orb_true_r)) as (u' & E1 & Q1).
        destruct (UVS 1 (has_v d) (F.point_cr s) (CrGrain v s) (F.cr_params s) inV (im_v i0) (im_v out0) (t_lv t) (t_sy t) (im_v i) (im_v out)
          ltac:(auto) MV CV EV U2' TV ltac:(intros _; rewrite ECF; apply SY; apply orb_true_r) C2 ltac:(apply orb_true_r)) as (v' & E2 & Q2).
        exists u', v'. rewrite E1. cbn [obind]. rewrite E2. cbn [obind]. auto.
      - symmetry in ECF.
        assert (X1 : exists u', (if has_u d then fguv bd d (t_su t) (t_lu t) ly (im_u i) (im_stride i) (im_rows i) (im_cstride i) (im_crows i) (im_crows out) (Z.shiftr (w + subX v) (subX v)) bh n 0 (mc_identity v) (subX v) (subY v) (im_u out) else Ok (im_u out)) = Ok u' /\
          chroma_part (has_u d) (F.point_cb s) (CbGrain v s) (F.cb_params s) inY inU (im_u i0) (im_u out0) (n + 1) u').
        { destruct (has_u d) eqn:EHU.
          - apply (UVS 0 true (F.point_cb s) (CbGrain v s) (F.cb_params s) inU (im_u i0) (im_u out0) (t_lu t) (t_su t) (im_u i) (im_u out)); auto.
            intros _. rewrite ECF. apply SU. reflexivity.
          - exists (im_u out). split; [reflexivity|]. unfold chroma_part in *. rewrite ECS in *. exact C1. }
        assert (X2 : exists v', (if has_v d then fguv bd d (t_sv t) (t_lv t) ly (im_v i) (im_stride i) (im_rows i) (im_cstride i) (im_crows i) (im_crows out) (Z.shiftr (w + subX v) (subX v)) bh n 1 (mc_identity v) (subX v) (subY v) (im_v out) else Ok (im_v out)) = Ok v' /\
          chroma_part (has_v d) (F.point_cr s) (CrGrain v s) (F.cr_params s) inY inV (im_v i0) (im_v out0) (n + 1) v').
        { destruct (has_v d) eqn:EHV.
          - apply (UVS 1 true (F.point_cr s) (CrGrain v s) (F.cr_params s) inV (im_v i0) (im_v out0) (t_lv t) (t_sv t) (im_v i) (im_v out)); auto.
            intros _. rewrite ECF. apply SV. reflexivity.
          - exists (im_v out). split; [reflexivity|]. unfold chroma_part in *. rewrite ECS in *. exact C2. }
        destruct X1 as (u' & E1 & Q1). destruct X2 as (v' & E2 & Q2). exists u', v'. rewrite E1. cbn [obind]. rewrite E2. cbn [obind]. auto. }
    destruct FIN as (u' & v' & EF & F1 & F2). rewrite EF. cbn [obind].
    eexists. split; [reflexivity|]. split; [split; [exact L1|repeat split; assumption]|]. split; [repeat split; assumption|].
    cbn [im_y im_u im_v]. auto.
Qed.

(** * The whole picture *)
Theorem apply_ok : forall i out inY inU inV, buffers_ok i out inY inU inV ->
  exists i' out', apply_grain bd d (geom v) i out = Ok (i', out') /\
    shows bd w h (im_y out') (OutY v s inY) /\
    (monochrome v = false -> shows bd cw ch (im_u out') (OutU v s inY inU) /\ shows bd cw ch (im_v out') (OutV v s inY inV)) /\
    same_input i i' /\ same_shape out out' /\
    (forall y x, ~ (0 <= y < h /\ 0 <= x < w) -> im_y out' y x = im_y out y x \/ im_y out' y x = im_y i y x) /\
    (monochrome v = false -> forall y x, ~ (0 <= y < ch /\ 0 <= x < cw) ->
       (im_u out' y x = im_u out y x \/ im_u out' y x = im_u i y x) /\ (im_v out' y x = im_v out y x \/ im_v out' y x = im_v i y x)).
Proof.
  intros i out inY inU inV HBuf. pose proof HBuf as (B1 & B2 & B3 & B4 & B5 & B6 & B7).
  unfold apply_grain. cbv zeta. destruct tables_ready as (t & ET & HT). rewrite ET. cbn [obind].
  unfold prep_planes. cbv zeta. rewrite B5, Z.eqb_refl. cbn [geom g_mono g_h]. fold h.
  assert (G2 : negb (negb (monochrome v) && negb (csfl d)) || (im_cstride out =? im_cstride i) = true).
  { destruct (monochrome v); [reflexivity|]. destruct (B7 eq_refl) as (_ & _ & _ & _ & _ & E & _). rewrite E, Z.eqb_refl. apply orb_true_r. }
  rewrite G2. cbn [obind].
  match goal with |- context [for_ _ _ _ (i, ?o)] => set (out1 := o) end.
  assert (SI0 : same_input i i) by (repeat split; auto).
  destruct (for_inv _ (inv i out inY inU inV) (apply_row bd d (geom v) t) 0 ((h + 31) / 32) (i, out1)) as ([i' out'] & E & SI & SS & LP & CP).
  - unfold h. lia.
  - split; [exact SI0|]. split; [unfold out1; cbn; repeat split; auto|]. unfold out1. cbn [im_y im_u im_v]. split.
    + unfold luma_part. destruct (has_y d); [|reflexivity]. split; [intros; lia|reflexivity].
    + intros M. rewrite M. cbn [negb andb]. unfold chroma_part. destruct (csfl d); cbn [negb andb orb].
      * rewrite !orb_true_r. split; (split; [intros; lia|reflexivity]).
      * rewrite !orb_false_r. split; [destruct (has_u d)|destruct (has_v d)]; cbn [negb]; try reflexivity; (split; [intros; lia|reflexivity]).
  - intros j st Hj HI. apply row_ok; auto; [lia|]. unfold h in *. lia.
  - exists i', out'. split; [exact E|]. destruct rel_fields as (ECF & EU & EV & _). pose proof (has_y_points v d s HP) as EHY.
    pose proof minmax as (M0 & M1 & M2).
    assert (NR : Z.min ((h + 31) / 32 * 32) h = h) by (unfold h; lia).
    split; [|split; [|split; [exact SI|split; [exact SS|split]]]].
    + intros y x Hy Hx. unfold luma_part in LP. rewrite EHY in LP. destruct (0 <? num_points (F.point_y s)) eqn:ENY.
      * destruct LP as (LP & _). rewrite LP by (rewrite NR; auto). split; [reflexivity|]. unfold OutY. rewrite ENY. cbv zeta.
        match goal with |- 0 <= Clip3 _ _ ?t < _ => pose proof (Clip3_bound (minValue v s) (maxLuma v s) t ltac:(lia)) end. lia.
      * rewrite LP. unfold OutY. rewrite ENY. apply B1; assumption.
    + intros M. destruct (CP M) as (C1 & C2). destruct (B7 M) as (U1 & U2 & _).
      assert (NC : Z.min ((h + 31) / 32 * bsz (subY v)) ch = ch).
      { unfold ch, chroma_h. fold h. destruct HY as [Q|Q]; rewrite Q; unfold bsz; cbn [Z.eqb Pos.eqb]; [change (2 ^ 0) with 1; rewrite Z.div_1_r|change (2 ^ 1) with 2]; lia. }
      assert (OC : forall act pts Grain params inC c0 o0 c, act = (0 <? num_points pts) -> shows bd cw ch c0 inC ->
        chroma_part act pts Grain params inY inC c0 o0 ((h + 31) / 32) c -> shows bd cw ch c (out_chroma v s pts Grain params inY inC)).
      { intros act pts Grain params inC c0 o0 c HA HS HC y x Hy Hx. unfold chroma_part in HC. rewrite HA, ECF in HC.
        destruct ((0 <? num_points pts) || (F.chroma_scaling_from_luma s =? 1)) eqn:EA.
        - destruct HC as (HC & _). rewrite HC by (rewrite NC; auto). split; [reflexivity|]. unfold out_chroma. rewrite EA. cbv zeta.
          match goal with |- 0 <= Clip3 _ _ ?t < _ => pose proof (Clip3_bound (minValue v s) (maxChroma v s) t ltac:(lia)) end. lia.
        - rewrite HC. unfold out_chroma. rewrite EA. apply HS; assumption. }
      split; [apply (OC _ _ _ _ _ _ _ _ EU U1 C1)|apply (OC _ _ _ _ _ _ _ _ EV U2 C2)].
    + intros y x Hyx. unfold luma_part in LP. destruct (has_y d); [left; apply LP; exact Hyx|right; rewrite LP; reflexivity].
    + intros M y x Hyx. destruct (CP M) as (C1 & C2). unfold chroma_part in C1, C2. split.
      * destruct (has_u d || csfl d); [left; apply C1; exact Hyx|right; rewrite C1; reflexivity].
      * destruct (has_v d || csfl d); [left; apply C2; exact Hyx|right; rewrite C2; reflexivity].
Qed.
End A.

(** generate_grain_y and generate_grain_uv. *)
From Coq Require Import ZArith List Bool Lia.
From Verif Require Import Base.CInt Base.Lemmas Base.Loop Obu.SeqModel Obu.FrameModel Obu.FrameRel.
From Verif Require Import Grain.Table Grain.Model Grain.Spec Grain.Arith Grain.Templates.
Import ListNotations.
Open Scope Z_scope.

Lemma coded_has : forall n cs m, (length cs <= n)%nat -> coded_coeffs m cs -> has_coeffs (coeffs_of n cs) cs m.
Proof.
  intros n cs m Hn (L & B) k Hk. unfold coeffs_of, pad, coeff.
  assert (K : (Z.to_nat k < length cs)%nat) by lia.
  split; [|pose proof (B k Hk); lia].
  rewrite (rd_at_nth _ _ k 0).
  - rewrite app_nth1 by (rewrite map_length; exact K).
    rewrite (nth_indep _ 0 (0 - 128)) by (rewrite map_length; exact K). rewrite (map_nth (fun v => v - 128)). reflexivity.
  - unfold zlen. rewrite app_length, map_length. lia.
Qed.
Lemma any_has : forall n cs, coeffs_wf n cs -> has_coeffs cs (map (fun c => c + 128) cs) (Z.of_nat n).
Proof.
  intros n cs (L & B) k Hk. unfold coeff.
  assert (K : (Z.to_nat k < length cs)%nat) by lia.
  rewrite (nth_indep _ 0 (0 + 128)) by (rewrite map_length; exact K). rewrite (map_nth (fun v => v + 128)).
  replace (nth (Z.to_nat k) cs 0 + 128 - 128) with (nth (Z.to_nat k) cs 0) by lia.
  split; [apply rd_at_nth; unfold zlen; lia|]. pose proof (Forall_nth_Z _ _ cs k 0 B ltac:(unfold zlen; lia)). cbv beta in *. lia.
Qed.
Lemma has_weaken : forall coeffs cs n m, has_coeffs coeffs cs n -> m <= n -> has_coeffs coeffs cs m.
Proof. intros coeffs cs n m H L k Hk. apply H. lia. Qed.

(** Parameters of the model and of the specification. *)
Definition params_ok (d : fgdata) (s : F.film_grain) (mono : bool) : Prop :=
  fg_rel d (Some s) /\ fg_wf d /\ coded_grain s mono.

Lemma zfor_ext : forall S (f g : Z -> S -> S) lo hi a, (forall i a, lo <= i < hi -> f i a = g i a) -> zfor lo hi f a = zfor lo hi g a.
Proof.
  intros S f g lo hi a H. unfold zfor.
  assert (G : forall n i a, lo <= i -> i + Z.of_nat n <= hi \/ n = O -> ziter n i f a = ziter n i g a).
  { induction n as [|n IH]; intros i b Hi Hn; [reflexivity|]. cbn [ziter]. rewrite H by lia. apply IH; lia. }
  apply G; lia.
Qed.

Lemma lag_pos : forall lag, 0 <= lag <= 3 -> 2 * lag * (lag + 1) <= 24.
Proof. intros lag H. nia. Qed.

Section T2.
Variable v : video.
Variable d : fgdata.
Variable s : F.film_grain.
Hypothesis HB : bdok (BitDepth v).
Hypothesis HP : params_ok d s (monochrome v).
Let bd := BitDepth v.

Lemma has_y_points : has_y d = (0 <? num_points (F.point_y s)).
Proof.
  destruct HP as (R & _ & _). cbn [fg_rel] in R. destruct R as (_ & E & _). unfold has_y, num_points. rewrite E. unfold zlen.
  destruct (length (F.point_y s)); reflexivity.
Qed.

Lemma grain_y_ok : exists buf g, generate_grain_y bd d = Ok buf /\ holds bd 73 82 buf g /\
  (0 < num_points (F.point_y s) -> g = LumaGrain v s).
Proof.
  pose proof HP as (R & W & C). cbn [fg_rel] in R. unfold coded_grain in C. cbv zeta in C.
  destruct R as (Rs & Ry & Rc & Ru & Rv & Rsh & Rl & Ray & Rau & Rav & Ras & Rg & _).
  destruct C as (C1 & _ & _ & _ & C2 & C3 & C4 & C5 & _ & _ & C6 & C7 & _).
  unfold fg_wf in W. destruct W as (_ & _ & _ & _ & _ & _ & _ & _ & _ & _ & W1 & _).
  unfold generate_grain_y. rewrite Rs, Rg, Rl, Ras.
  replace (4 - (bd - 8) + F.grain_scale_shift s) with (12 - bd + F.grain_scale_shift s) by lia.
  destruct (noise_ok v s HB 73 82 (F.grain_seed s) ltac:(lia) ltac:(lia) C1 C7) as ([b0 sd] & E0 & H0).
  unfold bd, GRAIN_HEIGHT, GRAIN_WIDTH. rewrite E0. cbn [obind fst] in *.
  set (cs := if 0 <? num_points (F.point_y s) then F.ar_coeffs_y_plus_128 s else map (fun c => c + 128) (fg_ar_coeffs_y d)).
  assert (HC : has_coeffs (fg_ar_coeffs_y d) cs (num_pos s)).
  { unfold cs, num_pos. pose proof (lag_pos _ C4). destruct (Z.ltb_spec 0 (num_points (F.point_y s))) as [N|N].
    - rewrite Ray. specialize (C5 N). apply coded_has; [destruct C5; lia|exact C5].
    - apply (has_weaken _ _ 24); [|lia]. apply (any_has 24%nat). exact W1. }
  destruct (filter_ok v s HB (fg_ar_coeffs_y d) cs (fun _ _ sum _ => Ok sum) (fun _ _ _ => 0) 73 82 b0 _ C4 HC ltac:(lia)
    ltac:(lia) ltac:(lia) ltac:(intros; cbv beta; f_equal; lia) H0) as (b1 & E1 & H1).
  exists b1, (ar_filter v s 73 82 cs (fun _ _ _ => 0) (gaussian v s 73 82 (F.grain_seed s))). split; [exact E1|].
  split; [exact H1|]. intros N. unfold LumaGrain, cs. destruct (Z.ltb_spec 0 (num_points (F.point_y s))); [reflexivity|lia].
Qed.

Definition sub01 (x : Z) : Prop := x = 0 \/ x = 1.
Lemma grain_uv_ok : forall uv buf_y g, uv = 0 \/ uv = 1 -> sub01 (subX v) -> sub01 (subY v) ->
  holds bd 73 82 buf_y g -> (0 < num_points (F.point_y s) -> g = LumaGrain v s) ->
  (if uv =? 0 then has_u d else has_v d) || csfl d = true ->
  exists buf, generate_grain_uv bd d uv (subX v) (subY v) buf_y = Ok buf /\
    holds bd (chromaH v) (chromaW v) buf (if uv =? 0 then CbGrain v s else CrGrain v s).
Proof.
  intros uv buf_y g Huv HX HY HG HE HU.
  pose proof HP as (R & W & C). cbn [fg_rel] in R. unfold coded_grain in C. cbv zeta in C.
  destruct R as (Rs & Ry & Rc & Ru & Rv & Rsh & Rl & Ray & Rau & Rav & Ras & Rg & _).
  destruct C as (C1 & _ & _ & _ & C2 & C3 & C4 & C5 & Ccb & Ccr & C6 & C7 & _).
  unfold generate_grain_uv. rewrite has_y_points.
  rewrite Rs, Rg, Rl, Ras.
  replace (4 - (bd - 8) + F.grain_scale_shift s) with (12 - bd + F.grain_scale_shift s) by lia.
  set (seed := Z.lxor (F.grain_seed s) (if uv =? 0 then 46372 else 18904)).
  assert (Hseed : 0 <= seed < 65536).
  { unfold seed. change 65536 with (2 ^ 16). apply lxor_range; [lia|exact C1|destruct (uv =? 0); lia]. }
  replace (if subX v =? 0 then GRAIN_WIDTH else 44) with (chromaW v) by (unfold chromaW; destruct HX as [->| ->]; reflexivity).
  replace (if subY v =? 0 then GRAIN_HEIGHT else 38) with (chromaH v) by (unfold chromaH; destruct HY as [->| ->]; reflexivity).
  assert (WH : 6 <= chromaW v <= 82 /\ 6 <= chromaH v <= 73).
  { unfold chromaW, chromaH. destruct (subX v =? 1), (subY v =? 1); lia. }
  destruct (noise_ok v s HB (chromaH v) (chromaW v) seed ltac:(lia) ltac:(lia) Hseed C7) as ([b0 sd] & E0 & H0).
  unfold bd. cbv zeta. rewrite E0. cbn [obind fst] in *.
  set (cs := if uv =? 0 then F.ar_coeffs_cb_plus_128 s else F.ar_coeffs_cr_plus_128 s).
  set (luma := fun y x pos : Z => if 0 <? num_points (F.point_y s) then luma_average v s y x * coeff cs pos else 0).
  assert (HC : coded_coeffs (if 0 <? num_points (F.point_y s) then num_pos s + 1 else num_pos s) cs).
  { unfold cs, num_pos. assert (FC : csfl d = true -> F.chroma_scaling_from_luma s = 1).
    { unfold csfl, z2b. rewrite Rc. destruct (Z.eqb_spec (F.chroma_scaling_from_luma s) 0); [discriminate|lia]. }
    destruct (uv =? 0).
    - apply Ccb. apply orb_prop in HU. destruct HU as [HU|HU]; [left|right; apply FC; exact HU].
      unfold has_u in HU. rewrite Ru in HU. unfold num_points. unfold zlen in HU. lia.
    - apply Ccr. apply orb_prop in HU. destruct HU as [HU|HU]; [left|right; apply FC; exact HU].
      unfold has_v in HU. rewrite Rv in HU. unfold num_points. unfold zlen in HU. lia. }
  assert (Ecf : uv_coeffs d uv = coeffs_of 28 cs) by (unfold uv_coeffs, cs; destruct (uv =? 0); assumption).
  pose proof (lag_pos _ C4) as LP. fold (num_pos s) in LP.
  assert (HC' : has_coeffs (uv_coeffs d uv) cs (if 0 <? num_points (F.point_y s) then num_pos s + 1 else num_pos s)).
  { rewrite Ecf. apply coded_has; [|exact HC]. destruct HC as (L & _). destruct (0 <? num_points (F.point_y s)); lia. }
  assert (HC2 : has_coeffs (uv_coeffs d uv) cs (num_pos s)).
  { apply (has_weaken _ _ _ _ HC'). destruct (0 <? num_points (F.point_y s)); lia. }
  destruct (filter_ok v s HB (uv_coeffs d uv) cs
    (fun y x sum k => if 0 <? num_points (F.point_y s) then
           let lumaX := Z.shiftl (x - 3) (subX v) + 3 in
           let lumaY := Z.shiftl (y - 3) (subY v) + 3 in
           obind
             (for_ 0 (subY v + 1) (fun i luma =>
               for_ 0 (subX v + 1) (fun j luma =>
                 obind (rd2 GRAIN_HEIGHT GRAIN_WIDTH buf_y (lumaY + i) (lumaX + j)) (fun v =>
                 Ok (luma + v))) luma) 0) (fun luma =>
           let luma := round2 luma (subX v + subY v) in
           obind (rd_at (uv_coeffs d uv) k) (fun c =>
           ck (sum + luma * c)))
         else Ok sum) luma (chromaH v) (chromaW v) b0 (gaussian v s (chromaH v) (chromaW v) seed) C4 HC2 (proj1 C6) (proj2 WH) (proj1 WH)) as (b1 & E1 & H1).
  - intros y x sum Hy Hx Hs. unfold luma. destruct (Z.ltb_spec 0 (num_points (F.point_y s))) as [N|N]; [|f_equal; lia].
    specialize (HE N). subst g. cbv zeta.
    assert (LX : 3 <= Z.shiftl (x - 3) (subX v) + 3 /\ Z.shiftl (x - 3) (subX v) + 3 + subX v < 82).
    { rewrite shiftl_mul by (destruct HX as [->| ->]; lia). unfold chromaW in Hx.
      destruct HX as [E|E]; rewrite E in *; cbn [Z.eqb Pos.eqb] in Hx; [change (2 ^ 0) with 1|change (2 ^ 1) with 2]; lia. }
    assert (LY : 3 <= Z.shiftl (y - 3) (subY v) + 3 /\ Z.shiftl (y - 3) (subY v) + 3 + subY v < 73).
    { rewrite shiftl_mul by (destruct HY as [->| ->]; lia). unfold chromaH in Hy.
      destruct HY as [E|E]; rewrite E in *; cbn [Z.eqb Pos.eqb] in Hy; [change (2 ^ 0) with 1|change (2 ^ 1) with 2]; lia. }
    set (lx := Z.shiftl (x - 3) (subX v) + 3) in *. set (ly := Z.shiftl (y - 3) (subY v) + 3) in *.
    set (G := zfor 0 (subY v + 1) (fun i a => zfor 0 (subX v + 1) (fun j a => a + LumaGrain v s (ly + i) (lx + j)) a) 0).
    assert (SL : for_ 0 (subY v + 1) (fun i luma => for_ 0 (subX v + 1) (fun j luma =>
                 obind (rd2 GRAIN_HEIGHT GRAIN_WIDTH buf_y (ly + i) (lx + j)) (fun v => Ok (luma + v))) luma) 0 = Ok G /\
            -2048 * (subY v + 1) * (subX v + 1) <= G <= 2048 * (subY v + 1) * (subX v + 1)).
    { destruct (for_sim _ _ (fun i a b => a = b /\ -2048 * i * (subX v + 1) <= b <= 2048 * i * (subX v + 1))
        (fun i luma => for_ 0 (subX v + 1) (fun j luma =>
                 obind (rd2 GRAIN_HEIGHT GRAIN_WIDTH buf_y (ly + i) (lx + j)) (fun v => Ok (luma + v))) luma)
        (fun i a => zfor 0 (subX v + 1) (fun j a => a + LumaGrain v s (ly + i) (lx + j)) a) 0 (subY v + 1) 0 0) as (a & Ea & Ra).
      - destruct HY as [->| ->]; lia.
      - split; [reflexivity|lia].
      - intros i a b Hi (-> & Rb).
        destruct (for_sim _ _ (fun j a c => a = c /\ b - 2048 * j <= c <= b + 2048 * j)
          (fun j luma => obind (rd2 GRAIN_HEIGHT GRAIN_WIDTH buf_y (ly + i) (lx + j)) (fun v => Ok (luma + v)))
          (fun j a => a + LumaGrain v s (ly + i) (lx + j)) 0 (subX v + 1) b b) as (a & Ea & Ra & Rr).
        + destruct HX as [->| ->]; lia.
        + split; [reflexivity|lia].
        + intros j a c Hj (-> & Rc'). destruct (HG (ly + i) (lx + j) ltac:(lia) ltac:(lia)) as (Ev & Vb).
          rewrite (rd2_ok _ _ _ _ _ (LumaGrain v s (ly + i) (lx + j))); [|unfold GRAIN_HEIGHT; lia|unfold GRAIN_WIDTH; lia|exact Ev].
          cbn [obind]. apply (gr_abs v HB) in Vb. eexists. split; [reflexivity|]. split; [reflexivity|lia].
        + exists a. split; [exact Ea|]. split; [exact Ra|]. nia.
      - destruct Ra as (-> & Rb). split; [exact Ea|]. unfold G. lia. }
    destruct SL as (SL & GB). rewrite SL. cbn [obind].
    assert (HK : 0 <= num_pos s < num_pos s + 1) by (unfold num_pos; lia).
    destruct (HC' _ HK) as (Ek & Kb). rewrite Ek. cbn [obind].
    assert (LA : round2 G (subX v + subY v) = luma_average v s y x).
    { unfold luma_average. cbv zeta. rewrite <- (shiftl_mul (x - 3) (subX v)) by (destruct HX; lia). rewrite <- (shiftl_mul (y - 3) (subY v)) by (destruct HY; lia).
      fold lx ly. fold G. apply round2_ok. destruct HX, HY; lia. }
    assert (LB : -2048 <= luma_average v s y x <= 2048).
    { rewrite <- LA. rewrite round2_ok by (destruct HX, HY; lia). apply Round2_bound.
      - destruct HX, HY; lia.
      - destruct HX as [E2|E2], HY as [E3|E3]; rewrite E2, E3 in *; cbn [Z.add Pos.add]; [change (2 ^ 0) with 1|change (2 ^ 1) with 2|change (2 ^ 1) with 2|change (2 ^ 2) with 4]; lia. }
    rewrite LA. rewrite ck_ok; [reflexivity|]. unfold INT_MIN, INT_MAX. nia.
  - exact H0.
  - exists b1. split; [exact E1|]. unfold CbGrain, CrGrain, chroma_grain. unfold seed, luma, cs in H1.
    destruct (uv =? 0); exact H1.
Qed.
End T2.

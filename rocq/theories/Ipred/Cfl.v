(** Chroma from luma. *)
From Coq Require Import ZArith List Bool Lia.
From Verif Require Import Base.CInt Base.Lemmas Base.Loop Cdef.Block Mc.Kernel Mc.Blocks Ipred.Model Ipred.Kernels Ipred.Arrays.
From Verif Require Ipred.Spec.
Import ListNotations.
Open Scope Z_scope.
Local Open Scope outcome_scope.

Lemma sum1 : forall f, Spec.sum (1 + 0) f = f 0.
Proof. intros f. change (1 + 0) with (0 + 1). rewrite sum_S, sum_0 by lia. reflexivity. Qed.
Lemma sum2 : forall f, Spec.sum (1 + 1) f = f 0 + f 1.
Proof. intros f. rewrite sum_S by lia. change 1 with (0 + 1) at 1. rewrite sum_S, sum_0 by lia. reflexivity. Qed.
Lemma s16_cell : forall v, -32760 <= v <= 32760 -> s16 v = v.
Proof. intros v H. apply s16_id. unfold int16. lia. Qed.

Section Cfl.
  Variables (bd lw lh : Z).
  Hypothesis Hd : depth bd.
  Hypothesis Hs : size lw lh.
  Notation w := (2 ^ lw).
  Notation h := (2 ^ lh).
  Variables (luma : Z -> Z -> Z) (x y : Z) (ssx ssy : bool) (w_pad h_pad : Z).
  Hypothesis HPl : forall r c, pixel bd (luma r c).
  Hypothesis Hwp : 0 <= w_pad /\ 4 * w_pad < w.
  Hypothesis Hhp : 0 <= h_pad /\ 4 * h_pad < h.
  Notation sx := (Z.b2z ssx).
  Notation sy := (Z.b2z ssy).
  Notation wn := (w - 4 * w_pad).
  Notation hn := (h - 4 * h_pad).
  Variable ypx : Z -> Z -> outcome Z.
  Hypothesis Hypx : forall r c, 0 <= r < hn * 2 ^ sy -> 0 <= c < wn * 2 ^ sx -> ypx r c = Ok (luma (y * 2 ^ sy + r) (x * 2 ^ sx + c)).
  Notation Lu := (Spec.cfl_luma x y luma ssx ssy ((x + wn) * 2 ^ sx) ((y + hn) * 2 ^ sy)).
  Definition cell (i j : Z) : Z :=
    Spec.sum (1 + sy) (fun dy => Spec.sum (1 + sx) (fun dx => luma ((y + i) * 2 ^ sy + dy) ((x + j) * 2 ^ sx + dx))) * 2 ^ (3 - sx - sy).
  Lemma luma_eq : forall i j, Lu i j = cell (Z.min i (hn - 1)) (Z.min j (wn - 1)).
  Proof.
    intros i j. unfold Spec.cfl_luma, cell. cbv zeta. f_equal.
    assert (EY : Z.min (y * 2 ^ sy + i * 2 ^ sy) ((y + hn) * 2 ^ sy - 2 ^ sy) = (y + Z.min i (hn - 1)) * 2 ^ sy) by (destruct ssy; cbn [Z.b2z]; [change (2 ^ 1) with 2|change (2 ^ 0) with 1]; lia).
    assert (EX : Z.min (x * 2 ^ sx + j * 2 ^ sx) ((x + wn) * 2 ^ sx - 2 ^ sx) = (x + Z.min j (wn - 1)) * 2 ^ sx) by (destruct ssx; cbn [Z.b2z]; [change (2 ^ 1) with 2|change (2 ^ 0) with 1]; lia).
    rewrite EY, EX. reflexivity.
  Qed.
  Lemma cell_range : forall i j, 0 <= cell i j <= 32760.
  Proof.
    intros i j. unfold cell. assert (P : forall r c, 0 <= luma r c <= 4095) by (intros; apply (pixel_max bd _ Hd); apply HPl).
    destruct ssx, ssy; cbn [Z.b2z]; rewrite ?sum2, ?sum1; cbv beta; rewrite ?sum2, ?sum1;
      [change (2 ^ (3 - 1 - 1)) with 2|change (2 ^ (3 - 1 - 0)) with 4|change (2 ^ (3 - 0 - 1)) with 4|change (2 ^ (3 - 0 - 0)) with 8];
      repeat match goal with |- context [luma ?r ?c] => let v := fresh "v" in pose proof (P r c); set (v := luma r c) in *; clearbody v end; lia.
  Qed.

  (** ** The first loops *)
  Definition upto (r : Z) (a : plane) : Prop := (forall i j, 0 <= i < r -> 0 <= j < w -> a i j = Some (cell (Z.min i (hn - 1)) (Z.min j (wn - 1)))).
  Lemma fetch_ok : forall i j a, 0 <= i < hn -> 0 <= j < wn ->
    (let ypx := fun r x => ypx (Z.shiftl i (b2z ssy) + r) x in
     let! s := ypx 0 (Z.shiftl j (b2z ssx)) in
     let! s := if ssx then let! v := ypx 0 (j * 2 + 1) in Ok (s + v) else Ok s in
     let! s := if ssy then
         let! v := ypx 1 (Z.shiftl j (b2z ssx)) in
         let s := s + v in
         if ssx then let! v := ypx 1 (j * 2 + 1) in Ok (s + v) else Ok s
       else Ok s in
     ac_st w h i j (Z.shiftl s (1 + b2z (negb ssy) + b2z (negb ssx))) a) = Ok (set2 a i j (cell i j)).
  Proof.
    intros i j a Hi Hj. cbv zeta. pose proof (cell_range i j) as CR. unfold cell in *. rewrite !Z.shiftl_mul_pow2 by (destruct ssx, ssy; cbn; lia).
    assert (ST : forall v s k, 0 <= k -> v = s * 2 ^ k -> 0 <= v <= 32760 -> ac_st w h i j (Z.shiftl s k) a = Ok (set2 a i j v)).
    { intros v s k Hk -> R. unfold ac_st. rewrite Z.shiftl_mul_pow2 by exact Hk. rewrite s16_cell by lia. apply wr2_ok; lia. }
    destruct ssx, ssy; cbn [b2z Z.b2z negb] in *; rewrite ?sum2, ?sum1 in *; cbv beta in *; rewrite ?sum2, ?sum1 in *.
    - change (2 ^ 1) with 2 in *. rewrite !Hypx by lia. cbn [obind]. apply ST; [lia| |exact CR]. change (2 ^ (3 - 1 - 1)) with 2. change (2 ^ (1 + 0 + 0)) with 2.
      replace ((y + i) * 2 + 0) with (y * 2 + (i * 2 + 0)) by ring. replace ((y + i) * 2 + 1) with (y * 2 + (i * 2 + 1)) by ring.
      replace ((x + j) * 2 + 0) with (x * 2 + j * 2) by ring. replace ((x + j) * 2 + 1) with (x * 2 + (j * 2 + 1)) by ring. ring.
    - change (2 ^ 1) with 2 in *. change (2 ^ 0) with 1 in *. rewrite !Hypx by lia. cbn [obind]. apply ST; [lia| |exact CR]. change (2 ^ (3 - 1 - 0)) with 4. change (2 ^ (1 + 1 + 0)) with 4.
      replace ((y + i) * 1 + 0) with (y * 1 + (i * 1 + 0)) by ring.
      replace ((x + j) * 2 + 0) with (x * 2 + j * 2) by ring. replace ((x + j) * 2 + 1) with (x * 2 + (j * 2 + 1)) by ring. ring.
    - change (2 ^ 1) with 2 in *. change (2 ^ 0) with 1 in *. rewrite !Hypx by lia. cbn [obind]. apply ST; [lia| |exact CR]. change (2 ^ (3 - 0 - 1)) with 4. change (2 ^ (1 + 0 + 1)) with 4.
      replace ((y + i) * 2 + 0) with (y * 2 + (i * 2 + 0)) by ring. replace ((y + i) * 2 + 1) with (y * 2 + (i * 2 + 1)) by ring.
      replace ((x + j) * 1 + 0) with (x * 1 + j * 1) by ring. ring.
    - change (2 ^ 0) with 1 in *. rewrite !Hypx by lia. cbn [obind]. apply ST; [lia| |exact CR]. change (2 ^ (3 - 0 - 0)) with 8. change (2 ^ (1 + 1 + 1)) with 8.
      replace ((y + i) * 1 + 0) with (y * 1 + (i * 1 + 0)) by ring. replace ((x + j) * 1 + 0) with (x * 1 + j * 1) by ring. ring.
  Qed.

  Definition avg : Z := Spec.Round2 (Spec.sum h (fun i => Spec.sum w (fun j => Lu i j))) (lw + lh).
  Lemma ac_ok : exists a, cfl_ac w h ssx ssy w_pad h_pad ypx = Ok a /\ (forall i j, 0 <= i < h -> 0 <= j < w -> a i j = Some (Lu i j - avg)) /\
    0 <= avg <= 32760.
  Proof.
    pose proof (w_range lw lh Hs) as RW. pose proof (h_range lw lh Hs) as RH. unfold cfl_ac.
    replace ((0 <=? w_pad) && (w_pad * 4 <? w) && (0 <=? h_pad) && (h_pad * 4 <? h)) with true
      by (symmetry; repeat (apply andb_true_intro; split); try (apply Z.leb_le; lia); apply Z.ltb_lt; lia).
    cbv zeta.
    (* the rows that are there *)
    match goal with |- context [for_ 0 hn ?F plane0] => destruct (for_inv _ (fun i (a : plane) => upto i a) F 0 hn plane0 ltac:(lia)) as (a1 & E1 & U1) end.
    { intros i j Hi. lia. }
    { intros i a Hi U.
      match goal with |- context [for_ 0 wn ?F a] =>
        destruct (for_inv _ (fun k (b : plane) => (forall j, 0 <= j < k -> b i j = Some (cell i j)) /\ (forall r c, r <> i -> b r c = a r c)) F 0 wn a ltac:(lia)) as (b & EB & B1 & B2) end.
      - split; [intros; lia|reflexivity].
      - intros k b Hk (Q1 & Q2). pose proof (fetch_ok i k b Hi Hk) as FO. cbv zeta in FO. rewrite FO. eexists. split; [reflexivity|]. split.
        + intros j Hj. destruct (Z.eq_dec j k) as [->|]; [apply set2_same|]. rewrite set2_other by lia. apply Q1. lia.
        + intros r c N. rewrite set2_other by lia. apply Q2. exact N.
      - rewrite EB. cbn [obind].
        match goal with |- context [for_ wn w ?F b] =>
          destruct (for_inv _ (fun k (g : plane) => (forall j, 0 <= j < k -> g i j = Some (cell i (Z.min j (wn - 1)))) /\ (forall r c, r <> i -> g r c = a r c)) F wn w b ltac:(lia)) as (g & EG & G1 & G2) end.
        + split; [intros j Hj; rewrite Z.min_l by lia; apply B1; lia|exact B2].
        + intros k g Hk (Q1 & Q2). unfold drd. rewrite (rd2_ok h w g i (k - 1) (cell i (Z.min (k - 1) (wn - 1)))) by (lia || (apply Q1; lia)). cbn [obind]. rewrite Z.min_r by lia.
          unfold ac_st. pose proof (cell_range i (wn - 1)). rewrite s16_cell by lia. rewrite wr2_ok by lia. eexists. split; [reflexivity|]. split.
          * intros j Hj. destruct (Z.eq_dec j k) as [->|]; [rewrite set2_same; rewrite Z.min_r by lia; reflexivity|]. rewrite set2_other by lia. apply Q1. lia.
          * intros r c N. rewrite set2_other by lia. apply Q2. exact N.
        + exists g. split; [exact EG|]. intros r j Hr Hj. destruct (Z.eq_dec r i) as [->|ne]; [rewrite G1 by exact Hj; rewrite (Z.min_l i) by lia; reflexivity|]. rewrite G2 by exact ne. apply U; lia. }
    rewrite E1. cbn [obind]. clear E1.
    (* the rows that are not *)
    match goal with |- context [for_ hn h ?F a1] => destruct (for_inv _ (fun i (a : plane) => upto i a) F hn h a1 ltac:(lia) U1) as (a2 & E2 & U2) end.
    { intros i a Hi U.
      match goal with |- context [for_ 0 w ?F a] =>
        destruct (for_inv _ (fun k (b : plane) => (forall j, 0 <= j < k -> b i j = Some (cell (hn - 1) (Z.min j (wn - 1)))) /\ (forall r c, r <> i -> b r c = a r c)) F 0 w a ltac:(lia)) as (b & EB & B1 & B2) end.
      - split; [intros; lia|reflexivity].
      - intros k b Hk (Q1 & Q2). unfold drd. rewrite (rd2_ok h w b (i - 1) k (cell (hn - 1) (Z.min k (wn - 1)))); [|lia|lia|].
        + cbn [obind]. unfold ac_st. pose proof (cell_range (hn - 1) (Z.min k (wn - 1))). rewrite s16_cell by lia. rewrite wr2_ok by lia. eexists. split; [reflexivity|]. split.
          * intros j Hj. destruct (Z.eq_dec j k) as [->|]; [apply set2_same|]. rewrite set2_other by lia. apply Q1. lia.
          * intros r c N. rewrite set2_other by lia. apply Q2. exact N.
        + rewrite Q2 by lia. rewrite U by lia. rewrite (Z.min_r (i - 1)) by lia. reflexivity.
      - exists b. split; [exact EB|]. intros r j Hr Hj. destruct (Z.eq_dec r i) as [->|ne]; [rewrite B1 by exact Hj; rewrite (Z.min_r i) by lia; reflexivity|]. rewrite B2 by exact ne. apply U; lia. }
    rewrite E2. cbn [obind]. clear E2.
    assert (V2 : forall i j, 0 <= i < h -> 0 <= j < w -> a2 i j = Some (Lu i j)) by (intros i j Hi Hj; rewrite luma_eq; apply U2; assumption).
    assert (LR : forall i j, 0 <= Lu i j <= 32760) by (intros; rewrite luma_eq; apply cell_range).
    rewrite (ctz_side lw) by apply Hs. rewrite (ctz_side lh) by apply Hs. cbn [obind].
    (* the sum *)
    assert (PP : 2 ^ (lw + lh) = w * h) by (destruct Hs as (S1 & S2 & _); unfold side in *; apply Z.pow_add_r; lia).
    assert (LL : 4 <= lw + lh) by (destruct Hs as (S1 & S2 & _); unfold side in *; lia).
    assert (HF : Z.shiftr (Z.shiftl 1 (lw + lh)) 1 = 2 ^ (lw + lh - 1)).
    { rewrite Z.shiftl_1_l. rewrite Z.shiftr_div_pow2 by lia. change (2 ^ 1) with 2. replace (2 ^ (lw + lh)) with (2 ^ (lw + lh - 1) * 2); [apply Z.div_mul; lia|].
      rewrite Z.mul_comm, <- Z.pow_succ_r by lia. f_equal. lia. }
    rewrite HF. set (half := 2 ^ (lw + lh - 1)). assert (HR : 0 <= half <= 4096).
    { unfold half. split; [apply Z.pow_nonneg; lia|]. change 4096 with (2 ^ 12). apply Z.pow_le_mono_r; [lia|]. destruct Hs as (S1 & S2 & _). unfold side in *. lia. }
    assert (ROW : forall i, 0 <= i < h -> 0 <= Spec.sum w (fun j => Lu i j) <= w * 32760) by (intros i Hi; apply sum_range; [lia|]; intros; apply LR).
    assert (TOT : forall k, 0 <= k <= h -> 0 <= Spec.sum k (fun i => Spec.sum w (fun j => Lu i j)) <= k * (w * 32760)) by (intros k Hk; apply sum_range; [lia|]; intros i Hi; apply ROW; lia).
    match goal with |- context [for_ 0 h ?F half] =>
      destruct (for_inv _ (fun k (s : Z) => s = half + Spec.sum k (fun i => Spec.sum w (fun j => Lu i j))) F 0 h half ltac:(lia)) as (s1 & E3 & S3) end.
    { rewrite sum_0. lia. }
    { intros i s Hi ->. pose proof (TOT i ltac:(lia)) as TI. set (base := half + Spec.sum i (fun i => Spec.sum w (fun j => Lu i j))) in *.
      match goal with |- context [for_ 0 w ?F base] =>
        destruct (for_inv _ (fun k (s : Z) => s = base + Spec.sum k (fun j => Lu i j)) F 0 w base ltac:(lia)) as (s & E & S) end.
      - rewrite sum_0. lia.
      - intros j s Hj ->. unfold drd. rewrite (rd2_ok h w a2 i j (Lu i j) Hi Hj (V2 i j Hi Hj)). cbn [obind]. pose proof (LR i j).
        assert (SR : 0 <= Spec.sum j (fun j => Lu i j) <= j * 32760) by (apply sum_range; [lia|]; intros; apply LR).
        assert (TB : i * (w * 32760) <= 64 * (64 * 32760)) by (clear - Hi RW RH; apply Z.mul_le_mono_nonneg; lia).
        rewrite ck_ok by (clear - TB TI SR H HR Hj RW; unfold INT_MIN, INT_MAX, base; lia). eexists. split; [reflexivity|]. rewrite sum_S by lia. ring.
      - exists s. split; [exact E|]. rewrite S. rewrite sum_S by lia. unfold base. ring. }
    rewrite E3. cbn [obind]. clear E3. rewrite S3.
    assert (EAV : Z.shiftr (half + Spec.sum h (fun i => Spec.sum w (fun j => Lu i j))) (lw + lh) = avg).
    { unfold avg. rewrite <- round_eq by lia. fold half. f_equal. ring. }
    rewrite EAV.
    assert (AR : 0 <= avg <= 32760).
    { unfold avg. pose proof (TOT h ltac:(lia)) as TH. unfold Spec.Round2. destruct (Z.eqb_spec (lw + lh) 0); [lia|]. fold half. rewrite PP.
      assert (HH : 2 * half = w * h). { rewrite <- PP. unfold half. rewrite <- Z.pow_succ_r by lia. f_equal. lia. }
      clear - TH HH HR RW RH. set (S := Spec.sum h _) in *. clearbody S. assert (0 < w * h) by nia.
      split; [apply Z.div_pos; lia|]. apply Z.lt_succ_r. apply Z.div_lt_upper_bound; [lia|]. replace (h * (w * 32760)) with (w * h * 32760) in TH by ring. lia. }
    (* the subtraction *)
    match goal with |- context [for_ 0 h (fun y a => for_ 0 w (@?G y) a) a2] =>
      destruct (map_rect h w (fun i j a => G i j a) (fun i j => Lu i j - avg) 0 0 a2 ltac:(lia) ltac:(lia)) as (a3 & E4 & O1 & _) end.
    { intros i j e Hi Hj EQ. rewrite !Z.add_0_l in *. unfold drd. rewrite (rd2_ok h w e i j (Lu i j) Hi Hj) by (rewrite EQ; apply V2; assumption). cbn [obind].
      unfold ac_st. pose proof (LR i j). rewrite s16_cell by lia. apply wr2_ok; assumption. }
    exists a3. split; [exact E4|]. split; [|exact AR]. intros i j Hi Hj. apply (O1 i j Hi Hj).
  Qed.

  Lemma cfl_block_ok : forall dc ac alpha d, pixel bd dc -> -16 <= alpha <= 16 -> 0 <= avg <= 32760 -> (forall i j, 0 <= i < h -> 0 <= j < w -> ac i j = Ok (Lu i j - avg)) ->
    exists d', cfl_block bd w h dc ac alpha d = Ok d' /\
      filled d d' w h 0 0 (fun i j => Spec.Clip1 bd (dc + Spec.Round2Signed (alpha * (Lu i j - avg)) 6)).
  Proof.
    intros dc ac alpha d Pdc Ha Hav Hac. pose proof (w_range lw lh Hs) as RW. pose proof (h_range lw lh Hs) as RH. apply (block_ok bd lw lh Hd Hs (fun _ => Undef) (fun _ => 0) (fun _ => 0)). intros i j Hi Hj.
    rewrite Hac by assumption. cbn [obind]. pose proof (cell_range (Z.min i (hn - 1)) (Z.min j (wn - 1))) as CR. rewrite <- luma_eq in CR.
    set (v := alpha * (Lu i j - avg)). assert (VR : -600000 <= v <= 600000) by (unfold v; nia). rewrite ck_ok by (unfold INT_MIN, INT_MAX; lia). cbn [obind].
    split; [|apply clip_pixel_ok; exact Hd]. rewrite clip_pixel_eq. do 3 f_equal. unfold apply_sign, Spec.Round2Signed. change 32 with (2 ^ (6 - 1)). rewrite round_eq by lia.
    destruct (Z.ltb_spec v 0), (Z.leb_spec 0 v); try lia; [rewrite Z.abs_neq by lia|rewrite Z.abs_eq by lia]; reflexivity.
  Qed.
End Cfl.

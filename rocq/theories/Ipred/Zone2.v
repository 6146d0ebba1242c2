(** Zone 2 of directional prediction. *)
From Coq Require Import ZArith List Bool Lia.
From Verif Require Import Base.CInt Base.Lemmas Base.Loop Cdef.Block Mc.Blocks Ipred.Model Ipred.Kernels Ipred.Arrays Ipred.Dir Ipred.Zones.
From Verif Require Ipred.Spec.
Import ListNotations.
Open Scope Z_scope.
Local Open Scope outcome_scope.

(** * One edge *)
Section Two.
  Variables (bd n mx : Z) (e : Z -> Z) (s : Z) (u en have : bool).
  Hypothesis Hd : depth bd.
  Hypothesis Hn : 4 <= n <= 64.
  Hypothesis Hmx : 1 <= mx.
  Hypothesis HP : forall i, pixel bd (e i).
  Hypothesis tail : forall i, 2 * n - 1 <= i -> e i = e (2 * n - 1).
  Hypothesis edge : mx < n -> forall i, mx - 1 <= i -> e i = e (mx - 1).
  Hypothesis flat : have = false -> (forall i, 0 <= i -> e i = e 0) /\ (e (-1) = e 0 \/ e (-1) = e 0 + 1 \/ e (-1) = e 0 - 1).
  Hypothesis Hs : 0 <= s <= 3.
  Hypothesis Hu : u = true -> s = 0.
  Definition SB (p : Z) : Z :=
    let f := if en && have then Spec.edge_filter (Z.min n mx + 0 + 1) s e else e in
    if en && u then Spec.upsample bd n f p else f p.
  Lemma SB_up : en && u = true -> forall p, -2 <= p <= 2 * n - 2 -> upv bd e (-1) n p = SB p.
  Proof.
    intros E p Hp. unfold SB. cbv zeta. rewrite E. apply andb_prop in E. destruct E as (E1 & E2). rewrite spec_upsample by lia.
    assert (G : forall k, (if en && have then Spec.edge_filter (Z.min n mx + 0 + 1) s e else e) k = e k).
    { intros k. destruct (en && have); [|reflexivity]. unfold Spec.edge_filter. rewrite (Hu E2). reflexivity. }
    unfold upv. destruct (Z.odd p); [|symmetry; apply G]. unfold ukern. rewrite !G. reflexivity.
  Qed.
  Lemma SB_flt : en = true -> u = false -> s <> 0 -> forall p, 0 <= p < n -> (if p <? mx then fkern s (fun j => e (iclip (p - 2 + j) (-1) (n - 1))) else e p) = SB p.
  Proof.
    intros E1 E2 E3 p Hp. unfold SB. rewrite E1, E2. cbn [andb]. destruct have eqn:EH.
    - apply (flt2_eq n mx e); (assumption || lia).
    - cbv zeta. destruct (flat eq_refl) as (F1 & F2). destruct (p <? mx); [|reflexivity]. rewrite (fkern_flat s e p (n - 1)); try assumption; try lia; rewrite ?F1 by lia; reflexivity.
  Qed.
  Lemma SB_none : en && u = false -> (if en then s else 0) = 0 -> forall p, SB p = e p.
  Proof. intros E1 E2 p. unfold SB. rewrite E1. cbv zeta. destruct en; [|reflexivity]. rewrite E2. destruct have; reflexivity. Qed.
  Lemma SB_corner : SB (- 2 ^ b2z (en && u)) = e (-1).
  Proof.
    destruct (en && u) eqn:E; cbn [b2z].
    - change (- 2 ^ 1) with (-2). rewrite <- SB_up by (exact E || lia). unfold upv. cbn [Z.odd]. change (-2 / 2) with (-1). unfold iclip. cbn [Z.ltb Z.compare].
      change (-1 <? -1) with false. cbn iota. destruct (Z.ltb_spec (n - 1) (-1)); [lia|reflexivity].
    - change (- 2 ^ 0) with (-1). unfold SB. rewrite E. cbv zeta. destruct (en && have); [|reflexivity]. unfold Spec.edge_filter. destruct (s =? 0); reflexivity.
  Qed.
  Lemma SB_pixel : forall p, (if en && u then -2 <= p <= 2 * n - 2 else -1 <= p) -> pixel bd (SB p).
  Proof.
    intros p Hp. destruct (en && u) eqn:E.
    - rewrite <- SB_up by assumption. unfold upv. destruct (Z.odd p); [apply clip_pixel_ok; exact Hd|apply HP].
    - unfold SB. rewrite E. cbv zeta. destruct (en && have); [|apply HP]. destruct (Z.eq_dec s 0) as [Z0|N0].
      + rewrite Z0. apply HP.
      + rewrite spec_filter by lia. destruct ((0 <=? p) && (p <? Z.min n mx + 0 + 1 - 1)); [|apply HP]. apply fkern_pixel; [lia|]. intros; apply HP.
  Qed.
End Two.

Lemma copy_edge_ok : forall N o len inp (g : Z -> Z) out, 0 <= len -> 0 <= o -> o + len <= N -> (forall i, 0 <= i < len -> inp i = Ok (g i)) ->
  exists out', copy_edge N o len inp out = Ok out' /\ (forall i, 0 <= i < len -> out' (o + i) = Some (g i)) /\ (forall k, ~ (o <= k < o + len) -> out' k = out k).
Proof.
  intros N o len inp g out H1 H2 H3 HI. unfold copy_edge.
  destruct (wr_range N o 0 len (fun i out => obind (inp i) (fun v => wr1 N out (o + i) v)) g out H1 ltac:(lia) H3) as (b & E & A1 & A2).
  { intros i a Hi. rewrite HI by exact Hi. reflexivity. }
  exists b. split; [exact E|]. split; [exact A1|]. intros k Hk. apply A2. lia.
Qed.
Lemma z2_geom : forall dx dy i j, 0 < dx -> 0 < dy -> dx * dy <= 4096 -> 0 <= i -> 0 <= j -> 64 * j + 64 - (i + 1) * dx < 0 -> -64 <= i * 64 - (j + 1) * dy.
Proof.
  intros dx dy i j H1 H2 H3 H4 H5 H6. assert (A : (j + 1) * 64 * dy <= (i + 1) * (dx * dy)) by nia. assert (B : (i + 1) * (dx * dy) <= (i + 1) * 4096) by nia. nia.
Qed.

Section Zone2.
  Variables (bd lw lh : Z).
  Hypothesis Hd : depth bd.
  Hypothesis Hsz : size lw lh.
  Notation w := (2 ^ lw).
  Notation h := (2 ^ lh).
  Variable tl : Z -> outcome Z.
  Variables (mx my : Z) (sm en : bool) (a : Z).
  Hypothesis Ha : valid_angle a.
  Hypothesis Hz : 90 < a < 180.
  Variables (A L : Z -> Z).
  Variables (haveA haveL : bool).
  Hypothesis HPA : forall i, pixel bd (A i).
  Hypothesis HPL : forall i, pixel bd (L i).
  Hypothesis Hmx : 1 <= mx.
  Hypothesis Hmy : 1 <= my.
  Hypothesis tailA : forall i, 2 * w - 1 <= i -> A i = A (2 * w - 1).
  Hypothesis edgeA : mx < w -> forall i, mx - 1 <= i -> A i = A (mx - 1).
  Hypothesis flatA : haveA = false -> (forall i, 0 <= i -> A i = A 0) /\ (A (-1) = A 0 \/ A (-1) = A 0 + 1 \/ A (-1) = A 0 - 1).
  Hypothesis tailL : forall i, 2 * h - 1 <= i -> L i = L (2 * h - 1).
  Hypothesis edgeL : my < h -> forall i, my - 1 <= i -> L i = L (my - 1).
  Hypothesis flatL : haveL = false -> (forall i, 0 <= i -> L i = L 0) /\ (L (-1) = L 0 \/ L (-1) = L 0 + 1 \/ L (-1) = L 0 - 1).
  Hypothesis HinA : forall k, -1 <= k < w -> tl (1 + k) = Ok (A k).
  Hypothesis HinL : forall k, -1 <= k < h -> tl (-(1 + k)) = Ok (L k).
  Notation sA := (Spec.strength w h sm (a - 90)).
  Notation uA := (Spec.useUpsample w h sm (a - 90)).
  Notation sL := (Spec.strength w h sm (a - 180)).
  Notation uL := (Spec.useUpsample w h sm (a - 180)).
  Notation EA := (SB bd w mx A sA uA en haveA).
  Notation EL := (SB bd h my L sL uL en haveL).
  Notation ua := (b2z (en && uA)).
  Notation ul := (b2z (en && uL)).

  Lemma above_ok : exists b,
    (if en && uA then upsample_edge bd 129 64 (w + 1) tl 0 (w + 1) arr0
     else if (if en then sA else 0) =? 0 then copy_edge 129 65 w (fun i => tl (1 + i)) arr0
     else filter_edge bd 129 65 w 0 mx (fun i => tl (1 + i)) (-1) w (if en then sA else 0) arr0) = Ok b /\
    forall k, 0 < k <= w * 2 ^ ua -> b (64 + k) = Some (EA (k - 2 ^ ua)).
  Proof.
    pose proof (w_range lw lh Hsz) as RW. pose proof (h_range lw lh Hsz) as RH.
    pose proof (strength_range w h sm (a - 90)) as RS. assert (SU : uA = true -> sA = 0 /\ w <= 16).
    { intros E. split; [apply upsample_no_filter; exact E|]. pose proof (upsample_small w h sm (a - 90) E). lia. }
    set (ss := sA) in *. set (uu := uA) in *. clearbody ss uu.
    assert (SU0 : uu = true -> ss = 0) by (intros E; apply SU; exact E).
    destruct (en && uu) eqn:EU; cbn [b2z].
    - assert (E0 := EU). apply andb_prop in EU. destruct EU as (E1 & E2). destruct (SU E2) as (S0 & S1). change (2 ^ 1) with 2.
      assert (IN : forall k, 0 <= k < w + 1 -> tl k = Ok (A (k - 1)) /\ pixel bd (A (k - 1))).
      { intros k Hk. split; [|apply HPA]. rewrite <- HinA by lia. f_equal. lia. }
      destruct (upsample_edge_ok bd Hd tl (fun k => A (k - 1)) 0 (w + 1) ltac:(lia) IN 129 64 (w + 1) arr0 ltac:(lia) ltac:(lia) ltac:(lia)) as (b & E & O1 & _).
      exists b. split; [exact E|]. intros k Hk. rewrite O1 by lia. f_equal. replace k with (k - 2 + 2) at 1 by lia.
      rewrite (upv_shift bd (fun k => A (k - 1)) A 0 (w + 1) w).
      + apply SB_up; (assumption || lia).
      + intros i. rewrite shift_clip. do 2 f_equal. lia.
    - change (2 ^ 0) with 1. destruct (Z.eqb_spec (if en then ss else 0) 0) as [S0|S0].
      + destruct (copy_edge_ok 129 65 w (fun i => tl (1 + i)) A arr0 ltac:(lia) ltac:(lia) ltac:(lia) ltac:(intros; apply HinA; lia)) as (b & E & O1 & _).
        exists b. split; [exact E|]. intros k Hk. replace (64 + k) with (65 + (k - 1)) by lia. rewrite O1 by lia. f_equal. symmetry. apply SB_none; assumption.
      + destruct en eqn:EN; [|congruence]. cbn [andb] in EU.
        assert (IN : forall k, -1 <= k < w -> tl (1 + k) = Ok (A k) /\ pixel bd (A k)) by (intros k Hk; split; [apply HinA; exact Hk|apply HPA]).
        destruct (filter_edge_ok bd Hd (fun i => tl (1 + i)) A (-1) w ltac:(lia) IN 129 65 w 0 mx ss arr0 ltac:(lia) ltac:(lia) ltac:(lia) ltac:(lia)) as (b & E & O1 & _).
        exists b. split; [exact E|]. intros k Hk. replace (64 + k) with (65 + (k - 1)) by lia. rewrite O1 by lia. f_equal.
        rewrite <- SB_flt by (assumption || reflexivity || lia). destruct (Z.leb_spec 0 (k - 1)); [|lia]. cbn [andb]. destruct (k - 1 <? mx); [reflexivity|].
        f_equal. unfold iclip. destruct (Z.ltb_spec (k - 1) (-1)); [lia|]. destruct (Z.ltb_spec (w - 1) (k - 1)); lia.
  Qed.
  Lemma left_ok : forall b0, exists b,
    (if en && uL then upsample_edge bd 129 (64 - h * 2) (h + 1) (fun i => tl (- h + i)) 0 (h + 1) b0
     else if (if en then sL else 0) =? 0 then copy_edge 129 (64 - h) h (fun i => tl (- h + i)) b0
     else filter_edge bd 129 (64 - h) h (h - my) h (fun i => tl (- h + i)) 0 (h + 1) (if en then sL else 0) b0) = Ok b /\
    (forall k, 0 < k <= h * 2 ^ ul -> b (64 - k) = Some (EL (k - 2 ^ ul))) /\ (forall k, 64 < k -> b k = b0 k).
  Proof.
    intros b0. pose proof (w_range lw lh Hsz) as RW. pose proof (h_range lw lh Hsz) as RH.
    pose proof (strength_range w h sm (a - 180)) as RS. assert (SU : uL = true -> sL = 0 /\ h <= 16).
    { intros E. split; [apply upsample_no_filter; exact E|]. pose proof (upsample_small w h sm (a - 180) E). lia. }
    set (ss := sL) in *. set (uu := uL) in *. clearbody ss uu.
    assert (SU0 : uu = true -> ss = 0) by (intros E; apply SU; exact E).
    set (g := fun i => L (h - 1 - i)).
    assert (IN : forall k, 0 <= k < h + 1 -> tl (- h + k) = Ok (g k) /\ pixel bd (g k)).
    { intros k Hk. split; [|apply HPL]. unfold g. rewrite <- HinL by lia. f_equal. lia. }
    assert (HG : forall k, g (iclip k 0 (h + 1 - 1)) = L (iclip (h - 1 - k) (-1) (h - 1))).
    { intros k. unfold g. rewrite rev_clip by lia. do 2 f_equal; lia. }
    destruct (en && uu) eqn:EU; cbn [b2z].
    - assert (E0 := EU). apply andb_prop in EU. destruct EU as (E1 & E2). destruct (SU E2) as (S0 & S1). change (2 ^ 1) with 2.
      destruct (upsample_edge_ok bd Hd (fun i => tl (- h + i)) g 0 (h + 1) ltac:(lia) IN 129 (64 - h * 2) (h + 1) b0 ltac:(lia) ltac:(lia) ltac:(lia)) as (b & E & O1 & O2).
      exists b. split; [exact E|]. split; [|intros k Hk; apply O2; lia]. intros k Hk. replace (64 - k) with (64 - h * 2 + (2 * h - 2 - (k - 2))) by lia. rewrite O1 by lia. f_equal.
      rewrite (upv_rev bd g L h 0 (h + 1) h (k - 2) HG). apply SB_up; (assumption || lia).
    - change (2 ^ 0) with 1. destruct (Z.eqb_spec (if en then ss else 0) 0) as [S0|S0].
      + destruct (copy_edge_ok 129 (64 - h) h (fun i => tl (- h + i)) g b0 ltac:(lia) ltac:(lia) ltac:(lia) ltac:(intros i Hi; apply IN; lia)) as (b & E & O1 & O2).
        exists b. split; [exact E|]. split; [|intros k Hk; apply O2; lia]. intros k Hk. replace (64 - k) with (64 - h + (h - k)) by lia. rewrite O1 by lia. f_equal.
        rewrite SB_none by assumption. unfold g. f_equal. lia.
      + destruct en eqn:EN; [|congruence]. cbn [andb] in EU.
        destruct (filter_edge_ok bd Hd (fun i => tl (- h + i)) g 0 (h + 1) ltac:(lia) IN 129 (64 - h) h (h - my) h ss b0 ltac:(lia) ltac:(lia) ltac:(lia) ltac:(lia)) as (b & E & O1 & O2).
        exists b. split; [exact E|]. split; [|intros k Hk; apply O2; lia]. intros k Hk. replace (64 - k) with (64 - h + (h - 1 - (k - 1))) by lia. rewrite O1 by lia. f_equal.
        rewrite <- SB_flt by (assumption || reflexivity || lia). rewrite (fkern_back ss g L h 0 (h + 1) h (k - 1) ltac:(lia) HG).
        destruct (Z.ltb_spec (h - 1 - (k - 1)) h); [|lia]. rewrite andb_true_r.
        destruct (Z.leb_spec (h - my) (h - 1 - (k - 1))), (Z.ltb_spec (k - 1) my); try lia; try reflexivity.
        rewrite HG. f_equal. unfold iclip. destruct (Z.ltb_spec (h - 1 - (h - 1 - (k - 1))) (-1)); [lia|]. destruct (Z.ltb_spec (h - 1) (h - 1 - (h - 1 - (k - 1)))); lia.
  Qed.
  Lemma z2_edge_ok : A (-1) = L (-1) -> exists b, z2_edge bd w h tl (flags a sm en) mx my = Ok (b, Spec.Dr_Intra_Derivative (180 - a) * 2 ^ ua, Spec.Dr_Intra_Derivative (a - 90) * 2 ^ ul, ua, ul) /\
    (forall k, 0 <= k <= w * 2 ^ ua -> rd1 129 b (64 + k) = Ok (EA (k - 2 ^ ua)) /\ pixel bd (EA (k - 2 ^ ua))) /\
    (forall k, 0 <= k <= h * 2 ^ ul -> rd1 129 b (64 - k) = Ok (EL (k - 2 ^ ul)) /\ pixel bd (EL (k - 2 ^ ul))).
  Proof.
    intros HC. pose proof (w_range lw lh Hsz) as RW. pose proof (h_range lw lh Hsz) as RH. destruct (flags_ok a sm en Ha) as (F1 & F2 & F3).
    destruct (angle_z2 a Ha Hz) as ((D1 & D2) & (D3 & D4) & _). unfold z2_edge. rewrite F1, F2, F3. cbv zeta.
    destruct (Z.ltb_spec 90 a); [|lia]. destruct (Z.ltb_spec a 180); [|lia]. cbn [andb]. rewrite D1. cbn [obind]. rewrite D3. cbn [obind].
    assert (EU : get_upsample (w + h) (a - 90) sm = uA) by (apply upsample_sel_eq; lia).
    assert (ES : get_filter_strength (w + h) (a - 90) sm = sA) by (apply strength_eq; lia).
    assert (EU' : get_upsample (w + h) (180 - a) sm = uL). { rewrite upsample_sel_eq by lia. rewrite <- upsample_opp. f_equal. lia. }
    assert (ES' : get_filter_strength (w + h) (180 - a) sm = sL). { rewrite strength_eq by lia. rewrite <- strength_opp. f_equal. lia. }
    rewrite EU, ES, EU', ES'. clear EU ES EU' ES'.
    destruct above_ok as (b1 & E1 & O1). rewrite E1. cbn [obind]. destruct (left_ok b1) as (b2 & E2 & O2 & O3). rewrite E2. cbn [obind].
    pose proof (HinA (-1) ltac:(lia)) as T0. change (1 + -1) with 0 in T0. rewrite T0. cbn [obind]. rewrite wr1_ok by lia. cbn [obind].
    exists (set1 b2 64 (A (-1))).
    assert (U1 : w * 2 ^ ua <= 64). { destruct (en && uA) eqn:E; cbn [b2z]; [apply andb_prop in E; pose proof (upsample_small w h sm (a - 90) (proj2 E)); change (2 ^ 1) with 2|change (2 ^ 0) with 1]; lia. }
    assert (U2 : h * 2 ^ ul <= 64). { destruct (en && uL) eqn:E; cbn [b2z]; [apply andb_prop in E; pose proof (upsample_small w h sm (a - 180) (proj2 E)); change (2 ^ 1) with 2|change (2 ^ 0) with 1]; lia. }
    pose proof (strength_range w h sm (a - 90)) as RS. pose proof (strength_range w h sm (a - 180)) as RS'.
    split; [|split].
    - do 2 f_equal. f_equal. f_equal; [f_equal|]; match goal with |- context [en && ?b] => destruct (en && b) end; cbn [b2z];
        [rewrite Z.shiftl_mul_pow2 by lia; reflexivity|change (2 ^ 0) with 1; lia|rewrite Z.shiftl_mul_pow2 by lia; reflexivity|change (2 ^ 0) with 1; lia].
    - intros k Hk. split.
      + apply rd1_ok; [lia|]. unfold set1. destruct (Z.eqb_spec (64 + k) 64) as [e|ne].
        * replace (k - 2 ^ ua) with (- 2 ^ ua) by lia. rewrite SB_corner; try assumption; [reflexivity|apply upsample_no_filter].
        * rewrite O3 by lia. apply O1. lia.
      + apply SB_pixel; try assumption; [apply upsample_no_filter|]. destruct (en && uA); cbn [b2z] in *; [change (2 ^ 1) with 2 in *|change (2 ^ 0) with 1 in *]; lia.
    - intros k Hk. split.
      + apply rd1_ok; [lia|]. unfold set1. destruct (Z.eqb_spec (64 - k) 64) as [e|ne].
        * replace (k - 2 ^ ul) with (- 2 ^ ul) by lia. rewrite SB_corner; try assumption; [rewrite HC; reflexivity|apply upsample_no_filter].
        * apply O2. lia.
      + apply SB_pixel; try assumption; [apply upsample_no_filter|]. destruct (en && uL); cbn [b2z] in *; [change (2 ^ 1) with 2 in *|change (2 ^ 0) with 1 in *]; lia.
  Qed.
End Zone2.

(** * The loops *)
Section Loops2.
  Variables (bd lw lh : Z).
  Hypothesis Hd : depth bd.
  Hypothesis Hsz : size lw lh.
  Notation w := (2 ^ lw).
  Notation h := (2 ^ lh).
  Variables (EA EL : Z -> Z) (ua ul dx dy : Z) (b : arr).
  Hypothesis Hua : ua = 0 \/ ua = 1.
  Hypothesis Hul : ul = 0 \/ ul = 1.
  Hypothesis Hdx : 0 < dx <= 1023.
  Hypothesis Hdy : 0 < dy <= 1023.
  Hypothesis Hxy : dx * dy <= 4096.
  Hypothesis HA : forall k, 0 <= k <= w * 2 ^ ua -> rd1 129 b (64 + k) = Ok (EA (k - 2 ^ ua)) /\ pixel bd (EA (k - 2 ^ ua)).
  Hypothesis HL : forall k, 0 <= k <= h * 2 ^ ul -> rd1 129 b (64 - k) = Ok (EL (k - 2 ^ ul)) /\ pixel bd (EL (k - 2 ^ ul)).
  Definition z2_of (i j : Z) : Z :=
    let idx := j * 64 - (i + 1) * dx in
    let base := idx / 2 ^ (6 - ua) in
    if - 2 ^ ua <=? base then Spec.interp EA base ((idx * 2 ^ ua / 2) mod 32)
    else
      let idx := i * 64 - (j + 1) * dy in
      Spec.interp EL (idx / 2 ^ (6 - ul)) ((idx * 2 ^ ul / 2) mod 32).
  Lemma pow_up : forall u, u = 0 \/ u = 1 -> 2 ^ u = 1 + u.
  Proof. intros u [->| ->]; reflexivity. Qed.
  Lemma mix_shift : forall T T' c n f, (forall k, T' k = T (k - c)) -> mix T' n f = mix T (n - c) f.
  Proof. intros T T' c n f E. unfold mix. rewrite !E. replace (n - c + 1) with (n + 1 - c) by ring. reflexivity. Qed.
  Lemma base_eq : forall p i j, p = 1 \/ p = 2 -> (64 * p - (i + 1) * (dx * p)) / 64 + j * p = (j * 64 - (i + 1) * dx) * p / 64 + p.
  Proof.
    clear. intros p i j Hp. rewrite <- Z.div_add by lia. symmetry. rewrite <- Z.div_add by lia. f_equal. ring.
  Qed.
  Lemma frac_eq : forall p i j, p = 1 \/ p = 2 -> ((64 * p - (i + 1) * (dx * p)) / 2) mod 32 = ((j * 64 - (i + 1) * dx) * p / 2) mod 32.
  Proof.
    clear. intros p i j Hp. replace (64 * p - (i + 1) * (dx * p)) with ((j * 64 - (i + 1) * dx) * p + (32 * p * (1 - j)) * 2) by ring. rewrite Z.div_add by lia.
    replace (32 * p * (1 - j)) with (p * (1 - j) * 32) by ring. apply Z.mod_add. lia.
  Qed.
  Lemma z2_pixel : forall i j, 0 <= i < h -> 0 <= j < w ->
    (let base_x := (64 * 2 ^ ua - (i + 1) * (dx * 2 ^ ua)) / 64 + j * 2 ^ ua in
     let ypos := i * 64 * 2 ^ ul - (j + 1) * (dy * 2 ^ ul) in
     if 0 <=? base_x then z_value (fun k => rd1 129 b (64 + k)) base_x (base_x + 1) (Z.land (64 * 2 ^ ua - (i + 1) * (dx * 2 ^ ua)) 62)
     else guard! (-(1 + ul) <=? Z.shiftr ypos 6) in z_value (fun k => rd1 129 b (64 + (-(1 + ul) + k))) (- (Z.shiftr ypos 6)) (-(Z.shiftr ypos 6 + 1)) (Z.land ypos 62)) = Ok (z2_of i j) /\
    pixel bd (z2_of i j).
  Proof.
    intros i j Hi Hj. cbv zeta. assert (Pa : 2 ^ ua = 1 \/ 2 ^ ua = 2) by (rewrite pow_up by exact Hua; lia). assert (Pl : 2 ^ ul = 1 \/ 2 ^ ul = 2) by (rewrite pow_up by exact Hul; lia).
    rewrite base_eq by exact Pa. unfold z2_of. cbv zeta. rewrite <- (pos_base _ ua Hua). set (idx := j * 64 - (i + 1) * dx).
    set (p := 2 ^ ua) in *. set (base := idx * p / 64).
    assert (BU : base <= j * p - 1). { unfold base, idx. apply Z.lt_le_pred. apply Z.div_lt_upper_bound; [lia|]. nia. }
    assert (BE : 64 * base <= idx * p < 64 * base + 64) by (unfold base; pose proof (Z.div_mod (idx * p) 64 ltac:(lia)); pose proof (Z.mod_pos_bound (idx * p) 64 ltac:(lia)); lia).
    destruct (Z.leb_spec 0 (base + p)) as [g|g], (Z.leb_spec (- p) base) as [g'|g']; try lia.
    - assert (JP : j * p + p <= w * p) by (clear - Hj Pa; nia). assert (R0 : 0 <= base + p <= w * p /\ 0 <= base + p + 1 <= w * p) by lia.
      destruct (HA (base + p) (proj1 R0)) as (E0 & P0). destruct (HA (base + p + 1) (proj2 R0)) as (E1 & P1).
      rewrite (z_value_ok bd Hd _ (fun k => EA (k - p)) _ _ (base + p)) by (assumption || apply land62_range).
      rewrite (mix_shift EA (fun k => EA (k - p)) p) by reflexivity. replace (base + p - p) with base by ring. rewrite mix_interp. rewrite (frac_eq p i j Pa). fold idx.
      split; [reflexivity|]. rewrite <- mix_interp. replace (base + p - p) with base in P0 by ring. replace (base + p + 1 - p) with (base + 1) in P1 by ring.
      apply mix_pixel; [pose proof (land62_range (idx * p)); lia|exact P0|exact P1].
    - assert (G : -64 <= i * 64 - (j + 1) * dy). { apply (z2_geom dx dy); try lia; unfold idx in BE; nia. }
      rewrite <- (pos_base _ ul Hul). set (idy := i * 64 - (j + 1) * dy) in *. set (q := 2 ^ ul) in *.
      replace (i * 64 * q - (j + 1) * (dy * q)) with (idy * q) by (unfold idy; ring). rewrite Z.shiftr_div_pow2 by lia. change (2 ^ 6) with 64. set (by_ := idy * q / 64).
      assert (QE : q = 1 + ul) by (apply pow_up; exact Hul).
      assert (BY : 64 * by_ <= idy * q < 64 * by_ + 64) by (unfold by_; pose proof (Z.div_mod (idy * q) 64 ltac:(lia)); pose proof (Z.mod_pos_bound (idy * q) 64 ltac:(lia)); lia).
      assert (LB : - q <= by_) by (destruct Pl as [Pl|Pl]; rewrite Pl in *; lia).
      assert (UB : by_ + 1 <= i * q). { unfold idy in BY. assert (0 < (j + 1) * dy * q) by (apply Z.mul_pos_pos; [nia|lia]). nia. }
      destruct (Z.leb_spec (-(1 + ul)) by_); [|lia].
      assert (JP : i * q + q <= h * q) by (clear - Hi Pl; nia). assert (R0 : 0 <= q + by_ <= h * q /\ 0 <= q + by_ + 1 <= h * q) by lia.
      destruct (HL (q + by_) (proj1 R0)) as (E0 & P0). destruct (HL (q + by_ + 1) (proj2 R0)) as (E1 & P1).
      replace (q + by_ - q) with by_ in * by ring. replace (q + by_ + 1 - q) with (by_ + 1) in * by ring.
      rewrite (z_value_ok bd Hd _ EL _ _ by_).
      + rewrite mix_interp. split; [reflexivity|]. rewrite <- mix_interp. apply mix_pixel; [pose proof (land62_range (idy * q)); lia|exact P0|exact P1].
      + rewrite <- E0. f_equal. lia.
      + rewrite <- E1. f_equal. lia.
      + apply land62_range.
      + exact P0.
      + exact P1.
  Qed.
  Lemma z2_all : forall d, exists d' xp,
    for_ 0 h (fun y s =>
      let '(d, xpos) := s in
      let frac_x := Z.land xpos 62 in
      obind (for_ 0 w (fun x s =>
        let '(d, base_x, ypos) := s in
        obind (if 0 <=? base_x then z_value (fun i => rd1 129 b (64 + i)) base_x (base_x + 1) frac_x
          else
            let base_y := Z.shiftr ypos 6 in
            guard! (-(1 + ul) <=? base_y) in
            z_value (fun i => rd1 129 b (64 + (-(1 + ul) + i))) (- base_y) (-(base_y + 1)) (Z.land ypos 62)) (fun v =>
        obind (st bd w h y x v d) (fun d =>
        obind (ck (ypos - dy * 2 ^ ul)) (fun ypos =>
        Ok (d, base_x + (1 + ua), ypos))))) (d, Z.shiftr xpos 6, Z.shiftl y (6 + ul) - dy * 2 ^ ul)) (fun p => let '(d, _, _) := p in
      obind (ck (xpos - dx * 2 ^ ua)) (fun xpos =>
      Ok (d, xpos)))) (d, Z.shiftl (1 + ua) 6 - dx * 2 ^ ua) = Ok (d', xp) /\ filled d d' w h 0 0 z2_of.
  Proof.
    intros d. pose proof (w_range lw lh Hsz). pose proof (h_range lw lh Hsz). pose proof (pow_up ua Hua) as PA. pose proof (pow_up ul Hul) as PL.
    assert (Pa : 2 ^ ua = 1 \/ 2 ^ ua = 2) by lia. assert (Pl : 2 ^ ul = 1 \/ 2 ^ ul = 2) by lia.
    match goal with |- context [for_ 0 h ?F (d, ?x0)] =>
      destruct (for_inv _ (fun k (s : plane * Z) => snd s = 64 * 2 ^ ua - (k + 1) * (dx * 2 ^ ua) /\
        (forall i j, 0 <= i < k -> 0 <= j < w -> fst s i j = Some (z2_of i j)) /\
        (forall Y X, ~ (0 <= Y < k /\ 0 <= X < w) -> fst s Y X = d Y X)) F 0 h (d, x0) ltac:(lia)) as ((d' & xp) & E & _ & Q1 & Q2) end.
    - cbn [fst snd]. split; [rewrite Z.shiftl_mul_pow2 by lia; change (2 ^ 6) with 64; lia|]. split; [intros; lia|reflexivity].
    - intros k (e & xpos) Hk (E & Q1 & Q2). cbn [fst snd] in *. subst xpos. cbv zeta.
      match goal with |- context [for_ 0 w ?F (e, ?b0, ?y0)] =>
        destruct (for_inv _ (fun j (s : plane * Z * Z) => snd (fst s) = (64 * 2 ^ ua - (k + 1) * (dx * 2 ^ ua)) / 64 + j * 2 ^ ua /\
          snd s = k * 64 * 2 ^ ul - (j + 1) * (dy * 2 ^ ul) /\
          (forall x, 0 <= x < j -> fst (fst s) k x = Some (z2_of k x)) /\
          (forall Y X, ~ (Y = k /\ 0 <= X < j) -> fst (fst s) Y X = e Y X)) F 0 w (e, b0, y0) ltac:(lia)) as (((e' & bx) & yp) & E & _ & _ & A1 & A2) end.
      + cbn [fst snd]. split; [rewrite Z.shiftr_div_pow2 by lia; change (2 ^ 6) with 64; lia|].
        split; [rewrite Z.shiftl_mul_pow2 by lia; rewrite Z.pow_add_r by lia; change (2 ^ 6) with 64; ring|]. split; [intros; lia|reflexivity].
      + intros j ((c & bx) & yp) Hj (I1 & I2 & I3 & I4). cbn [fst snd] in *. subst bx yp.
        destruct (z2_pixel k j Hk Hj) as (EV & PV). cbv zeta in EV. rewrite EV. cbn [obind]. rewrite (st_ok bd lw lh Hd k j _ c Hk Hj PV). cbn [obind].
        rewrite ck_ok by (unfold INT_MIN, INT_MAX; nia). cbn [obind]. eexists. split; [reflexivity|]. cbn [fst snd].
        split; [lia|]. split; [ring|]. split.
        * intros x Hx. destruct (Z.eq_dec x j) as [->|]; [apply set2_same|]. rewrite set2_other by lia. apply I3. lia.
        * intros Y X N. rewrite set2_other by lia. apply I4. lia.
      + rewrite E. cbn [obind fst snd] in *. rewrite ck_ok by (unfold INT_MIN, INT_MAX; nia). cbn [obind]. eexists. split; [reflexivity|]. cbn [fst snd].
        split; [ring|]. split.
        * intros i j Hi Hj. destruct (Z.eq_dec i k) as [->|]; [apply A1; exact Hj|]. rewrite A2 by lia. apply Q1; lia.
        * intros Y X N. rewrite A2 by lia. apply Q2. lia.
    - cbn [fst snd] in *. exists d', xp. split; [exact E|]. split.
      + intros i j Hi Hj. rewrite !Z.add_0_l. apply Q1; assumption.
      + intros Y X N. apply Q2. intros C. apply N. unfold within. lia.
  Qed.
End Loops2.

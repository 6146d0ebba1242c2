(** Recursive intra prediction (filter intra) and palette prediction. *)
From Coq Require Import ZArith List Bool Lia.
From Verif Require Import Base.CInt Base.Lemmas Base.Loop Cdef.Block Mc.Blocks Ipred.Model Ipred.Kernels Ipred.Arrays.
From Verif Require Ipred.Spec.
Import ListNotations.
Open Scope Z_scope.

Definition taps (f k : Z) : list Z := nth (Z.to_nat k) (nth (Z.to_nat f) Spec.Intra_Filter_Taps []) [].
Definition rec_p (A L : Z -> Z) (i2 j4 : Z) (pred : Z -> Z -> Z) (i : Z) : Z :=
  if i <? 5
  then if i2 =? 0 then A (4 * j4 + i - 1)
       else if (j4 =? 0) && (i =? 0) then L (2 * i2 - 1)
       else pred (2 * i2 - 1) (4 * j4 + i - 1)
  else if j4 =? 0 then L (2 * i2 + i - 5)
       else pred (2 * i2 + i - 5) (4 * j4 - 1).
Definition rec_value (bd f : Z) (p : Z -> Z) (i1 j1 : Z) : Z := Spec.Clip1 bd (Spec.Round2Signed (Spec.sum 7 (fun i => Spec.at_ (taps f (4 * i1 + j1)) i * p i)) 4).
Definition rec_step (bd f : Z) (A L : Z -> Z) (i2 j4 : Z) (pred : Z -> Z -> Z) : Z -> Z -> Z :=
  fun r c => if (2 * i2 <=? r) && (r <? 2 * i2 + 2) && (4 * j4 <=? c) && (c <? 4 * j4 + 4) then rec_value bd f (rec_p A L i2 j4 pred) (r - 2 * i2) (c - 4 * j4) else pred r c.
Definition rec_of (bd f : Z) (A L : Z -> Z) (w h : Z) : Z -> Z -> Z :=
  zfor 0 (h / 2) (fun i2 pred => zfor 0 (w / 4) (fun j4 pred => rec_step bd f A L i2 j4 pred) pred) (fun _ _ => 0).
Lemma spec_recursive : forall bd cur maxX maxY x y hl ha har hbl lw lh f,
  Spec.recursive bd cur maxX maxY x y hl ha har hbl lw lh f =
  rec_of bd f (Spec.AboveRow bd cur maxX x y hl ha har lw) (Spec.LeftCol bd cur maxY x y hl ha hbl lh) (2 ^ lw) (2 ^ lh).
Proof. intros. unfold Spec.recursive, rec_of, rec_step, rec_value, rec_p, taps. reflexivity. Qed.

Lemma seven : forall f, Spec.sum 7 f = f 0 + f 1 + f 2 + f 3 + f 4 + f 5 + f 6.
Proof. intros f. change 7 with (5 + 1 + 1). rewrite !sum_S, sum5 by lia. reflexivity. Qed.
Lemma taps_ok : forall f, 0 <= f < 5 -> exists flt, rd_at filter_intra_taps f = Ok flt /\
  forall k, 0 <= k < 8 -> rd_at flt k = Ok (taps f k) /\ forall i, 0 <= i < 7 -> rd_at (taps f k) i = Ok (Spec.at_ (taps f k) i) /\ -16 <= Spec.at_ (taps f k) i <= 16.
Proof.
  intros f Hf.
  assert (C : forallb (fun f => forallb (fun k => forallb (fun i => (-16 <=? Spec.at_ (taps (Z.of_nat f) (Z.of_nat k)) (Z.of_nat i)) && (Spec.at_ (taps (Z.of_nat f) (Z.of_nat k)) (Z.of_nat i) <=? 16)) (seq 0 7)
     && (length (taps (Z.of_nat f) (Z.of_nat k)) =? 7)%nat) (seq 0 8)) (seq 0 5) = true) by (vm_compute; reflexivity).
  rewrite forallb_forall in C. specialize (C (Z.to_nat f) ltac:(apply in_seq; lia)). rewrite Z2Nat.id in C by lia. rewrite forallb_forall in C.
  exists (nth (Z.to_nat f) Spec.Intra_Filter_Taps []). split.
  - assert (D : f = 0 \/ f = 1 \/ f = 2 \/ f = 3 \/ f = 4) by lia. destruct D as [->|[->|[->|[->| ->]]]]; reflexivity.
  - intros k Hk. split.
    + unfold taps. apply rd_at_nth. assert (D : f = 0 \/ f = 1 \/ f = 2 \/ f = 3 \/ f = 4) by lia.
      assert (Z8 : zlen (nth (Z.to_nat f) Spec.Intra_Filter_Taps []) = 8) by (destruct D as [->|[->|[->|[->| ->]]]]; reflexivity). rewrite Z8. exact Hk.
    + specialize (C (Z.to_nat k) ltac:(apply in_seq; lia)). rewrite Z2Nat.id in C by lia. apply andb_prop in C. destruct C as (C & Cl). apply PeanoNat.Nat.eqb_eq in Cl.
      intros i Hi. split; [apply rd_at_nth; unfold zlen; lia|]. rewrite forallb_forall in C. specialize (C (Z.to_nat i) ltac:(apply in_seq; lia)). rewrite Z2Nat.id in C by lia.
      apply andb_prop in C. destruct C as (C1 & C2). apply Z.leb_le in C1, C2. lia.
Qed.
Lemma signed_clip : forall bd v, depth bd -> clip_pixel bd (Z.shiftr (v + 8) 4) = Spec.Clip1 bd (Spec.Round2Signed v 4).
Proof.
  intros bd v Hd. rewrite clip_pixel_eq. change 8 with (2 ^ (4 - 1)). rewrite round_eq by lia. unfold Spec.Round2Signed. destruct (Z.leb_spec 0 v) as [|N]; [reflexivity|].
  unfold Spec.Round2. cbn [Z.eqb]. change (2 ^ (4 - 1)) with 8. change (2 ^ 4) with 16. unfold Spec.Clip1, Spec.Clip3.
  assert (1 <= 2 ^ bd) by (destruct Hd as [->|[->| ->]]; cbn; lia).
  assert (X : (v + 8) / 16 <= 0) by lia. assert (Y : - ((- v + 8) / 16) <= 0) by lia. set (a := (v + 8) / 16) in *. set (b := - ((- v + 8) / 16)) in *. clearbody a b.
  destruct (Z.ltb_spec a 0), (Z.ltb_spec b 0), (Z.ltb_spec (2 ^ bd - 1) a), (Z.ltb_spec (2 ^ bd - 1) b); lia.
Qed.

Section Recur.
  Variables (bd lw lh : Z).
  Hypothesis Hd : depth bd.
  Hypothesis Hs : size lw lh.
  Notation w := (2 ^ lw).
  Notation h := (2 ^ lh).
  Variable tl : Z -> outcome Z.
  Variables (A L : Z -> Z).

  Lemma filter_4x2_ok : forall f flt p y x d, 0 <= f < 5 -> rd_at filter_intra_taps f = Ok flt -> (forall i, 0 <= i < 7 -> pixel bd (p i)) -> 0 <= y -> y + 2 <= h -> 0 <= x -> x + 4 <= w ->
    exists d', filter_4x2 bd w h flt y x (p 0) (p 1) (p 2) (p 3) (p 4) (p 5) (p 6) d = Ok d' /\
      (forall yy xx, 0 <= yy < 2 -> 0 <= xx < 4 -> d' (y + yy) (x + xx) = Some (rec_value bd f p yy xx)) /\
      (forall Y X, ~ within y (y + 2) x (x + 4) Y X -> d' Y X = d Y X).
  Proof.
    intros f flt p y x d Hf EF HP Hy0 Hy1 Hx0 Hx1. destruct (taps_ok f Hf) as (flt' & EF' & HT). rewrite EF in EF'. injection EF' as <-.
    unfold filter_4x2.
    match goal with |- context [for_ 0 2 (fun yy d => for_ 0 4 (@?G yy) d) d] => apply (map_rect 2 4 (fun yy xx d => G yy xx d) (rec_value bd f p) y x d); [lia|lia|] end.
    intros yy xx e Hyy Hxx _. destruct (HT (4 * yy + xx) ltac:(lia)) as (-> & HI). cbn [obind].
    destruct (HI 0 ltac:(lia)) as (-> & B0). cbn [obind]. destruct (HI 1 ltac:(lia)) as (-> & B1). cbn [obind]. destruct (HI 2 ltac:(lia)) as (-> & B2). cbn [obind].
    destruct (HI 3 ltac:(lia)) as (-> & B3). cbn [obind]. destruct (HI 4 ltac:(lia)) as (-> & B4). cbn [obind]. destruct (HI 5 ltac:(lia)) as (-> & B5). cbn [obind].
    destruct (HI 6 ltac:(lia)) as (-> & B6). cbn [obind].
    set (t := Spec.at_ (taps f (4 * yy + xx))) in *.
    assert (BB : forall i, 0 <= i < 7 -> -70000 <= t i * p i <= 70000).
    { intros i Hi. pose proof (pixel_max bd _ Hd (HP i Hi)). destruct (HI i Hi) as (_ & B). nia. }
    pose proof (BB 0 ltac:(lia)). pose proof (BB 1 ltac:(lia)). pose proof (BB 2 ltac:(lia)). pose proof (BB 3 ltac:(lia)). pose proof (BB 4 ltac:(lia)). pose proof (BB 5 ltac:(lia)). pose proof (BB 6 ltac:(lia)).
    rewrite ck_ok by (unfold INT_MIN, INT_MAX; lia). cbn [obind]. rewrite signed_clip by exact Hd.
    rewrite (st_ok bd lw lh Hd (y + yy) (x + xx)) by (lia || (apply clip_pixel_ok; exact Hd)). apply (f_equal (fun v => Ok (set2 e (y + yy) (x + xx) v))). unfold rec_value. rewrite seven. fold t. reflexivity.
  Qed.

  Hypothesis HC : tl 0 = Ok (A (-1)).
  Hypothesis HA : forall i, 0 <= i < w -> tl (1 + i) = Ok (A i).
  Hypothesis HL : forall i, 0 <= i < h -> tl (-(1 + i)) = Ok (L i).
  Hypothesis PA : forall i, pixel bd (A i).
  Hypothesis PL : forall i, pixel bd (L i).
  Lemma side4 : w = 4 * (w / 4) /\ h = 2 * (h / 2).
  Proof. destruct Hs as (S1 & S2 & _). destruct (side_cases lw S1) as [->|[->|[->|[->| ->]]]]; destruct (side_cases lh S2) as [->|[->|[->|[->| ->]]]]; cbn; lia. Qed.

  Definition done (i j r c : Z) : Prop := 0 <= r < 2 * i /\ 0 <= c < w \/ 2 * i <= r < 2 * i + 2 /\ 0 <= c < 4 * j.
  Definition agree (d0 : plane) (i j : Z) (d : plane) (pred : Z -> Z -> Z) : Prop :=
    (forall r c, done i j r c -> d r c = Some (pred r c) /\ pixel bd (pred r c)) /\ (forall r c, ~ done i j r c -> d r c = d0 r c).
  Lemma rec_step_ok : forall f flt d0 i j d pred, 0 <= f < 5 -> rd_at filter_intra_taps f = Ok flt -> 0 <= i < h / 2 -> 0 <= j < w / 4 -> agree d0 i j d pred ->
    let y := 2 * i in
    let top := fun d x => if y =? 0 then tl (1 + x) else drd w h d (y - 1) x in
    let x := 4 * j in
    exists d',
      obind (if x =? 0 then tl (- y) else top d (x - 1)) (fun p0 => obind (top d x) (fun p1 => obind (top d (x + 1)) (fun p2 => obind (top d (x + 2)) (fun p3 => obind (top d (x + 3)) (fun p4 =>
      obind (if x =? 0 then tl (- y - 1) else drd w h d y (x - 1)) (fun p5 => obind (if x =? 0 then tl (- y - 1 - 1) else drd w h d (y + 1) (x - 1)) (fun p6 =>
      filter_4x2 bd w h flt y x p0 p1 p2 p3 p4 p5 p6 d))))))) = Ok d' /\ agree d0 i (j + 1) d' (rec_step bd f A L i j pred).
  Proof.
    intros f flt d0 i j d pred Hf EF Hi Hj (Q1 & Q2) y top x. destruct side4 as (EW & EH). pose proof (w_range lw lh Hs) as RW. pose proof (h_range lw lh Hs) as RH.
    set (p := rec_p A L i j pred).
    assert (TOP : forall k, 0 <= k <= 4 -> ~ (j = 0 /\ k = 0) -> top d (x + k - 1) = Ok (p k)).
    { intros k Hk N. unfold top, p, rec_p, y, x. destruct (Z.ltb_spec k 5); [|lia]. destruct (Z.eqb_spec (2 * i) 0), (Z.eqb_spec i 0); try lia.
      - replace (1 + (4 * j + k - 1)) with (1 + (4 * j + k - 1)) by ring. apply HA. lia.
      - replace ((j =? 0) && (k =? 0)) with false by (symmetry; apply andb_false_iff; destruct (Z.eqb_spec j 0), (Z.eqb_spec k 0); [lia|right; reflexivity|left; reflexivity|left; reflexivity]).
        unfold drd. apply rd2_ok; [lia|lia|]. apply Q1. left. lia. }
    assert (P0 : (if x =? 0 then tl (- y) else top d (x - 1)) = Ok (p 0)).
    { destruct (Z.eqb_spec x 0) as [e|ne].
      - unfold p, rec_p, y. assert (j = 0) by lia. subst j. cbn [Z.ltb Z.compare Z.eqb andb]. destruct (Z.eqb_spec i 0) as [->|n0]; [exact HC|].
        replace (- (2 * i)) with (-(1 + (2 * i - 1))) by ring. apply HL. lia.
      - replace (x - 1) with (x + 0 - 1) by ring. apply TOP; lia. }
    assert (LFT : forall k, 5 <= k <= 6 -> (if x =? 0 then tl (- y - (k - 4)) else drd w h d (y + (k - 5)) (x - 1)) = Ok (p k)).
    { intros k Hk. unfold p, rec_p, y, x. destruct (Z.ltb_spec k 5); [lia|]. destruct (Z.eqb_spec (4 * j) 0), (Z.eqb_spec j 0); try lia.
      - replace (- (2 * i) - (k - 4)) with (-(1 + (2 * i + k - 5))) by ring. apply HL. lia.
      - unfold drd. replace (2 * i + (k - 5)) with (2 * i + k - 5) by ring. apply rd2_ok; [lia|lia|]. apply Q1. right. lia. }
    assert (PP : forall k, 0 <= k < 7 -> pixel bd (p k)).
    { intros k Hk. unfold p, rec_p. destruct (Z.ltb_spec k 5).
      - destruct (Z.eqb_spec i 0); [apply PA|]. destruct (Z.eqb_spec j 0), (Z.eqb_spec k 0); cbn [andb]; try apply PL; apply Q1; left; lia.
      - destruct (Z.eqb_spec j 0); [apply PL|]. apply Q1. right. lia. }
    rewrite P0. cbn [obind]. pose proof (TOP 1 ltac:(lia) ltac:(lia)) as T1. replace (x + 1 - 1) with x in T1 by ring. rewrite T1. cbn [obind].
    pose proof (TOP 2 ltac:(lia) ltac:(lia)) as T2. replace (x + 2 - 1) with (x + 1) in T2 by ring. rewrite T2. cbn [obind].
    pose proof (TOP 3 ltac:(lia) ltac:(lia)) as T3. replace (x + 3 - 1) with (x + 2) in T3 by ring. rewrite T3. cbn [obind].
    pose proof (TOP 4 ltac:(lia) ltac:(lia)) as T4. replace (x + 4 - 1) with (x + 3) in T4 by ring. rewrite T4. cbn [obind].
    pose proof (LFT 5 ltac:(lia)) as L5. replace (- y - (5 - 4)) with (- y - 1) in L5 by ring. replace (y + (5 - 5)) with y in L5 by ring. rewrite L5. cbn [obind].
    pose proof (LFT 6 ltac:(lia)) as L6. replace (- y - (6 - 4)) with (- y - 1 - 1) in L6 by ring. replace (y + (6 - 5)) with (y + 1) in L6 by ring. rewrite L6. cbn [obind].
    destruct (filter_4x2_ok f flt p y x d Hf EF PP ltac:(unfold y; lia) ltac:(unfold y; lia) ltac:(unfold x; lia) ltac:(unfold x; lia)) as (d' & E & O1 & O2).
    exists d'. split; [exact E|]. unfold agree, rec_step. fold p. split.
    - intros r c D. destruct (Z.leb_spec (2 * i) r), (Z.ltb_spec r (2 * i + 2)), (Z.leb_spec (4 * j) c), (Z.ltb_spec c (4 * j + 4)); cbn [andb];
        try (rewrite O2 by (unfold within, y, x; lia); apply Q1; unfold done in *; lia).
      split; [|apply clip_pixel_ok; exact Hd]. replace r with (y + (r - 2 * i)) at 1 by (unfold y; ring). replace c with (x + (c - 4 * j)) at 1 by (unfold x; ring). apply O1; lia.
    - intros r c N. rewrite O2; [apply Q2|]; unfold done, within, y, x in *; lia.
  Qed.
  Lemma filter_ok : forall f a d, 0 <= f < 5 -> Z.land a 511 = f -> exists d', ipred_filter bd w h tl a d = Ok d' /\ filled d d' w h 0 0 (rec_of bd f A L w h).
  Proof.
    intros f a d Hf Ea. destruct side4 as (EW & EH). pose proof (w_range lw lh Hs) as RW. pose proof (h_range lw lh Hs) as RH. unfold ipred_filter. rewrite Ea.
    destruct (taps_ok f Hf) as (flt & EF & _). rewrite EF. cbn [obind].
    replace (Z.shiftr (h + 1) 1) with (h / 2) by (rewrite Z.shiftr_div_pow2 by lia; change (2 ^ 1) with 2; lia).
    replace (Z.shiftr (w + 3) 2) with (w / 4) by (rewrite Z.shiftr_div_pow2 by lia; change (2 ^ 2) with 4; lia).
    match goal with |- context [for_ 0 (h / 2) ?F d] =>
      destruct (for_sim plane (Z -> Z -> Z) (fun i d' pred => agree d i 0 d' pred) F (fun i2 pred => zfor 0 (w / 4) (fun j4 pred => rec_step bd f A L i2 j4 pred) pred) 0 (h / 2) d (fun _ _ => 0) ltac:(lia)) as (d' & E & (Q1 & Q2)) end.
    - split; [intros r c D; unfold done in D; lia|reflexivity].
    - intros i e pred Hi Q. cbv zeta.
      match goal with |- context [for_ 0 (w / 4) ?F e] =>
        destruct (for_sim plane (Z -> Z -> Z) (fun j d' pred => agree d i j d' pred) F (fun j4 pred => rec_step bd f A L i j4 pred) 0 (w / 4) e pred ltac:(lia) Q) as (e' & E & (Q1 & Q2)) end.
      + intros j e1 pr Hj Q'. apply (rec_step_ok f flt d i j e1 pr Hf EF Hi Hj Q').
      + exists e'. split; [exact E|]. split; [intros r c D; apply Q1|intros r c N; apply Q2]; unfold done in *; lia.
    - exists d'. split; [exact E|]. split.
      + intros r c Hr Hc. rewrite !Z.add_0_l. apply Q1. unfold done. lia.
      + intros Y X N. apply Q2. unfold done, within in *. lia.
  Qed.

  (** * Palette *)
  Lemma pal_ok : forall pal map idx d, zlen pal = 8 -> (forall i, 0 <= i < 8 -> pixel bd (Spec.at_ pal i)) -> (forall i j, 0 <= i < h -> 0 <= j < w -> 0 <= map i j < 8) ->
    (forall i k, 0 <= i < h -> 0 <= k < w / 2 -> idx (i * (w / 2) + k) = Ok (map i (2 * k) + 16 * map i (2 * k + 1))) ->
    exists d', pal_pred bd w h pal idx d = Ok d' /\ filled d d' w h 0 0 (Spec.palette_prediction pal map).
  Proof.
    intros pal map idx d HZ HP HM HI. destruct side4 as (EW & EH). pose proof (w_range lw lh Hs) as RW. pose proof (h_range lw lh Hs) as RH. unfold pal_pred.
    replace (Z.shiftr (w + 1) 1) with (w / 2) by (rewrite Z.shiftr_div_pow2 by lia; change (2 ^ 1) with 2; lia).
    match goal with |- context [for_ 0 h ?F d] =>
      destruct (for_inv _ (fun i (e : plane) => (forall r c, 0 <= r < i -> 0 <= c < w -> e r c = Some (Spec.palette_prediction pal map r c)) /\ (forall r c, ~ (0 <= r < i /\ 0 <= c < w) -> e r c = d r c)) F 0 h d ltac:(lia)) as (d' & E & Q1 & Q2) end.
    - split; [intros; lia|reflexivity].
    - intros i e Hi (Q1 & Q2).
      match goal with |- context [for_ 0 (w / 2) ?F e] =>
        destruct (for_inv _ (fun k (g : plane) => (forall c, 0 <= c < 2 * k -> g i c = Some (Spec.palette_prediction pal map i c)) /\ (forall r c, ~ (r = i /\ 0 <= c < 2 * k) -> g r c = e r c)) F 0 (w / 2) e ltac:(lia)) as (e' & E & A1 & A2) end.
      + split; [intros; lia|reflexivity].
      + intros k g Hk (I1 & I2). cbv zeta. rewrite HI by lia. cbn [obind]. pose proof (HM i (2 * k) Hi ltac:(lia)) as M1. pose proof (HM i (2 * k + 1) Hi ltac:(lia)) as M2.
        assert (PK : Z.land (map i (2 * k) + 16 * map i (2 * k + 1)) 136 = 0 /\ Z.land (map i (2 * k) + 16 * map i (2 * k + 1)) 7 = map i (2 * k) /\ Z.shiftr (map i (2 * k) + 16 * map i (2 * k + 1)) 4 = map i (2 * k + 1)).
        { clear - M1 M2. set (m1 := map i (2 * k)) in *. set (m2 := map i (2 * k + 1)) in *. clearbody m1 m2.
          assert (C1 : m1 = 0 \/ m1 = 1 \/ m1 = 2 \/ m1 = 3 \/ m1 = 4 \/ m1 = 5 \/ m1 = 6 \/ m1 = 7) by lia.
          assert (C2 : m2 = 0 \/ m2 = 1 \/ m2 = 2 \/ m2 = 3 \/ m2 = 4 \/ m2 = 5 \/ m2 = 6 \/ m2 = 7) by lia.
          destruct C1 as [->|[->|[->|[->|[->|[->|[->| ->]]]]]]]; destruct C2 as [->|[->|[->|[->|[->|[->|[->| ->]]]]]]]; vm_compute; repeat split. }
        destruct PK as (-> & -> & ->). cbn [Z.eqb]. rewrite (rd_at_nth _ pal (map i (2 * k)) 0) by lia. cbn [obind].
        rewrite (st_ok bd lw lh Hd i (2 * k)) by (lia || (apply HP; lia)). cbn [obind]. rewrite (rd_at_nth _ pal (map i (2 * k + 1)) 0) by lia. cbn [obind].
        rewrite (st_ok bd lw lh Hd i (2 * k + 1)) by (lia || (apply HP; lia)). eexists. split; [reflexivity|]. split.
        * intros c Hc. destruct (Z.eq_dec c (2 * k + 1)) as [->|]; [apply set2_same|]. rewrite set2_other by lia. destruct (Z.eq_dec c (2 * k)) as [->|]; [apply set2_same|].
          rewrite set2_other by lia. apply I1. lia.
        * intros r c N. rewrite !set2_other by lia. apply I2. lia.
      + exists e'. split; [exact E|]. split.
        * intros r c Hr Hc. destruct (Z.eq_dec r i) as [->|]; [apply A1; lia|]. rewrite A2 by lia. apply Q1; lia.
        * intros r c N. rewrite A2 by lia. apply Q2. lia.
    - exists d'. split; [exact E|]. split.
      + intros r c Hr Hc. rewrite !Z.add_0_l. apply Q1; assumption.
      + intros Y X N. apply Q2. unfold within in *. lia.
  Qed.
End Recur.

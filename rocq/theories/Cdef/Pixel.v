(** One filtered pixel: the three variants of the code compute the value of the
    specification. *)
From Coq Require Import ZArith List Bool Lia.
From Verif Require Import Base.CInt Base.Lemmas Base.Loop Cdef.Model.
From Verif Require Cdef.Spec.
Module S := Cdef.Spec.
Import ListNotations.
Open Scope Z_scope.

(** What tmp holds for a pixel that may be missing. *)
Definition val (t : option Z) : Z := match t with Some p => p | None => INT16_MIN end.
Definition okt (t : option Z) : Prop := match t with Some p => 0 <= p < 4096 | None => True end.

Section Taps.
Variables (px damping : Z).
Hypothesis HP : 0 <= px < 4096.
Hypothesis HD : damping <= 14.

Definition pv (t : option Z) : Z := match t with Some p => p | None => px end.
Definition con (str : Z) (t : option Z) : Z := match t with Some p => S.constrain (p - px) str damping | None => 0 end.
Definition shift_of (str : Z) : Z := Z.max 0 (damping - ulog2 str).

Lemma con_eq : forall str t, okt t -> 0 < str <= 4096 -> constrain (val t - px) str (shift_of str) = con str t.
Proof.
  intros str t HT HS. unfold constrain. destruct t as [p|]; cbn [val con okt] in *.
  - unfold S.constrain, S.FloorLog2, S.Clip3, shift_of, ulog2. replace (str =? 0) with false by lia. cbv zeta.
    rewrite Z.shiftr_div_pow2 by lia. set (sh := Z.max 0 (damping - Z.log2 str)).
    set (q := Z.abs (p - px) / 2 ^ sh). assert (0 <= q) by (apply Z.div_pos; [lia|apply Z.pow_pos_nonneg; lia]).
    destruct (Z.ltb_spec (p - px) 0).
    + replace (Z.sgn (p - px)) with (-1) by (symmetry; apply Z.sgn_neg; lia). destruct (Z.ltb_spec (str - q) 0); [lia|]. destruct (Z.ltb_spec (Z.abs (p - px)) (str - q)); lia.
    + destruct (Z.eq_dec p px) as [->|N].
      * rewrite Z.sub_diag. cbn [Z.abs Z.sgn]. lia.
      * replace (Z.sgn (p - px)) with 1 by (symmetry; apply Z.sgn_pos; lia). destruct (Z.ltb_spec (str - q) 0); [lia|]. destruct (Z.ltb_spec (Z.abs (p - px)) (str - q)); lia.
  - unfold INT16_MIN. rewrite Z.shiftr_div_pow2 by (unfold shift_of; lia).
    assert (str <= Z.abs (-32768 - px) / 2 ^ shift_of str).
    { apply Z.div_le_lower_bound; [apply Z.pow_pos_nonneg; unfold shift_of; lia|].
      pose proof (Z.log2_spec str ltac:(lia)) as (L1 & L2). pose proof (Z.log2_nonneg str) as L0. unfold shift_of, ulog2.
      destruct (Z.le_gt_cases (damping - Z.log2 str) 0).
      - rewrite Z.max_l by lia. lia.
      - rewrite Z.max_r by lia.
        assert (E : 2 ^ damping = 2 ^ (damping - Z.log2 str) * 2 ^ Z.log2 str) by (rewrite <- Z.pow_add_r by lia; f_equal; lia).
        assert (E2 : 2 ^ damping <= 2 ^ 14) by (apply Z.pow_le_mono_r; lia). change (2 ^ 14) with 16384 in E2.
        replace (2 ^ Z.succ (Z.log2 str)) with (2 * 2 ^ Z.log2 str) in L2 by (rewrite Z.pow_succ_r by lia; reflexivity).
        assert (0 < 2 ^ (damping - Z.log2 str)) by (apply Z.pow_pos_nonneg; lia).
        set (u := 2 ^ (damping - Z.log2 str)) in *. set (w := 2 ^ Z.log2 str) in *. clearbody u w. nia. }
    rewrite Z.max_l by lia. destruct (Z.ltb_spec (-32768 - px) 0); lia.
Qed.
Lemma con_zero : forall t, con 0 t = 0.
Proof. intros [p|]; reflexivity. Qed.
Lemma con_bound : forall str t mn mx, 0 <= str -> mn <= px <= mx -> mn <= pv t <= mx -> mn - px <= con str t <= mx - px.
Proof.
  intros str [p|] mn mx HS H1 H2; cbn [pv con] in *; [|lia]. unfold S.constrain. destruct (Z.eqb_spec str 0); [lia|]. cbv zeta.
  set (q := str - Z.abs (p - px) / 2 ^ Z.max 0 (damping - S.FloorLog2 str)). unfold S.Clip3.
  destruct (Z.ltb_spec q 0), (Z.ltb_spec (Z.abs (p - px)) q); try lia; destruct (Z.lt_trichotomy p px) as [L|[L|L]];
    ((rewrite (Z.sgn_neg (p - px)) by lia) || (rewrite (Z.sgn_pos (p - px)) by lia) || (replace (p - px) with 0 in * by lia; cbn [Z.sgn Z.abs] in * )); lia.
Qed.

(** A list of taps: weight, strength and value. *)
Definition taps : Type := list (Z * Z * option Z).
Definition wsum (L : taps) : Z := fold_right (fun '(w, str, t) a => w * con str t + a) 0 L.
Definition step (s : Z * Z * Z) (e : Z * Z * option Z) : Z * Z * Z := let '(w, str, t) := e in S.add_tap px w str damping t s.
Definition mstep (s : Z * Z * Z) (e : Z * Z * option Z) : Z * Z * Z :=
  let '(w, str, t) := e in let '(sum, mx, mn) := s in
  (sum + w * constrain (val t - px) str (shift_of str), Z.max (val t) mx, umin (val t) mn).
Definition bounds (L : taps) (mx0 mn0 mx mn : Z) : Prop :=
  (forall z, mx <= z <-> mx0 <= z /\ Forall (fun e : Z * Z * option Z => pv (snd e) <= z) L) /\
  (forall z, z <= mn <-> z <= mn0 /\ Forall (fun e : Z * Z * option Z => z <= pv (snd e)) L).
Lemma bounds_nil : forall mx mn, bounds [] mx mn mx mn.
Proof. intros. split; intros z; (split; [intros H; split; [exact H|constructor]|intros (H & _); exact H]). Qed.
Lemma bounds_cons : forall e L mx0 mn0 mx mn, bounds L (Z.max (pv (snd e)) mx0) (Z.min (pv (snd e)) mn0) mx mn -> bounds (e :: L) mx0 mn0 mx mn.
Proof.
  intros e L mx0 mn0 mx mn (A & B). split; intros z; [rewrite A|rewrite B]; rewrite Forall_cons_iff, ?Z.max_lub_iff, ?Z.min_glb_iff; tauto.
Qed.
Lemma run_spec : forall L s mx mn, mn <= px <= mx -> exists mx' mn', fold_left step L (s, mx, mn) = (s + wsum L, mx', mn') /\ bounds L mx mn mx' mn'.
Proof.
  induction L as [|((w & str) & t) L IH]; intros s mx mn H.
  - exists mx, mn. split; [cbn; f_equal; f_equal; lia|apply bounds_nil].
  - cbn [fold_left]. assert (E : step (s, mx, mn) (w, str, t) = (s + w * con str t, Z.max (pv t) mx, Z.min (pv t) mn)).
    { destruct t as [p|]; cbn; [reflexivity|]. rewrite Z.max_r, Z.min_r by lia. f_equal. f_equal. lia. }
    rewrite E. destruct (IH (s + w * con str t) (Z.max (pv t) mx) (Z.min (pv t) mn)) as (mx' & mn' & E' & B); [lia|].
    exists mx', mn'. split; [rewrite E'; cbn [wsum fold_right]; fold (wsum L); f_equal; f_equal; lia|]. apply bounds_cons. exact B.
Qed.
Lemma run_model : forall L s mx mn, Forall (fun e : Z * Z * option Z => okt (snd e) /\ 0 < snd (fst e) <= 4096) L -> 0 <= mn <= px -> px <= mx ->
  exists mx' mn', fold_left mstep L (s, mx, mn) = (s + wsum L, mx', mn') /\ bounds L mx mn mx' mn'.
Proof.
  induction L as [|((w & str) & t) L IH]; intros s mx mn F H1 H2.
  - exists mx, mn. split; [cbn; f_equal; f_equal; lia|apply bounds_nil].
  - apply Forall_cons_iff in F. destruct F as ((F1 & F2) & F). cbn [fst snd] in F1, F2.
    cbn [fold_left]. assert (E : mstep (s, mx, mn) (w, str, t) = (s + w * con str t, Z.max (pv t) mx, Z.min (pv t) mn)).
    { unfold mstep. rewrite (con_eq str t F1 F2). destruct t as [p|]; cbn [val pv okt] in *; f_equal; [|f_equal; unfold INT16_MIN; lia|].
      - unfold umin, u32. rewrite !Z.mod_small by lia. destruct (Z.ltb_spec p mn); lia.
      - unfold umin, u32, INT16_MIN. replace (-32768 mod 2 ^ 32) with 4294934528 by reflexivity. rewrite Z.mod_small by lia. destruct (Z.ltb_spec 4294934528 mn); lia. }
    rewrite E. destruct (IH (s + w * con str t) (Z.max (pv t) mx) (Z.min (pv t) mn)) as (mx' & mn' & E' & B);
      [exact F|destruct t as [p|]; cbn [pv okt] in *; lia|lia|].
    exists mx', mn'. split; [rewrite E'; cbn [wsum fold_right]; fold (wsum L); f_equal; f_equal; lia|]. apply bounds_cons. exact B.
Qed.
Lemma bounds_unique : forall L L' mx mn mx1 mn1 mx2 mn2, (forall P : Z * Z * option Z -> Prop, Forall P L <-> Forall P L') ->
  bounds L mx mn mx1 mn1 -> bounds L' mx mn mx2 mn2 -> mx1 = mx2 /\ mn1 = mn2.
Proof.
  intros L L' mx mn mx1 mn1 mx2 mn2 P (A1 & B1) (A2 & B2). split; apply Z.le_antisymm.
  - apply A1. rewrite P. apply A2. lia.
  - apply A2. rewrite <- P. apply A1. lia.
  - apply B2. rewrite <- P. apply B1. lia.
  - apply B1. rewrite P. apply B2. lia.
Qed.
End Taps.

Lemma clip_eq : forall x lo hi, iclip x lo hi = S.Clip3 lo hi x.
Proof. reflexivity. Qed.
Lemma round_eq : forall sum, round_sum sum = (8 + sum - (if sum <? 0 then 1 else 0)) / 2 ^ 4.
Proof. intros. unfold round_sum. rewrite Z.shiftr_div_pow2 by lia. f_equal. lia. Qed.

Definition offset (d k : Z) : Z * Z := nth (Z.to_nat k) (nth (Z.to_nat d) S.Cdef_Directions []) (0, 0).
Definition flat (o : Z * Z) : Z := 12 * fst o + snd o.
Lemma cases_dir : forall d, 0 <= d < 8 -> d = 0 \/ d = 1 \/ d = 2 \/ d = 3 \/ d = 4 \/ d = 5 \/ d = 6 \/ d = 7.
Proof. intros; lia. Qed.
Lemma direction_eq : forall d k, 0 <= d < 8 -> 0 <= k < 2 ->
  direction (d + 2) k = Ok (flat (offset d k)) /\ direction (d + 4) k = Ok (flat (offset (Z.land (d + 2) 7) k)) /\
  direction (d + 0) k = Ok (flat (offset (Z.land (d + -2) 7) k)).
Proof.
  intros d k Hd Hk. assert (k = 0 \/ k = 1) as [->| ->] by lia;
    destruct (cases_dir d Hd) as [->|[->|[->|[->|[->|[->|[->| ->]]]]]]]; vm_compute; repeat split; reflexivity.
Qed.
Lemma offset_small : forall d k, 0 <= d < 8 -> 0 <= k < 2 -> -2 <= fst (offset d k) <= 2 /\ -2 <= snd (offset d k) <= 2.
Proof.
  intros d k Hd Hk. assert (k = 0 \/ k = 1) as [->| ->] by lia;
    destruct (cases_dir d Hd) as [->|[->|[->|[->|[->|[->|[->| ->]]]]]]]; vm_compute; repeat split; congruence.
Qed.
Lemma land7 : forall a, 0 <= Z.land a 7 < 8.
Proof. intros a. change 7 with (Z.ones 3). rewrite Z.land_ones by lia. apply Z.mod_pos_bound. reflexivity. Qed.

Section Pix.
Variable v : S.frame.
Variable Cur : S.picture.
Variables (plane Y X : Z) (tmp : arr) (y x : Z) (pri sec damping dir : Z).
Let bd := S.BitDepth v.
Let px := Cur plane Y X.
Definition nb (dy dx : Z) : option Z :=
  if S.is_inside_filter_region v (((Y + dy) * 2 ^ S.psubY v plane) / 4) (((X + dx) * 2 ^ S.psubX v plane) / 4)
  then Some (Cur plane (Y + dy) (X + dx)) else None.
Hypothesis HB : bd = 8 \/ bd = 10 \/ bd = 12.
Hypothesis HP : 0 <= px < 2 ^ bd.
Hypothesis HY : 0 <= y < 8.
Hypothesis HX : 0 <= x < 8.
Hypothesis HR : forall dy dx, -2 <= dy <= 2 -> -2 <= dx <= 2 -> match nb dy dx with Some p => 0 <= p < 2 ^ bd | None => True end.
Hypothesis HT : forall dy dx, -2 <= dy <= 2 -> -2 <= dx <= 2 -> tmp (cell (y + dy) (x + dx)) = Some (val (nb dy dx)).
Hypothesis HDir : 0 <= dir < 8.
Hypothesis HD : damping <= 14.
Hypothesis HPri : 0 <= pri <= 4096.
Hypothesis HSec : 0 <= sec <= 4096.
Hypothesis HSS : sec <> 0 -> 0 <= damping - ulog2 sec.

Lemma px_range : 0 <= px < 4096.
Proof. clear - HB HP. destruct HB as [E|[E|E]]; rewrite E in HP; lia. Qed.
Definition nbs (d k s : Z) : option Z := nb (s * fst (offset d k)) (s * snd (offset d k)).
Lemma nbs_get : forall d k s, S.get_at v Cur plane Y X d k s = nbs d k s.
Proof. intros d k s. unfold S.get_at, nbs, nb, offset. destruct (nth (Z.to_nat k) _ (0, 0)) as (dy & dx). reflexivity. Qed.
Lemma nbs_ok : forall d k s, 0 <= d < 8 -> 0 <= k < 2 -> s = 1 \/ s = -1 -> okt (nbs d k s).
Proof. clear - HB HR.
  intros d k s Hd Hk Hs. destruct (offset_small d k Hd Hk). unfold nbs.
  pose proof (HR (s * fst (offset d k)) (s * snd (offset d k)) ltac:(destruct Hs; subst; lia) ltac:(destruct Hs; subst; lia)) as Q.
  unfold okt. destruct (nb _ _) as [p|]; [|exact I]. destruct HB as [E|[E|E]]; rewrite E in Q; lia.
Qed.
Lemma tap_at : forall d k, 0 <= d < 8 -> 0 <= k < 2 ->
  tap tmp (cell y x) (flat (offset d k)) = Ok (val (nbs d k 1)) /\ tap tmp (cell y x) (- flat (offset d k)) = Ok (val (nbs d k (-1))).
Proof.
  intros d k Hd Hk. destruct (offset_small d k Hd Hk) as (A & B). unfold tap, nbs, flat. destruct (offset d k) as (dy & dx). cbn [fst snd] in *.
  split; (apply rd1_ok; [unfold cell; lia|]).
  - rewrite <- HT by lia. f_equal. unfold cell. lia.
  - rewrite <- HT by lia. f_equal. unfold cell. lia.
Qed.
Lemma pri_taps_ok : forall k, 0 <= k < 2 -> pri_taps tmp dir (cell y x) k = Ok (val (nbs dir k 1), val (nbs dir k (-1))).
Proof.
  intros k Hk. unfold pri_taps. destruct (direction_eq dir k HDir Hk) as (E & _). rewrite E. cbn [obind].
  destruct (tap_at dir k HDir Hk) as (E1 & E2). rewrite E1. cbn [obind]. rewrite E2. reflexivity.
Qed.
Definition dp : Z := Z.land (dir + 2) 7.
Definition dm : Z := Z.land (dir + -2) 7.
Lemma sec_taps_ok : forall k, 0 <= k < 2 -> sec_taps tmp dir (cell y x) k = Ok (val (nbs dp k 1), val (nbs dp k (-1)), val (nbs dm k 1), val (nbs dm k (-1))).
Proof.
  intros k Hk. unfold sec_taps. destruct (direction_eq dir k HDir Hk) as (_ & E & E'). rewrite E. cbn [obind]. rewrite E'. cbn [obind]. fold dp dm.
  destruct (tap_at dp k (land7 _) Hk) as (E1 & E2). rewrite E1. cbn [obind]. rewrite E2. cbn [obind].
  destruct (tap_at dm k (land7 _) Hk) as (E3 & E4). rewrite E3. cbn [obind]. rewrite E4. reflexivity.
Qed.

(** Taps in the order of the specification and of the code. *)
Definition odd : Z := Z.land (pri / 2 ^ S.coeffShift v) 1.
Definition w0 : Z := S.nth2 S.Cdef_Pri_Taps odd 0.
Definition w1 : Z := S.nth2 S.Cdef_Pri_Taps odd 1.
Definition LS : taps :=
  [ (w0, pri, nbs dir 0 (-1)); (2, sec, nbs dm 0 (-1)); (2, sec, nbs dp 0 (-1)); (w0, pri, nbs dir 0 1); (2, sec, nbs dm 0 1); (2, sec, nbs dp 0 1);
    (w1, pri, nbs dir 1 (-1)); (1, sec, nbs dm 1 (-1)); (1, sec, nbs dp 1 (-1)); (w1, pri, nbs dir 1 1); (1, sec, nbs dm 1 1); (1, sec, nbs dp 1 1) ].
Definition LP : taps := [ (w0, pri, nbs dir 0 1); (w0, pri, nbs dir 0 (-1)); (w1, pri, nbs dir 1 1); (w1, pri, nbs dir 1 (-1)) ].
Definition LC : taps :=
  [ (2, sec, nbs dp 0 1); (2, sec, nbs dp 0 (-1)); (2, sec, nbs dm 0 1); (2, sec, nbs dm 0 (-1));
    (1, sec, nbs dp 1 1); (1, sec, nbs dp 1 (-1)); (1, sec, nbs dm 1 1); (1, sec, nbs dm 1 (-1)) ].
Definition LM : taps :=
  [ (w0, pri, nbs dir 0 1); (w0, pri, nbs dir 0 (-1)); (2, sec, nbs dp 0 1); (2, sec, nbs dp 0 (-1)); (2, sec, nbs dm 0 1); (2, sec, nbs dm 0 (-1));
    (w1, pri, nbs dir 1 1); (w1, pri, nbs dir 1 (-1)); (1, sec, nbs dp 1 1); (1, sec, nbs dp 1 (-1)); (1, sec, nbs dm 1 1); (1, sec, nbs dm 1 (-1)) ].
Lemma odd_cases : odd = 0 /\ w0 = 4 /\ w1 = 2 \/ odd = 1 /\ w0 = 3 /\ w1 = 3.
Proof. clear.
  unfold w0, w1. assert (odd = 0 \/ odd = 1) as [->| ->]; [|left; repeat split; reflexivity|right; repeat split; reflexivity].
  unfold odd. change 1 with (Z.ones 1). rewrite Z.land_ones by lia. change (2 ^ 1) with 2. change (Z.ones 1) with 1. set (q := pri / _). pose proof (Z.mod_pos_bound q 2). lia.
Qed.
Notation result := (S.filter_pixel v Cur plane Y X pri sec damping dir).
Lemma spec_form : result = let '(sum, mx, mn) := fold_left (step px damping) LS (0, px, px) in
  S.Clip3 mn mx (px + (8 + sum - (if sum <? 0 then 1 else 0)) / 2 ^ 4).
Proof. clear.
  unfold S.filter_pixel, zfor. replace (Z.to_nat (2 - 0)) with 2%nat by reflexivity. cbn [ziter fold_left].
  rewrite !nbs_get. fold odd px dp dm. change (0 + 1) with 1. unfold LS, w0, w1.
  assert (N : forall k, S.nth2 S.Cdef_Sec_Taps odd k = if k =? 0 then 2 else if k =? 1 then 1 else S.nth2 S.Cdef_Sec_Taps odd k).
  { intros k. destruct (Z.eqb_spec k 0) as [->|]; [destruct odd_cases as [(-> & _)|(-> & _)]; reflexivity|].
    destruct (Z.eqb_spec k 1) as [->|]; [destruct odd_cases as [(-> & _)|(-> & _)]; reflexivity|reflexivity]. }
  rewrite (N 0), (N 1). cbn [Z.eqb Pos.eqb]. reflexivity.
Qed.
Lemma wsum_eq : forall dmp, wsum px dmp LS = wsum px dmp LM.
Proof. clear. intros. unfold wsum, LS, LM. cbn [fold_right]. lia. Qed.
Lemma perm : forall P : Z * Z * option Z -> Prop, Forall P LS <-> Forall P LM.
Proof. clear. intros P. unfold LS, LM. rewrite !Forall_cons_iff. tauto. Qed.
Lemma result_ok : exists mx mn, result = S.Clip3 mn mx (px + round_sum (wsum px damping LM)) /\ bounds px LM px px mx mn /\ 0 <= mn <= px /\ px <= mx < 2 ^ bd.
Proof. clear HT HY HX HSS HD HSec HPri.
  rewrite spec_form. destruct (run_spec px damping px_range LS 0 px px ltac:(lia)) as (mx & mn & E & B). rewrite E. exists mx, mn.
  rewrite round_eq, wsum_eq, Z.add_0_l. split; [reflexivity|].
  assert (BM : bounds px LM px px mx mn) by (destruct B as (B1 & B2); split; intros z; rewrite <- perm; [apply B1|apply B2]). split; [exact BM|].
  destruct BM as (B1 & B2). pose proof (proj1 (B1 mx) ltac:(lia)) as (U & _). pose proof (proj1 (B2 mn) ltac:(lia)) as (D & _).
  assert (OK : forall d k s, 0 <= d < 8 -> 0 <= k < 2 -> s = 1 \/ s = -1 -> 0 <= pv px (nbs d k s) <= 2 ^ bd - 1).
  { intros d k s Hd Hk Hs. destruct (offset_small d k Hd Hk). unfold nbs.
    pose proof (HR (s * fst (offset d k)) (s * snd (offset d k)) ltac:(destruct Hs; subst; lia) ltac:(destruct Hs; subst; lia)) as Q.
    unfold pv. destruct (nb _ _); lia. }
  assert (0 <= mn).
  { apply B2. split; [lia|]. unfold LM. pose proof (land7 (dir + 2)). pose proof (land7 (dir + -2)). repeat (apply Forall_cons; [cbn [snd]; apply OK; unfold dp, dm; lia|]). apply Forall_nil. }
  assert (mx <= 2 ^ bd - 1).
  { apply B1. split; [lia|]. unfold LM. pose proof (land7 (dir + 2)). pose proof (land7 (dir + -2)). repeat (apply Forall_cons; [cbn [snd]; apply OK; unfold dp, dm; lia|]). apply Forall_nil. }
  lia.
Qed.
Lemma result_range : 0 <= result < 2 ^ bd.
Proof. clear HT HY HX HSS HD HSec HPri. destruct result_ok as (mx & mn & -> & _ & H1 & H2). unfold S.Clip3. destruct (Z.ltb_spec (px + round_sum (wsum px damping LM)) mn), (Z.ltb_spec mx (px + round_sum (wsum px damping LM))); lia. Qed.

Lemma sec_shift_eq : sec <> 0 -> damping - ulog2 sec = shift_of damping sec.
Proof. intros H. unfold shift_of. rewrite Z.max_r by (apply HSS; exact H). reflexivity. Qed.
Lemma pri_tap_eq : 4 - Z.land (Z.shiftr pri (bd - 8)) 1 = w0 /\ Z.lor (Z.land w0 3) 2 = w1.
Proof. clear - HB.
  assert (E : Z.land (Z.shiftr pri (bd - 8)) 1 = odd) by (unfold odd, S.coeffShift; fold bd; rewrite Z.shiftr_div_pow2 by lia; reflexivity). rewrite E.
  destruct odd_cases as [(-> & -> & ->)|(-> & -> & ->)]; split; reflexivity.
Qed.
Ltac unroll := unfold for_; replace (Z.to_nat (2 - 0)) with 2%nat by reflexivity; cbn [ofor]; change (0 + 1) with 1.

Lemma filter_both_ok : pri <> 0 -> sec <> 0 ->
  filter_both tmp dir (cell y x) px pri sec w0 (shift_of damping pri) (damping - ulog2 sec) = Ok result.
Proof.
  intros NP NS. rewrite (sec_shift_eq NS). unfold filter_both. unroll.
  rewrite (pri_taps_ok 0), (sec_taps_ok 0), (pri_taps_ok 1), (sec_taps_ok 1) by lia. cbn [obind].
  destruct pri_tap_eq as (_ & EW). rewrite EW. change (2 - 0) with 2. change (2 - 1) with 1.
  destruct result_ok as (mx & mn & -> & B & _ & _).
  destruct (run_model px damping px_range HD LM 0 px px) as (mx' & mn' & E & B').
  - pose proof (land7 (dir + 2)). pose proof (land7 (dir + -2)). unfold LM.
    repeat (apply Forall_cons; [cbn [fst snd]; split; [apply nbs_ok; unfold dp, dm; lia|lia]|]). apply Forall_nil.
  - pose proof px_range. lia.
  - lia.
  - assert (Q : forall P : Z * Z * option Z -> Prop, Forall P LM <-> Forall P LM) by (intros; reflexivity).
    destruct (bounds_unique px LM LM px px mx mn mx' mn' Q B B') as (-> & ->).
    unfold LM, mstep in E. cbn [fold_left] in E. injection E as E1 E2 E3. rewrite E1, E2, E3. reflexivity.
Qed.
(** Twelve sixteenths of the differences do not need clipping. *)
Lemma noclip : forall mx mn s, mn <= px <= mx -> 12 * (mn - px) <= s <= 12 * (mx - px) -> S.Clip3 mn mx (px + round_sum s) = px + round_sum s.
Proof. clear.
  intros mx mn s H1 H2. unfold S.Clip3, round_sum. rewrite Z.shiftr_div_pow2 by lia. change (2 ^ 4) with 16.
  destruct (Z.ltb_spec s 0).
  - assert (mn - px <= (s - 1 + 8) / 16) by (apply Z.div_le_lower_bound; lia). assert ((s - 1 + 8) / 16 < 1) by (apply Z.div_lt_upper_bound; lia).
    set (q := (s - 1 + 8) / 16) in *. destruct (Z.ltb_spec (px + q) mn), (Z.ltb_spec mx (px + q)); lia.
  - assert (0 <= (s - 0 + 8) / 16) by (apply Z.div_pos; lia). assert ((s - 0 + 8) / 16 < mx - px + 1) by (apply Z.div_lt_upper_bound; lia).
    set (q := (s - 0 + 8) / 16) in *. destruct (Z.ltb_spec (px + q) mn), (Z.ltb_spec mx (px + q)); lia.
Qed.
Lemma filter_pri_ok : pri <> 0 -> sec = 0 -> filter_pri tmp dir (cell y x) px pri w0 (shift_of damping pri) = Ok result.
Proof.
  intros NP NS. unfold filter_pri. unroll. rewrite (pri_taps_ok 0), (pri_taps_ok 1) by lia. cbn [obind].
  destruct pri_tap_eq as (_ & EW). rewrite EW.
  destruct result_ok as (mx & mn & -> & B & M1 & M2).
  assert (CE : forall k s, 0 <= k < 2 -> s = 1 \/ s = -1 -> constrain (val (nbs dir k s) - px) pri (shift_of damping pri) = con px damping pri (nbs dir k s)).
  { intros k s Hk Hs. apply con_eq; [apply px_range|exact HD|apply nbs_ok; assumption|lia]. }
  rewrite !CE by lia.
  assert (EQ : wsum px damping LM = 0 + w0 * con px damping pri (nbs dir 0 1) + w0 * con px damping pri (nbs dir 0 (-1)) + w1 * con px damping pri (nbs dir 1 1) + w1 * con px damping pri (nbs dir 1 (-1))).
  { unfold wsum, LM. cbn [fold_right]. rewrite NS, !con_zero. lia. }
  rewrite EQ. f_equal. symmetry. apply noclip; [lia|].
  destruct B as (B1 & B2). pose proof (proj1 (B1 mx) ltac:(lia)) as (_ & U). pose proof (proj1 (B2 mn) ltac:(lia)) as (_ & D).
  unfold LM in U, D. rewrite !Forall_cons_iff in U, D. cbn [snd] in U, D.
  destruct U as (U1 & U2 & _ & _ & _ & _ & U3 & U4 & _). destruct D as (D1 & D2 & _ & _ & _ & _ & D3 & D4 & _).
  pose proof (con_bound px damping pri _ mn mx ltac:(lia) ltac:(lia) (conj D1 U1)). pose proof (con_bound px damping pri _ mn mx ltac:(lia) ltac:(lia) (conj D2 U2)).
  pose proof (con_bound px damping pri _ mn mx ltac:(lia) ltac:(lia) (conj D3 U3)). pose proof (con_bound px damping pri _ mn mx ltac:(lia) ltac:(lia) (conj D4 U4)).
  destruct odd_cases as [(_ & -> & ->)|(_ & -> & ->)]; lia.
Qed.
Lemma filter_sec_ok : pri = 0 -> sec <> 0 -> filter_sec tmp dir (cell y x) px sec (damping - ulog2 sec) = Ok result.
Proof.
  intros NP NS. rewrite (sec_shift_eq NS). unfold filter_sec. unroll. rewrite (sec_taps_ok 0), (sec_taps_ok 1) by lia. cbn [obind].
  change (2 - 0) with 2. change (2 - 1) with 1.
  destruct result_ok as (mx & mn & -> & B & M1 & M2).
  pose proof (land7 (dir + 2)). pose proof (land7 (dir + -2)).
  assert (CE : forall d k s, d = dp \/ d = dm -> 0 <= k < 2 -> s = 1 \/ s = -1 -> constrain (val (nbs d k s) - px) sec (shift_of damping sec) = con px damping sec (nbs d k s)).
  { intros d k s Hd Hk Hs. apply con_eq; [apply px_range|exact HD|apply nbs_ok; try assumption; destruct Hd; subst d; assumption|lia]. }
  rewrite !CE by (auto; lia).
  set (k1 := con px damping sec (nbs dp 0 1)). set (k2 := con px damping sec (nbs dp 0 (-1))). set (k3 := con px damping sec (nbs dm 0 1)). set (k4 := con px damping sec (nbs dm 0 (-1))).
  set (k5 := con px damping sec (nbs dp 1 1)). set (k6 := con px damping sec (nbs dp 1 (-1))). set (k7 := con px damping sec (nbs dm 1 1)). set (k8 := con px damping sec (nbs dm 1 (-1))).
  assert (EQ : wsum px damping LM = 0 + 2 * k1 + 2 * k2 + 2 * k3 + 2 * k4 + 1 * k5 + 1 * k6 + 1 * k7 + 1 * k8).
  { unfold wsum, LM. cbn [fold_right]. rewrite NP, !con_zero. fold k1 k2 k3 k4 k5 k6 k7 k8. lia. }
  rewrite EQ. f_equal. symmetry. apply noclip; [lia|].
  destruct B as (B1 & B2). pose proof (proj1 (B1 mx) ltac:(lia)) as (_ & U). pose proof (proj1 (B2 mn) ltac:(lia)) as (_ & D).
  unfold LM in U, D. rewrite !Forall_cons_iff in U, D. cbn [snd] in U, D.
  destruct U as (_ & _ & U1 & U2 & U3 & U4 & _ & _ & U5 & U6 & U7 & U8 & _). destruct D as (_ & _ & D1 & D2 & D3 & D4 & _ & _ & D5 & D6 & D7 & D8 & _).
  pose proof (con_bound px damping sec _ mn mx ltac:(lia) ltac:(lia) (conj D1 U1)). pose proof (con_bound px damping sec _ mn mx ltac:(lia) ltac:(lia) (conj D2 U2)).
  pose proof (con_bound px damping sec _ mn mx ltac:(lia) ltac:(lia) (conj D3 U3)). pose proof (con_bound px damping sec _ mn mx ltac:(lia) ltac:(lia) (conj D4 U4)).
  pose proof (con_bound px damping sec _ mn mx ltac:(lia) ltac:(lia) (conj D5 U5)). pose proof (con_bound px damping sec _ mn mx ltac:(lia) ltac:(lia) (conj D6 U6)).
  pose proof (con_bound px damping sec _ mn mx ltac:(lia) ltac:(lia) (conj D7 U7)). pose proof (con_bound px damping sec _ mn mx ltac:(lia) ltac:(lia) (conj D8 U8)).
  unfold k1, k2, k3, k4, k5, k6, k7, k8. lia.
Qed.
(** Without strengths the pixel does not change. *)
Lemma filter_none : pri = 0 -> sec = 0 -> result = px.
Proof. clear HT HY HX HSS HD HSec HPri.
  intros NP NS. destruct result_ok as (mx & mn & -> & B & M1 & M2).
  assert (EQ : wsum px damping LM = 0) by (unfold wsum, LM; cbn [fold_right]; rewrite NP, NS, !con_zero; lia). rewrite EQ.
  rewrite noclip by lia. change (round_sum 0) with 0. lia.
Qed.
End Pix.

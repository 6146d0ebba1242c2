(** generate_scaling computes scale_lut. *)
From Coq Require Import ZArith List Bool Lia.
From Verif Require Import Base.CInt Base.Lemmas Base.Loop Obu.FrameModel Obu.FrameRel.
From Verif Require Import Grain.Model Grain.Spec Grain.Arith Grain.Scaling.
Import ListNotations.
Open Scope Z_scope.

Lemma set1_same : forall a i v, set1 a i v i = Some v.
Proof. intros. unfold set1. rewrite Z.eqb_refl. reflexivity. Qed.
Lemma set1_other : forall a i v j, j <> i -> set1 a i v j = a j.
Proof. intros a i v j H. unfold set1. destruct (Z.eqb_spec j i); [congruence|reflexivity]. Qed.
Lemma fill1_in : forall a i len v j, i <= j < i + len -> fill1 a i len v j = Some v.
Proof. intros. unfold fill1. destruct (Z.leb_spec i j), (Z.ltb_spec j (i + len)); try lia. reflexivity. Qed.
Lemma fill1_out : forall a i len v j, j < i \/ i + len <= j -> fill1 a i len v j = a j.
Proof. intros. unfold fill1. destruct (Z.leb_spec i j), (Z.ltb_spec j (i + len)); try lia; reflexivity. Qed.
Lemma u8_id : forall v, 0 <= v <= 255 -> u8 v = v.
Proof. intros v H. unfold u8. apply Z.mod_small. change (2 ^ 8) with 256. lia. Qed.

Section Gen.
Variable v : video.
Variable pts : list (Z * Z).
Hypothesis HB : bdok (BitDepth v).
Hypothesis W : points_wf pts.
Let bd := BitDepth v.
Let pad := 2 ^ (bd - 8).
Let size := 2 ^ bd.
Notation X := (px pts).
Notation Y := (py pts).
Notation N := (np pts).
Notation L := (ScalingLut pts).

Lemma pad_cases : (bd = 8 /\ pad = 1 /\ size = 256 /\ scaling_size bd = 256) \/ (bd = 10 /\ pad = 4 /\ size = 1024 /\ scaling_size bd = 4096) \/
  (bd = 12 /\ pad = 16 /\ size = 4096 /\ scaling_size bd = 4096).
Proof. unfold pad, size. destruct HB as [E|[E|E]]; fold bd in E; rewrite E; [left|right; left|right; right]; repeat split; reflexivity. Qed.
Lemma bd8 : 8 <= bd.
Proof. apply bdok_8. exact HB. Qed.

Lemma scale_lut_pos : forall x n, 0 <= n < pad -> 0 <= x <= 255 ->
  scale_lut v pts (x * pad + n) = if (bd =? 8) || (x =? 255) then L x else L x + Round2 ((L (x + 1) - L x) * n) (bd - 8).
Proof.
  intros x n Hn Hx. unfold scale_lut. cbv zeta. fold bd. fold pad.
  assert (P : 0 < pad) by (unfold pad; apply pow2_pos; pose proof bd8; lia).
  replace ((x * pad + n) / pad) with x by (rewrite Z.div_add_l, Z.div_small by lia; lia).
  replace (x * pad + n - x * pad) with n by lia. reflexivity.
Qed.
Lemma Round2_0 : forall n, 0 <= n -> Round2 0 n = 0.
Proof. intros n H. pose proof (Round2_bound 0 n 0 0 H ltac:(lia)). lia. Qed.
Lemma scale_lut_flat : forall x n y, 0 <= n < pad -> 0 <= x <= 255 -> L x = y -> L (x + 1) = y -> scale_lut v pts (x * pad + n) = y.
Proof.
  intros x n y Hn Hx E1 E2. rewrite scale_lut_pos by assumption. rewrite E1, E2. rewrite Z.sub_diag, Z.mul_0_l, Round2_0 by (pose proof bd8; lia).
  destruct ((bd =? 8) || (x =? 255)); lia.
Qed.
Lemma scale_lut_0 : forall x, 0 <= x <= 255 -> scale_lut v pts (x * pad) = L x.
Proof.
  intros x Hx. replace (x * pad) with (x * pad + 0) by lia.
  assert (P : 0 < pad) by (unfold pad; apply pow2_pos; pose proof bd8; lia).
  rewrite scale_lut_pos by lia. rewrite Z.mul_0_r, Round2_0 by (pose proof bd8; lia). destruct ((bd =? 8) || (x =? 255)); lia.
Qed.
Lemma interp_range : forall a b n, 0 <= a <= 255 -> 0 <= b <= 255 -> 0 <= n <= pad -> 0 <= a + Round2 ((b - a) * n) (bd - 8) <= 255.
Proof.
  intros a b n Ha Hb Hn. pose proof bd8.
  assert (R : Z.min 0 (b - a) <= Round2 ((b - a) * n) (bd - 8) <= Z.max 0 (b - a)).
  { apply Round2_bound; [lia|]. fold pad. destruct (Z.le_gt_cases a b).
    - rewrite Z.min_l, Z.max_r by lia. nia.
    - rewrite Z.min_r, Z.max_l by lia. nia. }
  lia.
Qed.

Definition goal (a : arr) : Prop := forall i, 0 <= i < size -> a i = Some (scale_lut v pts i) /\ 0 <= scale_lut v pts i <= 255.

Lemma gen_empty : pts = [] -> exists a, generate_scaling bd pts = Ok a /\ goal a.
Proof.
  intros E. unfold generate_scaling. cbv zeta. rewrite E. change (zlen (@nil (Z * Z)) =? 0) with true. cbn iota.
  assert (S : (if bd =? 8 then scaling_size bd else Z.shiftl 1 bd) = size).
  { pose proof bd8. rewrite shiftl_mul by lia. rewrite Z.mul_1_l. fold size. destruct pad_cases as [(E1 & E2 & E3 & E4)|[(E1 & E2 & E3 & E4)|(E1 & E2 & E3 & E4)]]; rewrite E1 in *; cbn [Z.eqb Pos.eqb]; congruence. }
  rewrite S. rewrite memset1_ok by (destruct pad_cases; lia). eexists. split; [reflexivity|].
  intros i Hi. assert (P : 0 < pad) by (destruct pad_cases; lia).
  assert (D : scale_lut v pts i = 0).
  { replace i with (i / pad * pad + i mod pad) by (rewrite (Z.div_mod i pad) at 3; lia). apply scale_lut_flat.
    - apply Z.mod_pos_bound. lia.
    - destruct pad_cases as [(_ & -> & ? & _)|[(_ & -> & ? & _)|(_ & -> & ? & _)]]; lia.
    - rewrite E. reflexivity.
    - rewrite E. reflexivity. }
  rewrite D, fill1_in by lia. split; [reflexivity|lia].
Qed.

Hypothesis NE : pts <> [].

(** After the first loop, [x] points from the left: the cells of the points up to [x]. *)
Definition coarse (a : arr) (x : Z) : Prop :=
  (forall u, 0 <= u < x -> a (u * pad) = Some (L u)) /\ (forall i, 0 <= i < X 0 * pad -> a i = Some (Y 0)).

Lemma point_at : forall i, 0 <= i < N -> rd_at pts i = Ok (nth (Z.to_nat i) pts (0, 0)).
Proof. intros i Hi. apply rd_at_nth. exact Hi. Qed.

Lemma phase2 : forall a, coarse a (X 0) ->
  exists a', for_ 0 (N - 1) (fun i a =>
      obind (rd_at pts i) (fun b =>
      obind (rd_at pts (i + 1)) (fun e =>
      let dx := fst e - fst b in
      let dy := snd e - snd b in
      if 0 <? dx then
      obind (ck (dy * ((65536 + Z.shiftr dx 1) / dx))) (fun delta =>
      obind
        (for_ 0 dx (fun x st =>
          let '(a, d) := st in
          obind (wr1 (scaling_size bd) a (Z.shiftl (fst b + x) (bd - 8)) (u8 (snd b + Z.shiftr d 16))) (fun a =>
          obind (ck (d + delta)) (fun d =>
          Ok (a, d)))) (a, 32768)) (fun '(a, _) =>
      Ok a)) else Undef))) a = Ok a' /\ coarse a' (X (N - 1)).
Proof.
  intros a0 H0. pose proof (np_pos pts W NE) as NP.
  apply (for_inv _ (fun i a => coarse a (X i))); [lia|exact H0|].
  intros i a Hi C. rewrite !point_at by lia. cbn [obind]. cbv zeta.
  change (fst (nth (Z.to_nat (i + 1)) pts (0, 0))) with (X (i + 1)). change (fst (nth (Z.to_nat i) pts (0, 0))) with (X i).
  change (snd (nth (Z.to_nat (i + 1)) pts (0, 0))) with (Y (i + 1)). change (snd (nth (Z.to_nat i) pts (0, 0))) with (Y i).
  pose proof (p_incr pts W i (i + 1) ltac:(lia) ltac:(lia)) as PI.
  pose proof (p_range pts W i ltac:(lia)) as (PX & PY). pose proof (p_range pts W (i + 1) ltac:(lia)) as (PX1 & PY1).
  pose proof (p_mono pts W 0 i ltac:(lia) ltac:(lia)) as PM.
  destruct (Z.ltb_spec 0 (X (i + 1) - X i)); [|lia].
  rewrite shiftr_div by lia. change (2 ^ 1) with 2. fold (slope (X (i + 1) - X i) (Y (i + 1) - Y i)).
  pose proof (slope_abs (X (i + 1) - X i) (Y (i + 1) - Y i) ltac:(lia) ltac:(lia)) as (SA & SB).
  set (dl := slope (X (i + 1) - X i) (Y (i + 1) - Y i)) in *.
  rewrite ck_ok by (unfold INT_MIN, INT_MAX; lia). cbn [obind].
  destruct (for_inv _ (fun x (st : arr * Z) => coarse (fst st) (X i + x) /\ snd st = 32768 + x * dl)
    (fun x st =>
          let '(a, d) := st in
          obind (wr1 (scaling_size bd) a (Z.shiftl (X i + x) (bd - 8)) (u8 (Y i + Z.shiftr d 16))) (fun a =>
          obind (ck (d + dl)) (fun d => Ok (a, d)))) 0 (X (i + 1) - X i) (a, 32768)) as ([a' d'] & E & C' & _).
  - lia.
  - split; [|cbn [snd]; lia]. cbn [fst]. replace (X i + 0) with (X i) by lia. exact C.
  - intros x [b d] Hx (Cb & Ed). cbn [fst snd] in *. subst d.
    rewrite shiftl_mul by (pose proof bd8; lia). fold pad. rewrite shiftr_div by lia. change (2 ^ 16) with 65536.
    pose proof (lut_at pts W NE i (X i + x) ltac:(lia) ltac:(lia) ltac:(lia)) as LA. fold dl in LA.
    replace (X i + x - X i) with x in LA by lia. replace (x * dl + 32768) with (32768 + x * dl) in LA by lia.
    rewrite <- LA. pose proof (lut_range pts W NE (X i + x)) as LR. rewrite u8_id by lia.
    assert (PP : 0 < pad /\ 255 * pad < scaling_size bd) by (destruct pad_cases as [(_ & -> & _ & ->)|[(_ & -> & _ & ->)|(_ & -> & _ & ->)]]; lia).
    rewrite wr1_ok by nia. cbn [obind].
    assert (DX : -16800000 <= (x + 1) * dl <= 16800000) by nia.
    rewrite ck_ok by (unfold INT_MIN, INT_MAX; lia). cbn [obind]. eexists. split; [reflexivity|]. cbn [fst snd].
    split; [|lia]. destruct Cb as (C1 & C2). split.
    + intros u Hu. destruct (Z.eq_dec u (X i + x)) as [->|].
      * apply set1_same.
      * rewrite set1_other by nia. apply C1. lia.
    + intros j Hj. rewrite set1_other by nia. apply C2. exact Hj.
  - rewrite E. cbn [obind fst] in *. exists a'. split; [reflexivity|].
    replace (X i + (X (i + 1) - X i)) with (X (i + 1)) in C' by lia. exact C'.
Qed.

(** Before the second loop: all multiples of [pad] and both ends. *)
Definition fine (a : arr) (x : Z) : Prop :=
  (forall u, 0 <= u <= 255 -> a (u * pad) = Some (L u)) /\
  (forall i, 0 <= i < x * pad -> a i = Some (scale_lut v pts i)) /\
  (forall i, X (N - 1) * pad <= i < size -> a i = Some (scale_lut v pts i)).

Lemma size_eq : size = 256 * pad.
Proof. destruct pad_cases as [(_ & -> & -> & _)|[(_ & -> & -> & _)|(_ & -> & -> & _)]]; reflexivity. Qed.
Lemma pad_pos : 0 < pad.
Proof. unfold pad. apply pow2_pos. pose proof bd8. lia. Qed.
Lemma split_at : forall i, 0 <= i < size -> i = i / pad * pad + i mod pad /\ 0 <= i / pad <= 255 /\ 0 <= i mod pad < pad.
Proof.
  intros i Hi. pose proof pad_pos as P. pose proof (Z.div_mod i pad ltac:(lia)) as D. pose proof (Z.mod_pos_bound i pad P) as M.
  rewrite size_eq in Hi. split; [lia|]. split; [|exact M]. split; [apply Z.div_pos; lia|].
  assert (i / pad < 256); [|lia]. apply Z.div_lt_upper_bound; lia.
Qed.

Lemma phase3 : forall a, coarse a (X (N - 1)) ->
  fine (fill1 a (X (N - 1) * pad) (size - X (N - 1) * pad) (Y (N - 1))) (X 0).
Proof.
  intros a (C1 & C2). pose proof (np_pos pts W NE) as NP. pose proof pad_pos as P.
  pose proof (p_range pts W (N - 1) ltac:(lia)) as (PX & PY). pose proof (p_range pts W 0 ltac:(lia)) as (PX0 & PY0).
  pose proof (p_mono pts W 0 (N - 1) ltac:(lia) ltac:(lia)) as PM. pose proof size_eq as SE.
  assert (B : forall i, 0 <= i < X 0 * pad -> scale_lut v pts i = Y 0).
  { intros i Hi. destruct (split_at i ltac:(nia)) as (D1 & D2 & D3). assert (i / pad < X 0) by nia. rewrite D1.
    apply scale_lut_flat; [lia|lia|apply lut_before; auto; lia|].
    destruct (Z.eq_dec (i / pad + 1) (X 0)) as [->|]; [apply lut_first; auto|apply lut_before; auto; lia]. }
  assert (E : forall i, X (N - 1) * pad <= i < size -> scale_lut v pts i = Y (N - 1)).
  { intros i Hi. destruct (split_at i ltac:(nia)) as (D1 & D2 & D3). assert (X (N - 1) <= i / pad) by nia. rewrite D1.
    apply scale_lut_flat; [lia|lia|apply lut_last; auto; lia|apply lut_last; auto; lia]. }
  split; [|split].
  - intros u Hu. destruct (Z.ltb_spec u (X (N - 1))).
    + rewrite fill1_out by nia. apply C1. lia.
    + rewrite fill1_in by nia. f_equal. symmetry. apply lut_last; auto.
  - intros i Hi. rewrite B by exact Hi. rewrite fill1_out by nia. apply C2. exact Hi.
  - intros i Hi. rewrite E by exact Hi. apply fill1_in. lia.
Qed.

Lemma phase4 : forall a, bd <> 8 -> fine a (X 0) ->
  exists a', for_ 0 (N - 1) (fun i a =>
    obind (rd_at pts i) (fun b =>
    obind (rd_at pts (i + 1)) (fun e =>
    let bx := Z.shiftl (fst b) (bd - 8) in
    let ex := Z.shiftl (fst e) (bd - 8) in
    let dx := ex - bx in
    for_ 0 (Z.shiftr dx (bd - 8)) (fun k a =>
      let x := k * Z.shiftl 1 (bd - 8) in
      obind (rd1 (scaling_size bd) a (bx + x + Z.shiftl 1 (bd - 8))) (fun hi =>
      obind (rd1 (scaling_size bd) a (bx + x)) (fun lo =>
      let range := hi - lo in
      obind
        (for_ 1 (Z.shiftl 1 (bd - 8)) (fun n st =>
          let '(a, r) := st in
          let r := r + range in
          obind (rd1 (scaling_size bd) a (bx + x)) (fun lo =>
          obind (wr1 (scaling_size bd) a (bx + x + n) (u8 (lo + Z.shiftr r (bd - 8)))) (fun a =>
          Ok (a, r)))) (a, Z.shiftr (Z.shiftl 1 (bd - 8)) 1)) (fun '(a, _) =>
      Ok a)))) a))) a = Ok a' /\ fine a' (X (N - 1)).
Proof.
  intros a0 NB H0. pose proof (np_pos pts W NE) as NP. pose proof bd8 as B8. pose proof pad_pos as P. pose proof size_eq as SE.
  assert (SS : size <= scaling_size bd) by (clear H0; pose proof pad_cases as PC; lia).
  apply (for_inv _ (fun i a => fine a (X i))); [lia|exact H0|].
  intros i a Hi C. rewrite !point_at by lia. cbn [obind]. cbv zeta.
  change (fst (nth (Z.to_nat (i + 1)) pts (0, 0))) with (X (i + 1)). change (fst (nth (Z.to_nat i) pts (0, 0))) with (X i).
  pose proof (p_incr pts W i (i + 1) ltac:(lia) ltac:(lia)) as PI.
  pose proof (p_range pts W i ltac:(lia)) as (PX & PY). pose proof (p_range pts W (i + 1) ltac:(lia)) as (PX1 & PY1).
  pose proof (p_mono pts W (i + 1) (N - 1) ltac:(lia) ltac:(lia)) as PM.
  rewrite !shiftl_mul, Z.mul_1_l by lia. fold pad.
  replace (Z.shiftr (X (i + 1) * pad - X i * pad) (bd - 8)) with (X (i + 1) - X i).
  2:{ rewrite shiftr_div by lia. fold pad. rewrite <- Z.mul_sub_distr_r. symmetry. apply Z.div_mul. lia. }
  destruct (for_inv _ (fun k a => fine a (X i + k))
    (fun k a =>
      obind (rd1 (scaling_size bd) a (X i * pad + k * pad + pad)) (fun hi =>
      obind (rd1 (scaling_size bd) a (X i * pad + k * pad)) (fun lo =>
      obind
        (for_ 1 pad (fun n st =>
          let '(a, r) := st in
          obind (rd1 (scaling_size bd) a (X i * pad + k * pad)) (fun lo0 =>
          obind (wr1 (scaling_size bd) a (X i * pad + k * pad + n) (u8 (lo0 + Z.shiftr (r + (hi - lo)) (bd - 8)))) (fun a =>
          Ok (a, r + (hi - lo))))) (a, Z.shiftr pad 1)) (fun '(a, _) => Ok a)))) 0 (X (i + 1) - X i) a) as (a' & E & C').
  - lia.
  - replace (X i + 0) with (X i) by lia. exact C.
  - clear a C. intros k a Hk (C1 & C2 & C3). set (u := X i + k) in *.
    assert (HU : 0 <= u < 255 /\ u < X (N - 1)) by (unfold u; lia).
    replace (X i * pad + k * pad) with (u * pad) by (unfold u; lia).
    replace (u * pad + pad) with ((u + 1) * pad) by lia.
    rewrite (rd1_ok _ _ _ (L (u + 1))); [|nia|apply C1; lia]. cbn [obind].
    rewrite (rd1_ok _ _ _ (L u)); [|nia|apply C1; lia]. cbn [obind].
    pose proof (lut_range pts W NE u) as R0. pose proof (lut_range pts W NE (u + 1)) as R1.
    set (R := L (u + 1) - L u).
    assert (SL : forall n, 0 <= n < pad -> scale_lut v pts (u * pad + n) = L u + Round2 (R * n) (bd - 8)).
    { intros n Hn. rewrite scale_lut_pos by lia. destruct (Z.eqb_spec bd 8), (Z.eqb_spec u 255); try lia. reflexivity. }
    destruct (for_inv _ (fun n (st : arr * Z) => snd st = Z.shiftr pad 1 + (n - 1) * R /\
        (forall j, fst st j = if (u * pad + 1 <=? j) && (j <? u * pad + n) then Some (scale_lut v pts j) else a j))
      (fun n st =>
          let '(a, r) := st in
          obind (rd1 (scaling_size bd) a (u * pad)) (fun lo0 =>
          obind (wr1 (scaling_size bd) a (u * pad + n) (u8 (lo0 + Z.shiftr (r + R) (bd - 8)))) (fun a =>
          Ok (a, r + R)))) 1 pad (a, Z.shiftr pad 1)) as ([a' r'] & E' & _ & C').
    + lia.
    + cbn [fst snd]. split; [lia|]. intros j. destruct (Z.leb_spec (u * pad + 1) j), (Z.ltb_spec j (u * pad + 1)); try lia; reflexivity.
    + intros n [b r] Hn (Er & Cb). cbn [fst snd] in *. subst r.
      rewrite (rd1_ok _ _ _ (L u)); [|nia|].
      2:{ rewrite Cb. destruct (Z.leb_spec (u * pad + 1) (u * pad)); [lia|]. cbn [andb]. apply C1. lia. }
      cbn [obind]. rewrite wr1_ok by nia. cbn [obind]. eexists. split; [reflexivity|]. cbn [fst snd].
      split; [lia|]. intros j.
      assert (V : L u + Z.shiftr (Z.shiftr pad 1 + (n - 1) * R + R) (bd - 8) = scale_lut v pts (u * pad + n)).
      { rewrite SL by lia. f_equal. rewrite <- round2_ok by lia. unfold round2. rewrite (shiftl_mul 1), Z.mul_1_l by lia. fold pad. f_equal. lia. }
      rewrite V. rewrite u8_id.
      2:{ rewrite SL by lia. apply interp_range; lia. }
      unfold set1. destruct (Z.eqb_spec j (u * pad + n)) as [->|].
      * destruct (Z.leb_spec (u * pad + 1) (u * pad + n)), (Z.ltb_spec (u * pad + n) (u * pad + (n + 1))); try lia. reflexivity.
      * rewrite Cb. destruct (Z.leb_spec (u * pad + 1) j), (Z.ltb_spec j (u * pad + n)), (Z.ltb_spec j (u * pad + (n + 1))); try lia; reflexivity.
    + rewrite E'. cbn [obind fst] in *. exists a'. split; [reflexivity|]. replace (X i + (k + 1)) with (u + 1) by (unfold u; lia).
      split; [|split].
      * intros w Hw. rewrite C'. destruct (Z.leb_spec (u * pad + 1) (w * pad)), (Z.ltb_spec (w * pad) (u * pad + pad)); cbn [andb]; try (apply C1; lia).
        assert (u < w < u + 1) by nia. lia.
      * intros j Hj. rewrite C'. destruct (Z.leb_spec (u * pad + 1) j), (Z.ltb_spec j (u * pad + pad)); cbn [andb]; try lia; [reflexivity|].
        destruct (Z.eq_dec j (u * pad)) as [->|]; [|apply C2; lia]. rewrite scale_lut_0 by lia. apply C1. lia.
      * intros j Hj. rewrite C'. destruct (Z.leb_spec (u * pad + 1) j), (Z.ltb_spec j (u * pad + pad)); cbn [andb]; try (apply C3; lia). nia.
  - rewrite E. exists a'. split; [reflexivity|]. replace (X i + (X (i + 1) - X i)) with (X (i + 1)) in C' by lia. exact C'.
Qed.

Lemma fine_goal : forall a, fine a (X (N - 1)) -> goal a.
Proof.
  intros a (C1 & C2 & C3) i Hi. split.
  - destruct (Z.ltb_spec i (X (N - 1) * pad)); [apply C2; lia|apply C3; lia].
  - destruct (split_at i Hi) as (D1 & D2 & D3). rewrite D1, scale_lut_pos by assumption.
    pose proof (lut_range pts W NE (i / pad)). pose proof (lut_range pts W NE (i / pad + 1)).
    destruct ((bd =? 8) || (i / pad =? 255)); [lia|]. apply interp_range; lia.
Qed.

Lemma gen_nonempty : exists a, generate_scaling bd pts = Ok a /\ goal a.
Proof.
  pose proof (np_pos pts W NE) as NP. pose proof bd8 as B8. pose proof pad_pos as P. pose proof size_eq as SE.
  unfold generate_scaling. cbv zeta. fold N. destruct (Z.eqb_spec N 0); [lia|].
  assert (S : (if bd =? 8 then scaling_size bd else Z.shiftl 1 bd) = size).
  { rewrite shiftl_mul by lia. rewrite Z.mul_1_l. fold size. destruct pad_cases as [(E1 & E2 & E3 & E4)|[(E1 & E2 & E3 & E4)|(E1 & E2 & E3 & E4)]]; rewrite E1 in *; cbn [Z.eqb Pos.eqb]; congruence. }
  assert (SS : size <= scaling_size bd) by (pose proof pad_cases as PC; lia).
  rewrite S. rewrite !point_at by lia. cbn [obind].
  pose proof (p_range pts W 0 ltac:(lia)) as (PX0 & PY0). pose proof (p_range pts W (N - 1) ltac:(lia)) as (PXN & PYN).
  change (fst (nth (Z.to_nat 0) pts (0, 0))) with (X 0). change (snd (nth (Z.to_nat 0) pts (0, 0))) with (Y 0).
  rewrite shiftl_mul by lia. fold pad. rewrite memset1_ok by nia. cbn [obind].
  destruct (phase2 (fill1 arr0 0 (X 0 * pad) (Y 0))) as (a2 & E2 & C2).
  { split; [|intros i Hi; apply fill1_in; lia]. intros u Hu. rewrite fill1_in by nia. f_equal. symmetry. apply lut_before; auto. lia. }
  cbv zeta in E2. rewrite E2. cbn [obind].
  change (fst (nth (Z.to_nat (N - 1)) pts (0, 0))) with (X (N - 1)). change (snd (nth (Z.to_nat (N - 1)) pts (0, 0))) with (Y (N - 1)).
  rewrite shiftl_mul by lia. fold pad. rewrite memset1_ok by nia. cbn [obind].
  pose proof (phase3 a2 C2) as C3. set (a3 := fill1 a2 _ _ _) in *.
  destruct (Z.eqb_spec bd 8) as [E8|N8].
  - exists a3. split; [reflexivity|]. apply fine_goal. destruct C3 as (F1 & F2 & F3).
    assert (P1 : pad = 1) by (unfold pad; rewrite E8; reflexivity).
    split; [exact F1|]. split; [|exact F3]. intros i Hi. rewrite P1 in *. rewrite <- (Z.mul_1_r i). rewrite F1 by lia. f_equal.
    rewrite <- P1. symmetry. apply scale_lut_0. lia.
  - destruct (phase4 a3 N8 C3) as (a4 & E4 & C4). exists a4. split; [exact E4|]. apply fine_goal. exact C4.
Qed.
End Gen.

Theorem generate_scaling_ok : forall v pts, bdok (BitDepth v) -> points_wf pts ->
  exists a, generate_scaling (BitDepth v) pts = Ok a /\
    forall i, 0 <= i < 2 ^ BitDepth v -> a i = Some (scale_lut v pts i) /\ 0 <= scale_lut v pts i <= 255.
Proof.
  intros v pts HB W. destruct pts as [|p l] eqn:E; [apply (gen_empty v [] HB); auto|].
  apply gen_nonempty; auto. congruence.
Qed.

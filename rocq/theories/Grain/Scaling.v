(** The scaling tables are those of the specification. *)
From Coq Require Import ZArith List Bool Lia.
From Verif Require Import Base.CInt Base.Lemmas Base.Loop Obu.FrameModel Obu.FrameRel Obu.FrameHist.
From Verif Require Import Grain.Model Grain.Spec Grain.Arith.
Import ListNotations.
Open Scope Z_scope.

Definition slope (dx dy : Z) : Z := dy * ((65536 + dx / 2) / dx).
Lemma slope_step : forall dx dy t, 0 < dx <= 255 -> -255 <= dy <= 255 -> 0 <= t < dx ->
  Z.min 0 dy <= (t * slope dx dy + 32768) / 65536 <= Z.max 0 dy.
Proof.
  intros dx dy t Hx Hy Ht. unfold slope. set (q := (65536 + dx / 2) / dx).
  assert (Q : q * dx <= 65536 + dx / 2 < q * dx + dx) by (unfold q; nia).
  assert (T : 0 <= t * q < 65536).
  { assert (257 <= q) by (apply Z.div_le_lower_bound; lia). assert (t * q <= (dx - 1) * q) by nia. nia. }
  replace (t * (dy * q) + 32768) with (dy * (t * q) + 32768) by lia. set (u := t * q) in *.
  split.
  - apply Z.div_le_lower_bound; [lia|]. destruct (Z.min_spec 0 dy) as [(M & ->)|(M & ->)]; nia.
  - apply Z.lt_succ_r. apply Z.div_lt_upper_bound; [lia|]. destruct (Z.max_spec 0 dy) as [(M & ->)|(M & ->)]; nia.
Qed.
Lemma slope_abs : forall dx dy, 0 < dx <= 255 -> -255 <= dy <= 255 -> -16800000 <= slope dx dy * dx <= 16800000 /\ -16800000 <= slope dx dy <= 16800000.
Proof.
  intros dx dy Hx Hy. unfold slope. set (q := (65536 + dx / 2) / dx).
  assert (Q : 0 <= q * dx <= 65663) by (unfold q; nia). assert (Q1 : 0 <= q <= 65663) by nia. nia.
Qed.

Lemma segments_at : forall l k x0 y0 x, points_wf ((x0, y0) :: l) -> (S k < length ((x0, y0) :: l))%nat ->
  let b := nth k ((x0, y0) :: l) (0, 0) in let e := nth (S k) ((x0, y0) :: l) (0, 0) in
  fst b <= x < fst e ->
  segments x0 y0 l x = snd b + ((x - fst b) * slope (fst e - fst b) (snd e - snd b) + 32768) / 65536.
Proof.
  induction l as [|[x1 y1] l IH]; intros k x0 y0 x W L b e Hx; [cbn in L; lia|].
  destruct W as (_ & _ & W3 & W4). cbn [fst snd] in W3. cbn [segments].
  destruct k as [|k].
  - subst b e. cbn [nth fst snd] in *. destruct (Z.ltb_spec x x1); [|lia]. unfold slope. reflexivity.
  - assert (X : x1 <= x).
    { assert (G : x1 <= fst b); [|lia]. subst b. cbn [nth]. destruct k as [|k]; [cbn; lia|].
      destruct (points_explicit _ W4) as (_ & O). specialize (O 0%nat (S k) ltac:(cbn [length] in *; lia)). cbn [nth fst] in O. cbn [nth]. lia. }
    destruct (Z.ltb_spec x x1); [lia|].
    apply (IH k x1 y1 x W4); [cbn [length] in *; lia|exact Hx].
Qed.
Lemma segments_end : forall l x0 y0 x, points_wf ((x0, y0) :: l) ->
  fst (last ((x0, y0) :: l) (0, 0)) <= x -> segments x0 y0 l x = snd (last ((x0, y0) :: l) (0, 0)).
Proof.
  induction l as [|[x1 y1] l IH]; intros x0 y0 x W Hx; [reflexivity|].
  destruct W as (_ & _ & W3 & W4). cbn [segments].
  change (last ((x0, y0) :: (x1, y1) :: l) (0, 0)) with (last ((x1, y1) :: l) (0, 0)) in *.
  assert (G : x1 <= fst (last ((x1, y1) :: l) (0, 0))).
  { destruct (points_explicit _ W4) as (_ & O). destruct l as [|z l]; [cbn; lia|].
    specialize (O 0%nat (S (length l)) ltac:(cbn [length]; lia)). cbn [nth fst] in O.
    assert (E : last ((x1, y1) :: z :: l) (0, 0) = nth (S (length l)) ((x1, y1) :: z :: l) (0, 0)).
    { clear. change (S (length l)) with (length (z :: l)). generalize (z :: l). clear. intros l. generalize (x1, y1). induction l as [|w l IH]; intros p; [reflexivity|].
      change (last (p :: w :: l) (0, 0)) with (last (w :: l) (0, 0)). rewrite IH. reflexivity. }
    rewrite E. cbn [nth]. lia. }
  destruct (Z.ltb_spec x x1); [lia|]. apply IH; auto.
Qed.
Lemma last_nth : forall (l : list (Z * Z)) d, l <> [] -> last l d = nth (length l - 1) l d.
Proof.
  induction l as [|a l IH]; intros d H; [congruence|]. destruct l as [|b l]; [reflexivity|].
  change (last (a :: b :: l) d) with (last (b :: l) d). rewrite IH by congruence. cbn [length].
  replace (S (S (length l)) - 1)%nat with (S (length l)) by lia. cbn [nth]. replace (S (length l) - 1)%nat with (length l) by lia. reflexivity.
Qed.

Section Pts.
Variable pts : list (Z * Z).
Hypothesis W : points_wf pts.
Hypothesis NE : pts <> [].
Definition px (i : Z) : Z := fst (nth (Z.to_nat i) pts (0, 0)).
Definition py (i : Z) : Z := snd (nth (Z.to_nat i) pts (0, 0)).
Definition np : Z := zlen pts.
Lemma np_pos : 1 <= np.
Proof. unfold np, zlen. destruct pts; [congruence|cbn [length]; lia]. Qed.
Lemma p_range : forall i, 0 <= i < np -> 0 <= px i <= 255 /\ 0 <= py i <= 255.
Proof.
  intros i Hi. destruct (points_explicit _ W) as (F & _).
  exact (Forall_nth_Z _ _ pts i (0, 0) F Hi).
Qed.
Lemma p_incr : forall i j, 0 <= i < j -> j < np -> px i < px j.
Proof.
  intros i j Hi Hj. destruct (points_explicit _ W) as (_ & O). apply O. unfold np, zlen in Hj. lia.
Qed.
Lemma p_mono : forall i j, 0 <= i <= j -> j < np -> px i <= px j.
Proof. intros i j Hi Hj. destruct (Z.eq_dec i j) as [->|]; [lia|]. pose proof (p_incr i j ltac:(lia) Hj). lia. Qed.
Lemma lut_before : forall x, x < px 0 -> ScalingLut pts x = py 0.
Proof.
  intros x Hx. unfold ScalingLut, px, py in *. destruct pts as [|[x0 y0] l]; [congruence|]. change (Z.to_nat 0) with 0%nat in *. cbn [nth fst snd] in Hx |- *.
  destruct (Z.ltb_spec x x0); [reflexivity|lia].
Qed.
Lemma lut_at : forall i x, 0 <= i -> i + 1 < np -> px i <= x < px (i + 1) ->
  ScalingLut pts x = py i + ((x - px i) * slope (px (i + 1) - px i) (py (i + 1) - py i) + 32768) / 65536.
Proof.
  intros i x Hi Hn Hx. pose proof (p_mono 0 i ltac:(lia) ltac:(lia)) as M. unfold np, zlen in Hn.
  unfold ScalingLut, px, py in *. destruct pts as [|[x0 y0] l]; [congruence|]. change (Z.to_nat 0) with 0%nat in M. change (fst (nth 0 ((x0, y0) :: l) (0, 0))) with x0 in M.
  destruct (Z.ltb_spec x x0); [lia|]. rewrite !(Z2Nat.inj_add i 1) in * by lia. change (Z.to_nat 1) with 1%nat in *. rewrite !Nat.add_1_r in *.
  apply (segments_at l (Z.to_nat i) x0 y0 x W); [lia|]. exact Hx.
Qed.
Lemma lut_last : forall x, px (np - 1) <= x -> ScalingLut pts x = py (np - 1).
Proof.
  intros x Hx. pose proof np_pos. pose proof (p_mono 0 (np - 1) ltac:(lia) ltac:(lia)) as M.
  unfold ScalingLut, px, py, np, zlen in *. destruct pts as [|[x0 y0] l]; [congruence|]. change (Z.to_nat 0) with 0%nat in M. change (fst (nth 0 ((x0, y0) :: l) (0, 0))) with x0 in M.
  rewrite !Z2Nat.inj_sub in * by lia. rewrite Nat2Z.id in *. change (Z.to_nat 1) with 1%nat in *.
  rewrite <- last_nth in * by congruence.
  destruct (Z.ltb_spec x x0); [lia|]. apply segments_end; assumption.
Qed.
Lemma lut_first : ScalingLut pts (px 0) = py 0.
Proof.
  pose proof np_pos. destruct (Z.eq_dec np 1) as [E|N].
  - rewrite lut_last by (rewrite E; change (1 - 1) with 0; lia). rewrite E. reflexivity.
  - rewrite (lut_at 0); [|lia|lia|pose proof (p_incr 0 1 ltac:(lia) ltac:(lia)); change (0 + 1) with 1; lia]. rewrite Z.sub_diag, Z.mul_0_l. change ((0 + 32768) / 65536) with 0. lia.
Qed.
Lemma which : forall x, x < px 0 \/ px (np - 1) <= x \/ exists i, 0 <= i /\ i + 1 < np /\ px i <= x < px (i + 1).
Proof.
  intros x. pose proof np_pos. destruct (Z.ltb_spec x (px 0)); [auto|].
  assert (G : forall n, 0 <= n -> n < np -> px n <= x \/ exists i, 0 <= i /\ i + 1 < np /\ px i <= x < px (i + 1)).
  { intros n Hn. pattern n. apply natlike_ind; [|clear n Hn|exact Hn].
    - intros _. left. lia.
    - intros n Hn IH Hl. unfold Z.succ in *. destruct (IH ltac:(lia)) as [L|R]; [|auto].
      destruct (Z.ltb_spec x (px (n + 1))); [right; exists n; lia|left; lia]. }
  destruct (G (np - 1)) as [L|R]; auto; lia.
Qed.
Lemma lut_range : forall x, 0 <= ScalingLut pts x <= 255.
Proof.
  intros x. pose proof np_pos as P. destruct (which x) as [A|[A|(i & A & B & C)]].
  - rewrite lut_before by assumption. apply p_range; lia.
  - rewrite lut_last by assumption. apply p_range; lia.
  - rewrite (lut_at i) by assumption. pose proof (p_range i ltac:(lia)). pose proof (p_range (i + 1) ltac:(lia)).
    pose proof (slope_step (px (i + 1) - px i) (py (i + 1) - py i) (x - px i) ltac:(lia) ltac:(lia) ltac:(lia)). lia.
Qed.
End Pts.

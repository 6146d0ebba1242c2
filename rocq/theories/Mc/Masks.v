(** The tables that [dav1d_init_ii_wedge_masks] makes. *)
From Coq Require Import ZArith List Bool Lia.
From Verif Require Import Base.CInt Base.Lemmas Base.Loop Mc.Model Mc.MaskModel.
From Verif Require Mc.Spec Mc.MaskSpec.
Import ListNotations.
Open Scope Z_scope.
Local Open Scope outcome_scope.

(** * Loops that write every place once *)
Section Scatter.
Variables (S K : Type) (get : S -> K -> option Z) (W H : Z) (pos : Z -> Z -> K) (val : Z -> Z -> Z).
Variables (body : Z -> Z -> S -> outcome S) (s0 : S).
Definition inr_ (y x : Z) : Prop := 0 <= y < H /\ 0 <= x < W.
Definition kept (s : S) : Prop := forall k, (forall y x, inr_ y x -> k <> pos y x) -> get s k = get s0 k.
Hypothesis HW : 0 <= W.
Hypothesis HH : 0 <= H.
Hypothesis Hbody : forall y x s, inr_ y x -> kept s ->
  exists s', body y x s = Ok s' /\ get s' (pos y x) = Some (val y x) /\ forall k, k <> pos y x -> get s' k = get s k.
Hypothesis Hinj : forall y x y' x', inr_ y x -> inr_ y' x' -> pos y x = pos y' x' -> y = y' /\ x = x'.
Lemma scatter : exists s', for_ 0 H (fun y s => for_ 0 W (fun x s => body y x s) s) s0 = Ok s' /\
  kept s' /\ forall y x, inr_ y x -> get s' (pos y x) = Some (val y x).
Proof.
  destruct (for_inv S (fun y s => kept s /\ forall y' x', inr_ y' x' -> y' < y -> get s (pos y' x') = Some (val y' x'))
    (fun y s => for_ 0 W (fun x s => body y x s) s) 0 H s0 HH) as (s' & E & P1 & P2).
  { split; [intros k _; reflexivity|]. intros y' x' [A _] B. lia. }
  { intros y s Hy (P1 & P2).
    destruct (for_inv S (fun x s => kept s /\ forall y' x', inr_ y' x' -> y' < y \/ (y' = y /\ x' < x) -> get s (pos y' x') = Some (val y' x'))
      (fun x s => body y x s) 0 W s HW) as (s' & E & Q1 & Q2).
    { split; [exact P1|]. intros y' x' R [A|A]; [exact (P2 y' x' R A)|]. destruct R. lia. }
    { intros x t Hx (Q1 & Q2). destruct (Hbody y x t (conj Hy Hx) Q1) as (t' & E & G & O). exists t'. split; [exact E|]. split.
      - intros k Hk. rewrite O; [exact (Q1 k Hk)|]. exact (Hk y x (conj Hy Hx)).
      - intros y' x' R L. destruct (Z.eq_dec y' y) as [Ey|Ny]; [destruct (Z.eq_dec x' x) as [Ex|Nx]|].
        + subst. exact G.
        + rewrite O; [apply Q2; [exact R|lia]|]. intros C. destruct (Hinj _ _ _ _ R (conj Hy Hx) C). lia.
        + rewrite O; [apply Q2; [exact R|lia]|]. intros C. destruct (Hinj _ _ _ _ R (conj Hy Hx) C). lia. }
    exists s'. split; [exact E|]. split; [exact Q1|]. intros y' x' R L. apply Q2; [exact R|]. destruct R as [R1 R2]. lia. }
  exists s'. split; [exact E|]. split; [exact P1|]. intros y x R. apply P2; [exact R|]. destruct R as [R1 R2]. lia.
Qed.
End Scatter.

(** * The master templates *)
Definition pget (m : plane) (k : Z * Z) : option Z := m (fst k) (snd k).
Lemma wrm_ok : forall d i v m, 0 <= d < 6 -> 0 <= i < 4096 -> wrm d i v m = Ok (set2 m d i v).
Proof. intros. unfold wrm. apply wr2_ok; assumption. Qed.
Lemma set2_get : forall m d i v, pget (set2 m d i v) (d, i) = Some v /\ forall k, k <> (d, i) -> pget (set2 m d i v) k = pget m k.
Proof.
  intros. unfold pget. split; [apply set2_same|]. intros [a b] N. cbn [fst snd]. apply set2_other.
  destruct (Z.eq_dec a d), (Z.eq_dec b i); try lia. subst. contradiction.
Qed.
(** one row: [n] cells from [o] on *)
Lemma row_ok : forall d o n f g m, 0 <= d < 6 -> 0 <= o -> 0 <= n -> o + n <= 4096 -> (forall i, 0 <= i < n -> f i = Ok (g i)) ->
  exists m', for_ 0 n (fun i m => let! v := f i in wrm d (o + i) v m) m = Ok m' /\
    (forall d' i, ~ (d' = d /\ o <= i < o + n) -> m' d' i = m d' i) /\ forall i, o <= i < o + n -> m' d i = Some (g (i - o)).
Proof.
  intros d o n f g m Hd Ho Hn Hon Hf.
  destruct (for_inv _ (fun k (a : plane) => (forall d' i, ~ (d' = d /\ o <= i < o + k) -> a d' i = m d' i) /\ forall i, o <= i < o + k -> a d i = Some (g (i - o)))
    (fun i m => let! v := f i in wrm d (o + i) v m) 0 n m Hn) as (m' & E & P).
  { split; [reflexivity|]. intros i A. lia. }
  { intros j a Hj (P1 & P2). rewrite (Hf j Hj). cbn [obind]. rewrite wrm_ok by lia. eexists. split; [reflexivity|]. split.
    - intros d' i N. rewrite set2_other by lia. apply P1. lia.
    - intros i Hi. destruct (Z.eq_dec i (o + j)) as [->|N]; [rewrite set2_same; do 2 f_equal; lia|].
      rewrite set2_other by lia. apply P2. lia. }
  exists m'. split; [exact E|exact P].
Qed.
Definition bval (src : list Z) (ctr j : Z) : Z := if j <? ctr - 4 then 0 else if j <? ctr + 4 then nth (Z.to_nat (j - ctr + 4)) src 0 else 64.
Lemma rd_at_nth : forall (l : list Z) i, 0 <= i < Z.of_nat (length l) -> rd_at l i = Ok (nth (Z.to_nat i) l 0).
Proof.
  intros l i H. unfold rd_at. destruct (Z.ltb_spec i 0); [lia|]. rewrite (nth_error_nth' l 0); [reflexivity|]. lia.
Qed.
Lemma insert_border_ok : forall d off src ctr m, 0 <= d < 6 -> 0 <= off -> off + 64 <= 4096 -> length src = 8%nat -> 5 <= ctr <= 56 ->
  exists m', insert_border d off src ctr m = Ok m' /\
    (forall d' i, ~ (d' = d /\ off <= i < off + 64) -> m' d' i = m d' i) /\ forall j, 0 <= j < 64 -> m' d (off + j) = Some (bval src ctr j).
Proof.
  intros d off src ctr m Hd Ho1 Ho2 HL Hc. unfold insert_border.
  destruct (Z.ltb_spec 4 ctr); [|lia]. destruct (Z.ltb_spec ctr (64 - 4)); [|lia].
  replace (Z.min (64 - ctr) 8) with 8 by lia. replace (Z.max (4 - ctr) 0) with 0 by lia. replace (Z.max ctr 4) with ctr by lia.
  destruct (row_ok d off (ctr - 4) (fun _ => Ok 0) (fun _ => 0) m Hd) as (m1 & E1 & A1 & B1); [lia|lia|lia|reflexivity|].
  cbn [obind] in E1. rewrite E1. cbn [obind].
  destruct (row_ok d (off + (ctr - 4)) 8 (fun i => rd_at src (0 + i)) (fun i => nth (Z.to_nat i) src 0) m1 Hd) as (m2 & E2 & A2 & B2); [lia|lia|lia| |].
  { intros i Hi. apply rd_at_nth. rewrite HL. lia. }
  rewrite E2. cbn [obind].
  destruct (row_ok d (off + ctr + 4) (64 - 4 - ctr) (fun _ => Ok 64) (fun _ => 64) m2 Hd) as (m3 & E3 & A3 & B3); [lia|lia|lia|reflexivity|].
  cbn [obind] in E3. rewrite E3. exists m3. split; [reflexivity|]. split.
  - intros d' i N. rewrite A3 by lia. rewrite A2 by lia. apply A1. lia.
  - intros j Hj. unfold bval. destruct (Z.ltb_spec j (ctr - 4)).
    + rewrite A3 by lia. rewrite A2 by lia. rewrite B1 by lia. reflexivity.
    + destruct (Z.ltb_spec j (ctr + 4)).
      * rewrite A3 by lia. rewrite B2 by lia. do 3 f_equal. lia.
      * rewrite B3 by lia. reflexivity.
Qed.
(** the lines of the specification *)
Lemma line_tab : forall l src u, length l = 64%nat -> length src = 8%nat ->
  forallb (fun n => nth n l 0 =? bval src 32 (Z.of_nat n)) (seq 0 64) = true -> 0 <= u < 64 -> MaskSpec.tab l u = bval src 32 u.
Proof.
  intros l src u _ _ F Hu. unfold MaskSpec.tab. rewrite forallb_forall in F. specialize (F (Z.to_nat u)).
  rewrite in_seq in F. specialize (F ltac:(lia)). apply Z.eqb_eq in F. rewrite F. f_equal. lia.
Qed.
Lemma odd_tab : forall u, 0 <= u < 64 -> MaskSpec.tab MaskSpec.Wedge_Master_Oblique_Odd u = bval border_odd 32 u.
Proof. intros. apply line_tab; [reflexivity|reflexivity|reflexivity|assumption]. Qed.
Lemma even_tab : forall u, 0 <= u < 64 -> MaskSpec.tab MaskSpec.Wedge_Master_Oblique_Even u = bval border_even 32 u.
Proof. intros. apply line_tab; [reflexivity|reflexivity|reflexivity|assumption]. Qed.
Lemma vert_tab : forall u, 0 <= u < 64 -> MaskSpec.tab MaskSpec.Wedge_Master_Vertical u = bval border_vert 32 u.
Proof. intros. apply line_tab; [reflexivity|reflexivity|reflexivity|assumption]. Qed.
Lemma bval_shift : forall src sh j, 0 <= j < 64 -> -16 <= sh <= 16 ->
  bval src (32 + sh) j = bval src 32 (MaskSpec.Clip3 0 (MaskSpec.MASK_MASTER_SIZE - 1) (j - sh)).
Proof.
  intros src sh j Hj Hs. unfold bval, MaskSpec.Clip3, MaskSpec.MASK_MASTER_SIZE.
  destruct (Z.ltb_spec (j - sh) 0) as [A|A].
  - destruct (Z.ltb_spec j (32 + sh - 4)); [reflexivity|lia].
  - destruct (Z.ltb_spec (64 - 1) (j - sh)) as [B|B].
    + destruct (Z.ltb_spec j (32 + sh - 4)); [lia|]. destruct (Z.ltb_spec j (32 + sh + 4)); [lia|]. reflexivity.
    + destruct (Z.ltb_spec j (32 + sh - 4)), (Z.ltb_spec (j - sh) (32 - 4)); try lia.
      destruct (Z.ltb_spec j (32 + sh + 4)), (Z.ltb_spec (j - sh) (32 + 4)); try lia.
      do 2 f_equal. lia.
Qed.
Lemma clip_range : forall v, 0 <= MaskSpec.Clip3 0 (MaskSpec.MASK_MASTER_SIZE - 1) v < 64.
Proof. intros v. unfold MaskSpec.Clip3, MaskSpec.MASK_MASTER_SIZE. destruct (Z.ltb_spec v 0); [lia|]. destruct (Z.ltb_spec (64 - 1) v); lia. Qed.
Lemma oblique_even : forall k j, 0 <= k < 32 -> 0 <= j < 64 -> MaskSpec.oblique63 (2 * k) j = bval border_even (48 - k) j.
Proof.
  intros k j Hk Hj. unfold MaskSpec.oblique63. rewrite Z.even_mul. cbn [Z.even orb]. rewrite even_tab by apply clip_range.
  replace (2 * k / 2) with k by (rewrite Z.mul_comm, Z.div_mul; lia). change (MaskSpec.MASK_MASTER_SIZE / 4) with 16.
  rewrite <- bval_shift by lia. f_equal. lia.
Qed.
Lemma oblique_odd : forall k j, 0 <= k < 32 -> 0 <= j < 64 -> MaskSpec.oblique63 (2 * k + 1) j = bval border_odd (48 - k - 1) j.
Proof.
  intros k j Hk Hj. unfold MaskSpec.oblique63. rewrite Z.even_add, Z.even_mul. cbn [Z.even orb Bool.eqb].
  rewrite odd_tab by apply clip_range.
  replace ((2 * k + 1) / 2) with k by (apply (Z.div_unique (2 * k + 1) 2 k 1); lia). change (MaskSpec.MASK_MASTER_SIZE / 4) with 16.
  rewrite <- bval_shift by lia. f_equal. lia.
Qed.
(** opposite points add up *)
Lemma bval_sym : forall a b c j, length a = 8%nat -> length b = 8%nat ->
  (forall i, (i < 8)%nat -> nth i a 0 + nth (7 - i) b 0 = 64) -> bval a c j + bval b (64 - c) (63 - j) = 64.
Proof.
  intros a b c j _ _ E. unfold bval.
  destruct (Z.ltb_spec j (c - 4)), (Z.ltb_spec (63 - j) (64 - c - 4)); try lia.
  - destruct (Z.ltb_spec (63 - j) (64 - c + 4)); lia.
  - destruct (Z.ltb_spec j (c + 4)); lia.
  - destruct (Z.ltb_spec j (c + 4)), (Z.ltb_spec (63 - j) (64 - c + 4)); try lia.
    replace (Z.to_nat (63 - j - (64 - c) + 4)) with (7 - Z.to_nat (j - c + 4))%nat by lia. apply E. lia.
Qed.
Lemma oblique_sym : forall i j, 0 <= i < 64 -> 0 <= j < 64 -> MaskSpec.oblique63 i j + MaskSpec.oblique63 (63 - i) (63 - j) = 64.
Proof.
  intros i j Hi Hj. assert (B : forall i, (i < 8)%nat -> nth i border_even 0 + nth (7 - i) border_odd 0 = 64).
  { intros n Hn. do 8 (destruct n as [|n]; [reflexivity|]). lia. }
  assert (i = 2 * (i / 2) \/ i = 2 * (i / 2) + 1) by (pose proof (Z_div_mod_eq_full i 2); pose proof (Z.mod_pos_bound i 2); lia).
  assert (0 <= i / 2 < 32) by (split; [apply Z.div_pos; lia|apply Z.div_lt_upper_bound; lia]).
  set (k := i / 2) in *. clearbody k. destruct H as [->| ->].
  - replace (63 - 2 * k) with (2 * (31 - k) + 1) by lia. rewrite oblique_even, oblique_odd by lia.
    replace (48 - (31 - k) - 1) with (64 - (48 - k)) by lia. apply bval_sym; [reflexivity|reflexivity|exact B].
  - replace (63 - (2 * k + 1)) with (2 * (31 - k)) by lia. rewrite oblique_even, oblique_odd by lia.
    replace (48 - (31 - k)) with (64 - (48 - k - 1)) by lia. apply bval_sym; [reflexivity|reflexivity|].
    intros n Hn. specialize (B (7 - n)%nat ltac:(lia)). replace (7 - (7 - n))%nat with n in B by lia. lia.
Qed.

Definition dir_of (d : Z) : MaskSpec.direction :=
  if d =? 0 then MaskSpec.WEDGE_HORIZONTAL else if d =? 1 then MaskSpec.WEDGE_VERTICAL else if d =? 2 then MaskSpec.WEDGE_OBLIQUE27
  else if d =? 3 then MaskSpec.WEDGE_OBLIQUE63 else if d =? 4 then MaskSpec.WEDGE_OBLIQUE117 else MaskSpec.WEDGE_OBLIQUE153.
(** the template for 117 degrees has the other sign *)
Definition MM (d y x : Z) : Z := let v := MaskSpec.MasterMask (dir_of d) y x in if d =? 4 then 64 - v else v.
Definition has_dir (m : plane) (d : Z) : Prop := forall y x, 0 <= y < 64 -> 0 <= x < 64 -> m d (y * 64 + x) = Some (MM d y x).
Lemma flat_inj : forall w y x y' x', 0 <= x < w -> 0 <= x' < w -> y * w + x = y' * w + x' -> y = y' /\ x = x'.
Proof. intros w y x y' x' H H' E. assert (y = y') by nia. subst. lia. Qed.
(** transpose and hflip *)
Lemma move_ok : forall dst src (pos : Z -> Z -> Z) m (f : Z -> Z -> Z), 0 <= dst < 6 -> 0 <= src < 6 -> dst <> src ->
  (forall y x, 0 <= y < 64 -> 0 <= x < 64 -> 0 <= pos y x < 4096) ->
  (forall y x y' x', 0 <= y < 64 -> 0 <= x < 64 -> 0 <= y' < 64 -> 0 <= x' < 64 -> pos y x = pos y' x' -> y = y' /\ x = x') ->
  (forall y x, 0 <= y < 64 -> 0 <= x < 64 -> m src (y * 64 + x) = Some (f y x)) ->
  exists m', for_ 0 64 (fun y m => for_ 0 64 (fun x m => let! v := rdm m src (y * 64 + x) in wrm dst (pos y x) v m) m) m = Ok m' /\
    (forall d i, d <> dst -> m' d i = m d i) /\ forall y x, 0 <= y < 64 -> 0 <= x < 64 -> m' dst (pos y x) = Some (f y x).
Proof.
  intros dst src pos m f Hd Hs N P I F.
  destruct (scatter plane (Z * Z)%type pget 64 64 (fun y x => (dst, pos y x)) f
    (fun y x m => let! v := rdm m src (y * 64 + x) in wrm dst (pos y x) v m) m) as (m' & E & K & G); [lia|lia| | |].
  { intros y x s [Hy Hx] Ks. unfold rdm. rewrite (rd2_ok _ _ _ _ _ (f y x)); [|lia|lia|].
    2:{ rewrite <- (F y x Hy Hx). apply (Ks (src, y * 64 + x)). intros y' x' _ C. injection C. intros. congruence. }
    cbn [obind]. rewrite wrm_ok; [|exact Hd|apply P; assumption]. eexists. split; [reflexivity|]. apply set2_get. }
  { intros y x y' x' [A B] [C D] Q. injection Q. apply I; assumption. }
  exists m'. split; [exact E|]. split.
  - intros d i Nd. apply (K (d, i)). intros y x _ C. injection C. intros. congruence.
  - intros y x Hy Hx. apply (G y x). split; assumption.
Qed.
Lemma transpose_ok : forall dst src m (f : Z -> Z -> Z), 0 <= dst < 6 -> 0 <= src < 6 -> dst <> src ->
  (forall y x, 0 <= y < 64 -> 0 <= x < 64 -> m src (y * 64 + x) = Some (f y x)) ->
  exists m', transpose dst src m = Ok m' /\ (forall d i, d <> dst -> m' d i = m d i) /\
    forall y x, 0 <= y < 64 -> 0 <= x < 64 -> m' dst (y * 64 + x) = Some (f x y).
Proof.
  intros dst src m f Hd Hs N F. destruct (move_ok dst src (fun y x => x * 64 + y) m f Hd Hs N) as (m' & E & A & B); [lia| |exact F|].
  { intros y x y' x' ? ? ? ? Q. destruct (flat_inj 64 x y x' y' ltac:(lia) ltac:(lia) Q). lia. }
  exists m'. split; [exact E|]. split; [exact A|]. intros y x Hy Hx. apply (B x y); assumption.
Qed.
Lemma hflip_ok : forall dst src m (f : Z -> Z -> Z), 0 <= dst < 6 -> 0 <= src < 6 -> dst <> src ->
  (forall y x, 0 <= y < 64 -> 0 <= x < 64 -> m src (y * 64 + x) = Some (f y x)) ->
  exists m', hflip dst src m = Ok m' /\ (forall d i, d <> dst -> m' d i = m d i) /\
    forall y x, 0 <= y < 64 -> 0 <= x < 64 -> m' dst (y * 64 + x) = Some (f y (63 - x)).
Proof.
  intros dst src m f Hd Hs N F. destruct (move_ok dst src (fun y x => y * 64 + 64 - 1 - x) m f Hd Hs N) as (m' & E & A & B); [lia| |exact F|].
  { intros y x y' x' ? ? ? ? Q. destruct (flat_inj 64 y (63 - x) y' (63 - x') ltac:(lia) ltac:(lia) ltac:(lia)). lia. }
  exists m'. split; [exact E|]. split; [exact A|]. intros y x Hy Hx.
  replace (y * 64 + x) with (y * 64 + 64 - 1 - (63 - x)) by lia. apply B; lia.
Qed.
Definition is_vert (m : plane) : Prop := forall y x, 0 <= y < 64 -> 0 <= x < 64 -> m 1 (y * 64 + x) = Some (bval border_vert 32 x).
Definition is_63 (m : plane) : Prop := forall y x, 0 <= y < 64 -> 0 <= x < 64 -> m 3 (y * 64 + x) = Some (MaskSpec.oblique63 y x).
Lemma vert_ok : exists m, for_ 0 64 (fun y m => insert_border 1 (y * 64) border_vert 32 m) plane0 = Ok m /\ is_vert m.
Proof.
  destruct (for_inv _ (fun k (a : plane) => forall y x, 0 <= y < k -> 0 <= x < 64 -> a 1 (y * 64 + x) = Some (bval border_vert 32 x))
    (fun y m => insert_border 1 (y * 64) border_vert 32 m) 0 64 plane0 ltac:(lia)) as (m1 & E1 & P1).
  { intros y x A. lia. }
  { intros k a Hk P. destruct (insert_border_ok 1 (k * 64) border_vert 32 a) as (m' & E & A & B);
      [lia|lia|lia|reflexivity|lia|].
    exists m'. split; [exact E|]. intros y x Hy Hx. destruct (Z.eq_dec y k) as [->|N]; [apply B; exact Hx|].
    rewrite A by lia. apply P; lia. }
  exists m1. split; [exact E1|exact P1].
Qed.
Lemma pair_ok : forall m1, is_vert m1 -> exists m, for_ 0 32 (fun k m =>
    let! m := insert_border 3 (k * 128) border_even (48 - k) m in insert_border 3 (k * 128 + 64) border_odd (48 - k - 1) m) m1 = Ok m /\ is_vert m /\ is_63 m.
Proof.
  intros m1 P1.
  destruct (for_inv _ (fun k (a : plane) => is_vert a /\
      forall y x, 0 <= y < 2 * k -> 0 <= x < 64 -> a 3 (y * 64 + x) = Some (MaskSpec.oblique63 y x))
    (fun k m => let! m := insert_border 3 (k * 128) border_even (48 - k) m in
      insert_border 3 (k * 128 + 64) border_odd (48 - k - 1) m) 0 32 m1 ltac:(lia)) as (m2 & E2 & P2 & P3).
  { split; [exact P1|]. intros y x A. lia. }
  { intros k a Hk (Pv & P).
    destruct (insert_border_ok 3 (k * 128) border_even (48 - k) a) as (b & E & A & B);
      [lia|lia|lia|reflexivity|lia|]. rewrite E. cbn [obind].
    destruct (insert_border_ok 3 (k * 128 + 64) border_odd (48 - k - 1) b) as (c & E' & A' & B');
      [lia|lia|lia|reflexivity|lia|]. exists c. split; [exact E'|]. split.
    - intros y x Hy Hx. rewrite A', A by lia. apply Pv; assumption.
    - intros y x Hy Hx. destruct (Z.eq_dec y (2 * k)) as [->|N]; [|destruct (Z.eq_dec y (2 * k + 1)) as [->|N']].
      + rewrite A' by lia. replace (2 * k * 64 + x) with (k * 128 + x) by lia. rewrite B by lia. rewrite oblique_even by lia. reflexivity.
      + replace ((2 * k + 1) * 64 + x) with (k * 128 + 64 + x) by lia. rewrite B' by lia. rewrite oblique_odd by lia. reflexivity.
      + rewrite A', A by lia. apply P; lia. }
  exists m2. split; [exact E2|]. split; [exact P2|]. intros y x Hy. apply P3. lia.
Qed.
Lemma moves_ok : forall m2, is_vert m2 -> is_63 m2 -> exists m6,
  (let! m := transpose 2 3 m2 in let! m := transpose 0 1 m in let! m := hflip 4 3 m in hflip 5 2 m) = Ok m6 /\
  forall d, 0 <= d < 6 -> has_dir m6 d.
Proof.
  intros m2 P2 P3.
  destruct (transpose_ok 2 3 m2 MaskSpec.oblique63) as (m3 & E3 & K3 & G3); [lia|lia|lia|exact P3|]. rewrite E3. cbn [obind].
  destruct (transpose_ok 0 1 m3 (fun y x => bval border_vert 32 x)) as (m4 & E4 & K4 & G4); [lia|lia|lia| |].
  { intros y x Hy Hx. rewrite K3 by lia. apply P2; assumption. }
  rewrite E4. cbn [obind].
  destruct (hflip_ok 4 3 m4 MaskSpec.oblique63) as (m5 & E5 & K5 & G5); [lia|lia|lia| |].
  { intros y x Hy Hx. rewrite K4, K3 by lia. apply P3; assumption. }
  rewrite E5. cbn [obind].
  destruct (hflip_ok 5 2 m5 (fun y x => MaskSpec.oblique63 x y)) as (m6 & E6 & K6 & G6); [lia|lia|lia| |].
  { intros y x Hy Hx. rewrite K5, K4 by lia. apply G3; assumption. }
  exists m6. split; [exact E6|].
  intros d Hd y x Hy Hx. assert (C : d = 0 \/ d = 1 \/ d = 2 \/ d = 3 \/ d = 4 \/ d = 5) by lia.
  unfold MM. destruct C as [->|[->|[->|[->|[->| ->]]]]]; cbn [dir_of Z.eqb Pos.eqb MaskSpec.MasterMask].
  - rewrite K6, K5 by lia. rewrite G4 by lia. rewrite vert_tab by lia. reflexivity.
  - rewrite K6, K5, K4, K3 by lia. rewrite P2 by lia. rewrite vert_tab by lia. reflexivity.
  - rewrite K6, K5, K4 by lia. apply G3; lia.
  - rewrite K6, K5, K4, K3 by lia. apply P3; lia.
  - rewrite K6 by lia. rewrite G5 by lia. f_equal. unfold MaskSpec.MASK_MASTER_SIZE. replace (64 - 1 - x) with (63 - x) by lia. lia.
  - rewrite G6 by lia. f_equal. unfold MaskSpec.MASK_MASTER_SIZE. replace (64 - 1 - y) with (63 - y) by lia.
    pose proof (oblique_sym (63 - x) y ltac:(lia) ltac:(lia)) as Q. replace (63 - (63 - x)) with x in Q by lia. lia.
Qed.
(* otherwise the kernel may run the loops *)
Local Strategy expand [make_master].
Definition master_rest (m : plane) : outcome plane :=
  let! m := transpose WEDGE_OBLIQUE27 WEDGE_OBLIQUE63 m in
  let! m := transpose WEDGE_HORIZONTAL WEDGE_VERTICAL m in
  let! m := hflip WEDGE_OBLIQUE117 WEDGE_OBLIQUE63 m in
  hflip WEDGE_OBLIQUE153 WEDGE_OBLIQUE27 m.
Definition master_63 (m : plane) : outcome plane := for_ 0 32 (fun k m =>
    let! m := insert_border WEDGE_OBLIQUE63 (k * 128) border_even (48 - k) m in
    insert_border WEDGE_OBLIQUE63 (k * 128 + 64) border_odd (48 - k - 1) m) m.
Definition master_vert : outcome plane := for_ 0 64 (fun y m => insert_border WEDGE_VERTICAL (y * 64) border_vert 32 m) plane0.
Lemma make_master_eq : make_master = obind master_vert (fun m => obind (master_63 m) master_rest).
Proof. reflexivity. Qed.
Lemma rest_ok : forall m2, is_vert m2 -> is_63 m2 -> exists m6, master_rest m2 = Ok m6 /\ forall d, 0 <= d < 6 -> has_dir m6 d.
Proof. exact moves_ok. Qed.
Lemma lines_63_ok : forall m1, is_vert m1 -> exists m, master_63 m1 = Ok m /\ is_vert m /\ is_63 m.
Proof. exact pair_ok. Qed.
Lemma lines_vert_ok : exists m, master_vert = Ok m /\ is_vert m.
Proof. exact vert_ok. Qed.
Lemma two_binds : forall (a : outcome plane) (f g : plane -> outcome plane) (P Q R : plane -> Prop),
  (exists m, a = Ok m /\ P m) -> (forall m, P m -> exists m', f m = Ok m' /\ Q m') -> (forall m, Q m -> exists m', g m = Ok m' /\ R m') ->
  exists m, obind a (fun m => obind (f m) g) = Ok m /\ R m.
Proof.
  intros a f g P Q R (m & -> & Hp) Hf Hg. cbn [obind]. destruct (Hf m Hp) as (m' & E & Hq). rewrite E. cbn [obind]. exact (Hg m' Hq).
Qed.
Lemma make_master_ok : exists m, make_master = Ok m /\ forall d, 0 <= d < 6 -> has_dir m d.
Proof.
  rewrite make_master_eq.
  apply (two_binds master_vert master_63 master_rest is_vert (fun m => is_vert m /\ is_63 m)); [exact lines_vert_ok|exact lines_63_ok|].
  intros m (A & B). exact (rest_ok m A B).
Qed.

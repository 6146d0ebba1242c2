(** The points gathered by find_matching_ref and derive_warpmv are the samples of the specification. *)
From Coq Require Import ZArith List Bool Lia Permutation Sorted.
From Verif Require Import Base.CInt Base.Loop Base.Lemmas Mc.ObmcModel Warp.Model Warp.Select Warp.Solve.
From Verif Require Warp.Spec.
Import ListNotations.
Open Scope Z_scope.
Local Open Scope outcome_scope.

(** * Masks *)
Fixpoint xm (off : Z) (l : list Z) : Z := match l with [] => 0 | t :: l => 2 ^ (t - off) + xm off l end.
(** increasing, from [lo] to below [hi] *)
Fixpoint incr (lo hi : Z) (l : list Z) : Prop := match l with [] => True | t :: l => lo <= t < hi /\ incr (t + 1) hi l end.
Lemma incr_weak : forall l lo lo' hi, lo' <= lo -> incr lo hi l -> incr lo' hi l.
Proof. intros [|t l] lo lo' hi H I; [exact I|]. destruct I as (I1 & I2). split; [lia|exact I2]. Qed.
Lemma incr_in : forall l lo hi t, incr lo hi l -> In t l -> lo <= t < hi.
Proof. induction l as [|a l IH]; intros lo hi t I H; [contradiction|]. destruct I as (I1 & I2). destruct H as [->|H]; [exact I1|]. pose proof (IH _ _ _ I2 H). lia. Qed.
Lemma incr_filter : forall f l lo hi, incr lo hi l -> incr lo hi (filter f l).
Proof.
  intros f. induction l as [|a l IH]; intros lo hi I; [exact I|]. destruct I as (I1 & I2). cbn [filter]. destruct (f a).
  - split; [exact I1|]. apply IH, I2.
  - apply IH. apply incr_weak with (a + 1); [lia|exact I2].
Qed.
Lemma incr_firstn : forall n l lo hi, incr lo hi l -> incr lo hi (firstn n l).
Proof. induction n as [|n IH]; intros [|a l] lo hi I; try exact Logic.I. destruct I as (I1 & I2). split; [exact I1|]. apply IH, I2. Qed.
Lemma xm_shift : forall l off t, incr t 1000 l -> off <= t -> xm off l = 2 ^ (t - off) * xm t l.
Proof.
  induction l as [|a l IH]; intros off t I H; [cbn [xm]; lia|]. destruct I as (I1 & I2). cbn [xm].
  rewrite (IH off t (incr_weak l (a + 1) t 1000 ltac:(lia) I2) H). rewrite Z.mul_add_distr_l, <- Z.pow_add_r by lia. replace (t - off + (a - t)) with (a - off) by lia. reflexivity.
Qed.
Lemma xm_bound : forall l off hi, incr off hi l -> off <= hi -> 0 <= xm off l < 2 ^ (hi - off).
Proof.
  assert (G : forall l off lo hi, off <= lo -> incr lo hi l -> lo <= hi -> 0 <= xm off l <= 2 ^ (hi - off) - 2 ^ (lo - off)).
  { induction l as [|a l IH]; intros off lo hi O I H; cbn [xm].
    - pose proof (Z.pow_le_mono_r 2 (lo - off) (hi - off) ltac:(lia) ltac:(lia)). lia.
    - destruct I as (I1 & I2). pose proof (IH off (a + 1) hi ltac:(lia) I2 ltac:(lia)) as B.
      replace (a + 1 - off) with (Z.succ (a - off)) in B by lia. rewrite Z.pow_succ_r in B by lia.
      pose proof (Z.pow_le_mono_r 2 (lo - off) (a - off) ltac:(lia) ltac:(lia)). pose proof (Z.pow_pos_nonneg 2 (a - off) ltac:(lia) ltac:(lia)). lia. }
  intros l off hi I H. pose proof (G l off off hi ltac:(lia) I H). pose proof (Z.pow_pos_nonneg 2 (off - off) ltac:(lia) ltac:(lia)). lia.
Qed.
Lemma land_odd : forall q, Z.land (2 * q + 1) (- (2 * q + 1)) = 1.
Proof.
  intros q. replace (- (2 * q + 1)) with (2 * Z.lnot q + 1) by (unfold Z.lnot; lia). apply Z.bits_inj'. intros n Hn. rewrite Z.land_spec.
  destruct (Z.eq_dec n 0) as [->|N]; [rewrite !Z.testbit_odd_0; reflexivity|]. replace n with (Z.succ (n - 1)) by lia.
  assert (B1 : Z.testbit 1 (Z.succ (n - 1)) = false) by (change 1 with (2 * 0 + 1) at 1; rewrite Z.testbit_odd_succ by lia; apply Z.bits_0). rewrite B1.
  rewrite !Z.testbit_odd_succ by lia. rewrite Z.lnot_spec by lia. apply andb_negb_r.
Qed.
Lemma ctz_ok : forall a q, 0 <= a -> ctz (2 ^ a * (2 * q + 1)) = Ok a.
Proof.
  intros a q H. unfold ctz. pose proof (Z.pow_pos_nonneg 2 a ltac:(lia) H). destruct (Z.eqb_spec (2 ^ a * (2 * q + 1)) 0) as [e|]; [apply Z.mul_eq_0 in e; lia|].
  f_equal. rewrite <- Z.mul_opp_r. rewrite !(Z.mul_comm (2 ^ a)), <- !Z.shiftl_mul_pow2 by lia. rewrite <- Z.shiftl_land, land_odd, Z.shiftl_1_l. apply Z.log2_pow2. exact H.
Qed.
Lemma clear_bit0 : forall q, 0 <= q < 2 ^ 31 -> Z.land (2 * q + 1) (2 ^ 32 - 2) = 2 * q.
Proof.
  intros q H. apply Z.bits_inj'. intros n Hn. rewrite Z.land_spec. change (2 ^ 32 - 2) with (2 * Z.ones 31).
  destruct (Z.eq_dec n 0) as [->|N]; [rewrite Z.testbit_odd_0, !Z.testbit_even_0; reflexivity|]. replace n with (Z.succ (n - 1)) by lia.
  rewrite Z.testbit_odd_succ, !Z.testbit_even_succ by lia. rewrite <- Z.land_spec. rewrite Z.land_ones by lia. rewrite Z.mod_small by exact H. reflexivity.
Qed.
Lemma xm_even : forall l t, incr (t + 1) 1000 l -> xm t l = 2 * xm (t + 1) l.
Proof. intros l t I. rewrite (xm_shift l t (t + 1) I ltac:(lia)). replace (t + 1 - t) with 1 by lia. reflexivity. Qed.
Lemma incr_1000 : forall l lo hi, hi <= 1000 -> incr lo hi l -> incr lo 1000 l.
Proof. induction l as [|a l IH]; intros lo hi H I; [exact I|]. destruct I as (I1 & I2). split; [lia|]. apply IH with hi; assumption. Qed.
(** one step of the loops over the bits of a mask *)
Lemma mask_step : forall t l off, 0 <= off -> incr off 32 (t :: l) ->
  ctz (xm off (t :: l)) = Ok (t - off) /\ Z.land (Z.shiftr (xm off (t :: l)) (t - off)) (2 ^ 32 - 2) = xm t l /\ xm off (t :: l) <> 0.
Proof.
  intros t l off O I. destruct I as (I1 & I2). pose proof (incr_1000 _ _ 32 ltac:(lia) I2) as I3.
  assert (E : xm off (t :: l) = 2 ^ (t - off) * (2 * xm (t + 1) l + 1)).
  { cbn [xm]. rewrite (xm_shift l off t (incr_weak l (t + 1) t 1000 ltac:(lia) I3) ltac:(lia)), (xm_even l t I3). ring. }
  rewrite E. split; [apply ctz_ok; lia|]. pose proof (Z.pow_pos_nonneg 2 (t - off) ltac:(lia) ltac:(lia)) as PP.
  pose proof (xm_bound l (t + 1) 32 I2 ltac:(lia)) as B. split.
  - rewrite Z.shiftr_div_pow2 by lia. rewrite Z.mul_comm, Z.div_mul by lia. rewrite clear_bit0; [symmetry; apply xm_even, I3|].
    split; [lia|]. pose proof (Z.pow_le_mono_r 2 (32 - (t + 1)) 31 ltac:(lia) ltac:(lia)). lia.
  - intros e. apply Z.mul_eq_0 in e. lia.
Qed.
Lemma xm_app : forall l m off, xm off (l ++ m) = xm off l + xm off m.
Proof. induction l as [|a l IH]; intros m off; [reflexivity|]. cbn [app xm]. rewrite IH. ring. Qed.
Lemma lor_new : forall m x, 0 <= m < 2 ^ x -> 0 <= x -> Z.lor m (2 ^ x) = m + 2 ^ x.
Proof.
  intros m x M X. assert (L : Z.land m (2 ^ x) = 0); [|rewrite <- Z.lxor_lor by exact L; symmetry; apply Z.add_nocarry_lxor; exact L]. apply Z.bits_inj'. intros n Hn. rewrite Z.land_spec, Z.bits_0, Z.pow2_bits_eqb by lia.
  destruct (Z.eqb_spec x n) as [<-|]; [|apply andb_false_r]. rewrite andb_true_r. destruct (Z.eq_dec m 0) as [->|N]; [apply Z.bits_0|]. apply Z.bits_above_log2; [lia|]. apply Z.log2_lt_pow2; lia.
Qed.

(** * Blocks along one side *)
Definition size_ok (n : Z) : Prop := n = 1 \/ n = 2 \/ n = 4 \/ n = 8 \/ n = 16 \/ n = 32.
Lemma size_pos : forall n, size_ok n -> 1 <= n <= 32. Proof. intros n [->|[->|[->|[->|[->| ->]]]]]; lia. Qed.
Lemma size_dvd : forall a b x, size_ok a -> size_ok b -> a <= b -> x mod b = 0 -> x mod a = 0.
Proof. intros a b x [->|[->|[->|[->|[->| ->]]]]] [->|[->|[->|[->|[->| ->]]]]] L H; lia. Qed.
Lemma land_size : forall a x, size_ok a -> 0 <= x -> Z.land x (a - 1) = x mod a.
Proof.
  intros a x H X.
  assert (G : forall n, 0 <= n -> Z.land x (2 ^ n - 1) = x mod 2 ^ n) by (intros n Hn; rewrite <- Z.land_ones by exact Hn; f_equal; rewrite Z.ones_equiv; lia).
  destruct H as [->|[->|[->|[->|[->| ->]]]]]; [exact (G 0 ltac:(lia))|exact (G 1 ltac:(lia))|exact (G 2 ltac:(lia))|exact (G 3 ltac:(lia))|exact (G 4 ltac:(lia))|exact (G 5 ltac:(lia))].
Qed.
Section Side.
Variables (size : Z -> Z) (lo n4 end_ : Z).
Hypothesis N4 : size_ok n4.
Hypothesis LO : 0 <= lo /\ lo mod n4 = 0.
Hypothesis EN : lo < end_ <= lo + n4.
Hypothesis SZ : forall c, lo <= c < end_ -> size_ok (size c).
Hypothesis TI : forall c c', lo <= c < end_ -> lo <= c' < end_ -> c' / size c = c / size c -> size c' = size c.
Hypothesis SM : size lo < n4.
Lemma side_small : forall c, lo <= c < end_ -> size c < n4.
Proof.
  intros c Hc. destruct (Z_lt_le_dec (size c) n4); [assumption|exfalso]. pose proof (SZ c Hc) as Sc. pose proof (size_pos _ Sc) as Pc. pose proof (size_pos _ N4).
  assert (E : size lo = size c); [|clear - E SM l; lia]. apply TI; [exact Hc|clear - EN; lia|].
  assert (K : forall s, size_ok s -> n4 <= s -> lo / s = c / s); [|exact (K _ Sc l)]. clear - N4 LO EN Hc. intros s Hs L.
  destruct LO as (L0 & LM). clear LO. assert (C : c < lo + n4) by lia. assert (C1 : lo <= c) by lia. clear EN Hc.
  destruct N4 as [->|[->|[->|[->|[->| ->]]]]]; destruct Hs as [->|[->|[->|[->|[->| ->]]]]]; lia.
Qed.
Definition starts (c : Z) : Prop := c / size c * size c = c.
Lemma side_start : starts lo.
Proof.
  unfold starts. assert (HL : lo <= lo < end_) by (clear - EN; lia). pose proof (SZ lo HL) as Sc. pose proof (size_pos _ Sc) as Pc.
  pose proof (size_dvd _ _ lo Sc N4 (Z.lt_le_incl _ _ SM) (proj2 LO)) as D. pose proof (Z.div_mod lo (size lo) ltac:(clear - Pc; lia)) as E. clear - D E. lia.
Qed.
Lemma side_next : forall c, lo <= c < end_ -> c + size c < end_ -> starts c -> starts (c + size c).
Proof.
  intros c Hc H2 Hs. unfold starts in *. pose proof (SZ c Hc) as S1. pose proof (size_pos _ S1) as P1.
  assert (Hc' : lo <= c + size c < end_) by (clear - Hc H2 P1; lia).
  pose proof (SZ (c + size c) Hc') as S2. pose proof (size_pos _ S2) as P2. set (c' := c + size c) in *.
  pose proof (Z.div_mod c' (size c') ltac:(clear - P2; lia)) as DM. pose proof (Z.mod_pos_bound c' (size c') ltac:(clear - P2; lia)) as MB.
  destruct (Z.eq_dec (c' mod size c') 0) as [E|E]; [clear - DM E; lia|exfalso].
  assert (Hc1 : lo <= c' - 1 < end_) by (unfold c'; clear - Hc H2 P1; lia).
  assert (ES : size (c' - 1) = size c').
  { apply TI; [exact Hc'|exact Hc1|]. symmetry. apply Z.div_unique with (c' mod size c' - 1); clear - DM MB E; lia. }
  assert (EC : size (c' - 1) = size c).
  { apply TI; [exact Hc|exact Hc1|]. symmetry. apply Z.div_unique with (size c - 1); unfold c'; clear - Hs P1; lia. }
  apply E. rewrite <- ES, EC. unfold c'. rewrite <- Zplus_mod_idemp_r, Z.mod_same, Z.add_0_r by (clear - P1; lia).
  generalize dependent (size c). intros n. intros. rewrite <- Hs. apply Z.mod_mul. clear - P1; lia.
Qed.
End Side.

(** * The neighbourhood of a block *)
Record nbhd (k : warp_in) (mi : Z -> Z -> Spec.mode_info) (avail : Z -> Z -> bool) (have_top have_left : bool)
  (bx by_ MiRows MiCols bw4 bh4 : Z) : Prop := {
  nb_bx : w_bx k = bx /\ 0 <= bx < MiCols /\ bx mod bw4 = 0;
  nb_by : w_by k = by_ /\ 0 <= by_ < MiRows /\ by_ mod bh4 = 0;
  nb_bw : size_ok bw4 /\ 2 <= bw4;
  nb_bh : size_ok bh4 /\ 2 <= bh4;
  nb_dim : MiCols <= 16384 /\ MiRows <= 16384 /\ w_col_end k <= MiCols;
  (* what has been decoded *)
  nb_top : have_top = true -> forall c, bx <= c < Z.min (bx + bw4) MiCols -> avail (by_ - 1) c = true;
  nb_left : have_left = true -> forall r, by_ <= r < Z.min (by_ + bh4) MiRows -> avail r (bx - 1) = true;
  nb_tl : avail (by_ - 1) (bx - 1) = have_top && have_left;
  nb_tr : Z.max bw4 bh4 <= 16 -> avail (by_ - 1) (bx + bw4) = have_top && (bx + bw4 <? w_col_end k) && w_tr k;
  nb_new : forall r c, by_ <= r -> bx <= c -> avail r c = false;
  (* blocks are at multiples of their sizes and do not overlap *)
  nb_tile : forall r c r' c', avail r c = true -> r' / Spec.H4 (mi r c) = r / Spec.H4 (mi r c) -> c' / Spec.W4 (mi r c) = c / Spec.W4 (mi r c) ->
    r' < MiRows -> c' < MiCols -> avail r' c' = true /\ mi r' c' = mi r c;
  nb_pos : forall r c, avail r c = true -> 0 <= r < MiRows /\ 0 <= c < MiCols;
  (* the rows t->rt.r[] hold what the specification keeps for the frame *)
  nb_mem : forall r c, avail r c = true -> by_ / 32 * 32 - 1 <= r < by_ + 32 -> exists b lw lh,
    w_at k (r - by_) c = Ok b /\ rd_at block_dimensions (rb_bs b) = Ok (Spec.W4 (mi r c), Spec.H4 (mi r c), lw, lh) /\
    rb_ref0 b = Spec.Ref0 (mi r c) /\ rb_ref1 b = Spec.Ref1 (mi r c) /\ rb_mvx b = Spec.MvCol (mi r c) /\ rb_mvy b = Spec.MvRow (mi r c);
  nb_mv : forall r c, avail r c = true -> -32768 <= Spec.MvCol (mi r c) <= 32767 /\ -32768 <= Spec.MvRow (mi r c) <= 32767 }.

Lemma dims_ok : forall i w h lw lh, rd_at block_dimensions i = Ok (w, h, lw, lh) -> size_ok w /\ size_ok h.
Proof.
  intros i w h lw lh H. unfold rd_at in H. destruct (i <? 0); [discriminate|]. destruct (nth_error block_dimensions (Z.to_nat i)) as [d|] eqn:E; [|discriminate]. injection H as ->.
  apply nth_error_In in E. unfold size_ok.
  repeat (destruct E as [E|E]; [injection E as <- <- _ _; split; tauto|]). destruct E.
Qed.
Lemma same_div : forall c c' s a, 0 < s -> a * s <= c < a * s + s -> a * s <= c' < a * s + s -> c' / s = c / s.
Proof. intros c c' s a P H H'. replace (c / s) with a by (apply Z.div_unique with (c - a * s); lia). symmetry. apply Z.div_unique with (c' - a * s); lia. Qed.

Section Block.
Variables (k : warp_in) (mi : Z -> Z -> Spec.mode_info) (avail : Z -> Z -> bool) (have_top have_left : bool).
Variables (bx by_ MiRows MiCols bw4 bh4 ref mvx mvy : Z).
Hypothesis NB : nbhd k mi avail have_top have_left bx by_ MiRows MiCols bw4 bh4.
Definition W (r c : Z) := Spec.W4 (mi r c).
Definition H (r c : Z) := Spec.H4 (mi r c).
Definition mt (r c : Z) : bool := avail r c && (Spec.Ref0 (mi r c) =? ref + 1) && (Spec.Ref1 (mi r c) =? -1).
Definition pt_of (r c : Z) : point :=
  let x := (c / W r c * W r c - bx) * 32 + 16 * W r c - 8 in
  let y := (r / H r c * H r c - by_) * 32 + 16 * H r c - 8 in
  {| p_x := x; p_y := y; p_dx := x + Spec.MvCol (mi r c); p_dy := y + Spec.MvRow (mi r c) |}.

Lemma mem_at : forall r c, avail r c = true -> by_ / 32 * 32 - 1 <= r < by_ + 32 -> exists b,
  w_at k (r - by_) c = Ok b /\ bs_w b = Ok (W r c) /\ bs_h b = Ok (H r c) /\ matches ref b = mt r c /\
  rb_mvx b = Spec.MvCol (mi r c) /\ rb_mvy b = Spec.MvRow (mi r c) /\ size_ok (W r c) /\ size_ok (H r c).
Proof.
  intros r c A R. destruct (nb_mem _ _ _ _ _ _ _ _ _ _ _ NB r c A R) as (b & lw & lh & E1 & E2 & E3 & E4 & E5 & E6).
  exists b. destruct (dims_ok _ _ _ _ _ E2) as (SW & SH). unfold bs_w, bs_h. rewrite E2. cbn [obind fst snd]. unfold matches, mt. rewrite A, E3, E4. repeat split; assumption.
Qed.
Lemma row_top : by_ / 32 * 32 - 1 <= by_ - 1 < by_ + 32.
Proof. destruct (nb_by _ _ _ _ _ _ _ _ _ _ _ NB) as (_ & B & _). pose proof (Z.div_mod by_ 32 ltac:(lia)). pose proof (Z.mod_pos_bound by_ 32 ltac:(lia)). lia. Qed.
Lemma row_left : forall r, by_ <= r < by_ + 32 -> by_ / 32 * 32 - 1 <= r < by_ + 32.
Proof. intros r R. destruct (nb_by _ _ _ _ _ _ _ _ _ _ _ NB) as (_ & B & _). pose proof (Z.div_mod by_ 32 ltac:(lia)). pose proof (Z.mod_pos_bound by_ 32 ltac:(lia)). lia. Qed.

(** the block at r, c ends above row r' if that has not been decoded *)
Lemma ends_row : forall r c r', avail r c = true -> size_ok (H r c) -> r < r' < MiRows -> avail r' c = false -> r / H r c * H r c + H r c <= r'.
Proof.
  intros r c r' A S R N. destruct (Z_lt_le_dec r' (r / H r c * H r c + H r c)) as [L|]; [exfalso|assumption]. pose proof (size_pos _ S) as P.
  pose proof (Z.div_mod r (H r c) ltac:(lia)) as D. pose proof (Z.mod_pos_bound r (H r c) ltac:(lia)) as M.
  destruct (nb_pos _ _ _ _ _ _ _ _ _ _ _ NB r c A) as (_ & C).
  destruct (nb_tile _ _ _ _ _ _ _ _ _ _ _ NB r c r' c A) as (A' & _); [|reflexivity|lia|lia|congruence].
  apply same_div with (r / H r c); [unfold H in *; lia| |]; fold (H r c); lia.
Qed.
Lemma ends_col : forall r c c', avail r c = true -> size_ok (W r c) -> c < c' < MiCols -> avail r c' = false -> c / W r c * W r c + W r c <= c'.
Proof.
  intros r c c' A S R N. destruct (Z_lt_le_dec c' (c / W r c * W r c + W r c)) as [L|]; [exfalso|assumption]. pose proof (size_pos _ S) as P.
  pose proof (Z.div_mod c (W r c) ltac:(lia)) as D. pose proof (Z.mod_pos_bound c (W r c) ltac:(lia)) as M.
  destruct (nb_pos _ _ _ _ _ _ _ _ _ _ _ NB r c A) as (C & _).
  destruct (nb_tile _ _ _ _ _ _ _ _ _ _ _ NB r c r c' A) as (A' & _); [reflexivity| |lia|lia|congruence].
  apply same_div with (c / W r c); [unfold W in *; lia| |]; fold (W r c); lia.
Qed.
Lemma top_bottom : forall c, bx <= c -> avail (by_ - 1) c = true -> size_ok (H (by_ - 1) c) -> (by_ - 1) / H (by_ - 1) c * H (by_ - 1) c + H (by_ - 1) c = by_.
Proof.
  intros c C A S. destruct (nb_by _ _ _ _ _ _ _ _ _ _ _ NB) as (_ & B & _).
  pose proof (ends_row (by_ - 1) c by_ A S ltac:(lia) (nb_new _ _ _ _ _ _ _ _ _ _ _ NB by_ c ltac:(lia) C)).
  pose proof (size_pos _ S) as P. pose proof (Z.div_mod (by_ - 1) (H (by_ - 1) c) ltac:(lia)). pose proof (Z.mod_pos_bound (by_ - 1) (H (by_ - 1) c) ltac:(lia)). lia.
Qed.
Lemma left_right : forall r, by_ <= r -> avail r (bx - 1) = true -> size_ok (W r (bx - 1)) -> (bx - 1) / W r (bx - 1) * W r (bx - 1) + W r (bx - 1) = bx.
Proof.
  intros r C A S. destruct (nb_bx _ _ _ _ _ _ _ _ _ _ _ NB) as (_ & B & _).
  pose proof (ends_col r (bx - 1) bx A S ltac:(lia) (nb_new _ _ _ _ _ _ _ _ _ _ _ NB r bx C ltac:(lia))).
  pose proof (size_pos _ S) as P. pose proof (Z.div_mod (bx - 1) (W r (bx - 1)) ltac:(lia)). pose proof (Z.mod_pos_bound (bx - 1) (W r (bx - 1)) ltac:(lia)). lia.
Qed.
End Block.

(** C22: default picture buffers are large enough, aligned and non-overlapping. *)
From Coq Require Import ZArith List Bool Lia.
From Verif Require Import Base.CInt Base.Lemmas Lib.Model Lib.Proofs.
Import ListNotations.
Open Scope Z_scope.

(** Pictures the decoder can ask for: sizes up to 65536x65536; on 32-bit targets
    dav1d_open caps the number of pixels at 8192x8192 (C23). *)
Record geometry (wide : bool) (w h layout bpc : Z) : Prop := {
  g_w : 1 <= w <= 65536; g_h : 1 <= h <= 65536; g_l : 0 <= layout <= 3; g_b : bpc = 8 \/ bpc = 10 \/ bpc = 12;
  g_narrow : wide = false -> w * h <= 67108864 }.
(** Bytes per sample; width and height of a plane (chroma subsampled in 4:2:0 both ways, in
    4:2:2 horizontally). *)
Definition px (bpc : Z) : Z := if bpc =? 8 then 1 else 2.
Definition up (x : Z) : Z := (x + 127) / 128 * 128.
Definition plane_w (w layout pl : Z) : Z :=
  if pl =? 0 then up w else if (layout =? L420) || (layout =? L422) then up w / 2 else up w.
Definition plane_h (h layout pl : Z) : Z :=
  if pl =? 0 then up h else if layout =? L420 then up h / 2 else up h.
Definition has_plane (layout pl : Z) : Prop := 0 <= pl <= 2 /\ (layout = L400 -> pl = 0).
Definition base (p : planes) (pl : Z) : option Z :=
  if pl =? 0 then Some (p_data0 p) else if pl =? 1 then p_data1 p else p_data2 p.
Definition stride (p : planes) (pl : Z) : Z := if pl =? 0 then p_stride0 p else p_stride1 p.
(** Byte offset of sample (x, y) of plane pl. *)
Definition addr (p : planes) (bpc pl x y : Z) : Z :=
  match base p pl with Some b => b + y * stride p pl + x * px bpc | None => -1 end.

Record layout_ok (wide : bool) (w h layout bpc : Z) (p : planes) : Prop := {
  ok_s0 : (64 | p_stride0 p); ok_s1 : (64 | p_stride1 p);
  ok_base : forall pl, has_plane layout pl -> exists b, base p pl = Some b /\ 0 <= b /\ (64 | b);
  ok_null : layout = L400 -> p_data1 p = None /\ p_data2 p = None;
  ok_row : forall pl, has_plane layout pl -> plane_w w layout pl * px bpc <= stride p pl < plane_w w layout pl * px bpc + 65;
  ok_end0 : p_data0 p = 0;
  ok_end1 : layout <> L400 -> p_data1 p = Some (p_stride0 p * plane_h h layout 0) ;
  ok_end2 : layout <> L400 -> p_data2 p = Some (p_stride0 p * plane_h h layout 0 + p_stride1 p * plane_h h layout 1);
  ok_hdr : p_hdr p = p_stride0 p * plane_h h layout 0 + (if layout =? L400 then 0 else 2 * (p_stride1 p * plane_h h layout 1)) + 64 - POOLBUF wide;
  ok_alloc : p_alloc p = p_hdr p + POOLBUF wide;
  ok_small : p_alloc p < 2 ^ (wbits wide - 1);
  ok_cache : ~ (1024 | p_stride0 p) /\ (layout <> L400 -> ~ (1024 | p_stride1 p)) }.

Lemma up_land : forall x, 0 <= x -> Z.land (x + 127) (Z.lnot 127) = up x /\ (exists k, up x = 128 * k) /\ x <= up x < x + 128.
Proof.
  intros x X. unfold up. change 127 with (Z.ones 7) at 2. rewrite <- Z.ldiff_land, Z.ldiff_ones_r by lia.
  rewrite shiftl_mul, shiftr_div by lia. change (2 ^ 7) with 128.
  pose proof (Z.div_mod (x + 127) 128 ltac:(lia)). pose proof (Z.mod_pos_bound (x + 127) 128 ltac:(lia)).
  split; [auto|]. split; [|lia]. exists ((x + 127) / 128). lia.
Qed.
Lemma land_mod : forall x n, 0 <= n -> Z.land x (2 ^ n - 1) = x mod 2 ^ n.
Proof. intros x n N. rewrite <- Z.land_ones by lia. rewrite Z.ones_equiv. f_equal. Qed.
(** The stride padding rule. *)
Lemma pad_ok : forall s, (64 | s) -> 0 <= s -> let t := if Z.land s 1023 =? 0 then s + 64 else s in
  (64 | t) /\ s <= t <= s + 64 /\ ~ (1024 | t).
Proof.
  intros s (k & ->) S. cbv zeta. change 1023 with (2 ^ 10 - 1). rewrite land_mod by lia. change (2 ^ 10) with 1024.
  pose proof (Z.div_mod (k * 64) 1024 ltac:(lia)). destruct (Z.eqb_spec (k * 64 mod 1024) 0) as [E|E].
  - split; [exists (k + 1); lia|]. split; [lia|]. intros (j & J). lia.
  - split; [exists k; lia|]. split; [lia|]. intros (j & J). apply E. rewrite J. apply Z.mod_mul. lia.
Qed.
Lemma half_up : forall x, 0 <= x -> exists k, up x / 2 = 64 * k /\ up x = 128 * k.
Proof. intros x X. destruct (up_land x X) as (_ & (k & E) & _). exists k. rewrite E. replace (128 * k) with (64 * k * 2) by lia. rewrite Z.div_mul by lia. lia. Qed.

Lemma alloc_ok : forall wide w h layout bpc, geometry wide w h layout bpc ->
  exists p, default_alloc wide w h layout bpc = Ok p /\ layout_ok wide w h layout bpc p.
Proof.
  intros wide w h layout bpc [W H L B N]. unfold default_alloc.
  assert (G0 : POOLBUF wide <=? PIC_ALIGN = true) by (destruct wide; reflexivity). rewrite G0.
  unfold int, fits_int, INT_MIN, INT_MAX.
  destruct (up_land w ltac:(lia)) as (EW & (kw & KW) & UW). destruct (up_land h ltac:(lia)) as (E & (kh & KH) & UH).
  assert (I1 : (-2147483648 <=? w + 127) && (w + 127 <=? 2147483647) = true) by (rewrite andb_true_iff, !Z.leb_le; lia). rewrite I1.
  assert (I2 : (-2147483648 <=? h + 127) && (h + 127 <=? 2147483647) = true) by (rewrite andb_true_iff, !Z.leb_le; lia). rewrite I2.
  cbn [obind].
  rewrite E, EW.
  assert (S : Z.shiftl (up w) (b2z (8 <? bpc)) = up w * px bpc).
  { destruct B as [-> | [-> | ->]]; unfold px, b2z; cbn; rewrite ?shiftl_mul; cbn; lia. }
  rewrite S. assert (PX : 1 <= px bpc <= 2) by (unfold px; destruct (bpc =? 8); lia).
  assert (I3 : (-2147483648 <=? up w * px bpc) && (up w * px bpc <=? 2147483647) = true) by (rewrite andb_true_iff, !Z.leb_le; nia). rewrite I3.
  cbn [obind].
  set (sy := up w * px bpc).
  assert (SY : (64 | sy) /\ 0 <= sy) by (split; [exists (2 * kw * px bpc); unfold sy; rewrite KW; lia | unfold sy; nia]).
  destruct (pad_ok sy) as (P1 & P2 & P3); try tauto. cbv zeta in P1, P2, P3.
  unfold PIC_ALIGN.
  set (ty := if Z.land sy 1023 =? 0 then sy + 64 else sy) in *.
  set (su := if negb (layout =? L400) then Z.shiftr sy (b2z (negb (layout =? L444))) else 0).
  assert (SU : layout <> L400 -> su = plane_w w layout 1 * px bpc).
  { intros NL. unfold su, plane_w. destruct (Z.eqb_spec layout L400); [contradiction|]. cbn [negb]. change (1 =? 0) with false. cbv iota.
    unfold L400, L420, L422, L444 in *. destruct (Z.eqb_spec layout 3); cbn [negb b2z].
    - subst. cbn. rewrite Z.shiftr_0_r. reflexivity.
    - assert (Q : (layout =? 1) || (layout =? 2) = true) by (rewrite orb_true_iff, !Z.eqb_eq; lia). rewrite Q.
      rewrite shiftr_div by lia. unfold sy. destruct (half_up w ltac:(lia)) as (k & -> & ->). change (2 ^ 1) with 2.
      replace (128 * k * px bpc) with (64 * k * px bpc * 2) by lia. apply Z.div_mul. lia. }
  assert (PW : (64 | plane_w w layout 1) /\ 0 < plane_w w layout 1 <= up w).
  { unfold plane_w. change (1 =? 0) with false. cbv iota. destruct (half_up w ltac:(lia)) as (k & K1 & K2). rewrite K1.
    destruct ((layout =? L420) || (layout =? L422)); (split; [|lia]); [exists k; lia|exists (2 * k); lia]. }
  assert (PH : exists k, plane_h h layout 1 = 64 * k /\ 0 < plane_h h layout 1 <= up h).
  { unfold plane_h. change (1 =? 0) with false. cbv iota. destruct (half_up h ltac:(lia)) as (k & K1 & K2). rewrite K1.
    destruct (layout =? L420); [exists k; lia|exists (2 * k); lia]. }
  destruct PH as (ph & PH1 & PH2).
  assert (HS : Z.shiftr (up h) (b2z (layout =? L420)) = plane_h h layout 1).
  { unfold plane_h. change (1 =? 0) with false. cbv iota. destruct (layout =? L420); cbn [b2z]; [rewrite shiftr_div by lia; reflexivity|apply Z.shiftr_0_r]. }
  rewrite HS.
  set (tu := if (Z.land su 1023 =? 0) && negb (layout =? L400) then su + 64 else su).
  assert (TU : (layout = L400 -> tu = 0) /\ (layout <> L400 -> (64 | tu) /\ su <= tu <= su + 64 /\ ~ (1024 | tu))).
  { unfold tu. split; intros Q.
    - unfold su. rewrite Q. reflexivity.
    - rewrite SU by auto. destruct (pad_ok (plane_w w layout 1 * px bpc)) as (A1 & A2 & A3).
      + apply Z.divide_mul_l. tauto.
      + nia.
      + apply Z.eqb_neq in Q. rewrite Q. cbn [negb]. rewrite andb_true_r. auto. }
  clearbody su tu ty.
  set (n0 := up h) in *. set (n1 := plane_h h layout 1) in *.
  assert (TU0 : 0 <= tu <= up w * px bpc + 64).
  { destruct (Z.eq_dec layout L400) as [Q|Q]; [rewrite (proj1 TU Q); clear - UW PX W; nia|]. destruct (proj2 TU Q) as (_ & A & _). rewrite (SU Q) in A.
    destruct PW as (_ & PW). clear - A PW PX. nia. }
  (* bounds on the products *)
  assert (BD : 0 <= ty * n0 /\ 0 <= tu * n1 /\ ty * n0 + 2 * (tu * n1) + 64 < 2 ^ (wbits wide - 1)).
  { assert (Y1 : ty <= 2 * up w + 64) by (unfold sy in P2; clear - P2 PX UW W; nia). assert (Y2 : tu <= 2 * up w + 64) by (clear - TU0 PX UW W; nia).
    assert (Y0 : 0 <= ty) by lia.
    assert (M1 : 0 <= ty * n0 <= (2 * up w + 64) * n0) by (split; [clear - Y0 UH H; nia|apply Z.mul_le_mono_nonneg_r; lia]).
    assert (M2 : 0 <= tu * n1 <= (2 * up w + 64) * n0) by (split; [clear - TU0 PH2; nia|apply Z.mul_le_mono_nonneg; lia]).
    split; [lia|]. split; [lia|]. destruct wide; cbn [wbits].
    - change (2 ^ (64 - 1)) with 9223372036854775808. assert ((2 * up w + 64) * n0 <= 131392 * 65664) by (apply Z.mul_le_mono_nonneg; lia). lia.
    - change (2 ^ (32 - 1)) with 2147483648. specialize (N eq_refl).
      assert (M3 : (2 * up w + 64) * n0 <= (2 * w + 320) * (h + 128)) by (apply Z.mul_le_mono_nonneg; lia). clear - M1 M2 M3 N W H. nia. }
  destruct BD as (D1 & D2 & D3).
  assert (WP : 2147483648 <= 2 ^ (wbits wide - 1) /\ 2 ^ wbits wide = 2 * 2 ^ (wbits wide - 1)).
  { destruct wide; cbn [wbits]; split; vm_compute; congruence. }
  destruct WP as (WP1 & WP2).
  unfold pdiff.
  assert (I4 : (- 2 ^ (wbits wide - 1) <=? ty * n0) && (ty * n0 <? 2 ^ (wbits wide - 1)) = true) by (rewrite andb_true_iff, Z.leb_le, Z.ltb_lt; lia).
  assert (I5 : (- 2 ^ (wbits wide - 1) <=? tu * n1) && (tu * n1 <? 2 ^ (wbits wide - 1)) = true) by (rewrite andb_true_iff, Z.leb_le, Z.ltb_lt; lia).
  rewrite I4. cbn [obind]. rewrite I5. cbn [obind].
  assert (PB : 8 <= POOLBUF wide <= 16) by (unfold POOLBUF; destruct wide; lia).
  assert (SZ : forall x, 0 <= x < 2 ^ (wbits wide - 1) -> size_t wide x = x) by (intros x X; unfold size_t; apply Z.mod_small; lia).
  rewrite (SZ (ty * n0)), (SZ (tu * n1)) by lia. rewrite (SZ (ty * n0 + 2 * (tu * n1))) by lia.
  rewrite (SZ (ty * n0 + 2 * (tu * n1) + 64 - POOLBUF wide)) by lia.
  rewrite (SZ (ty * n0 + tu * n1)) by lia.
  rewrite (SZ (ty * n0 + 2 * (tu * n1) + 64 - POOLBUF wide + POOLBUF wide)) by lia.
  assert (DV : (64 | tu)) by (destruct (Z.eq_dec layout L400) as [Q|Q]; [rewrite (proj1 TU Q); apply Z.divide_0_r|apply TU; auto]).
  assert (DY : (64 | ty * n0)) by (apply Z.divide_mul_l; auto). assert (DU : (64 | tu * n1)) by (apply Z.divide_mul_l; auto).
  assert (AL : Z.land (ty * n0 + 2 * (tu * n1) + 64 - POOLBUF wide) (wbits wide / 8 - 1) = 0).
  { destruct DY as (a & ->). destruct DU as (b & ->). destruct wide.
    - change (wbits true / 8 - 1) with (2 ^ 3 - 1). rewrite land_mod by lia. change (2 ^ 3) with 8. change (POOLBUF true) with 16.
      replace (a * 64 + 2 * (b * 64) + 64 - 16) with ((8 * a + 16 * b + 6) * 8) by lia. apply Z.mod_mul. lia.
    - change (wbits false / 8 - 1) with (2 ^ 2 - 1). rewrite land_mod by lia. change (2 ^ 2) with 4. change (POOLBUF false) with 8.
      replace (a * 64 + 2 * (b * 64) + 64 - 8) with ((16 * a + 32 * b + 14) * 4) by lia. apply Z.mod_mul. lia. }
  rewrite AL. change (0 =? 0) with true. cbv iota. eexists. split; [reflexivity|].
  assert (H0 : plane_h h layout 0 = n0) by reflexivity. assert (W0 : plane_w w layout 0 = up w) by reflexivity.
  constructor; unfold base, stride; cbn [p_stride0 p_stride1 p_data0 p_data1 p_data2 p_hdr p_alloc]; rewrite ?H0.
  - auto.
  - auto.
  - intros pl (R & Q). destruct (Z.eqb_spec pl 0); [exists 0; split; [auto|]; split; [lia|apply Z.divide_0_r]|].
    assert (NL : layout <> L400) by tauto. apply Z.eqb_neq in NL. rewrite NL. cbn [negb].
    destruct (Z.eqb_spec pl 1); eexists; (split; [reflexivity|]); (split; [lia|]); auto. apply Z.divide_add_r; auto.
  - intros ->. auto.
  - intros pl (R & Q). destruct (Z.eqb_spec pl 0) as [->|N0].
    + rewrite W0. fold sy. lia.
    + assert (NL : layout <> L400) by tauto.
      assert (W1 : plane_w w layout pl = plane_w w layout 1) by (unfold plane_w; apply Z.eqb_neq in N0; rewrite N0; reflexivity).
      rewrite W1. rewrite <- (SU NL). destruct (proj2 TU NL). lia.
  - auto.
  - intros NL. apply Z.eqb_neq in NL. rewrite NL. reflexivity.
  - intros NL. apply Z.eqb_neq in NL. rewrite NL. reflexivity.
  - fold n1. destruct (Z.eqb_spec layout L400) as [Q|Q]; [rewrite (proj1 TU Q)|]; lia.
  - lia.
  - lia.
  - split; [auto|]. intros NL. apply TU. auto.
Qed.

Lemma plane_pos : forall w h layout pl, 1 <= w -> 1 <= h -> 0 <= plane_w w layout pl /\ 0 <= plane_h h layout pl.
Proof.
  intros w h layout pl W H. destruct (up_land w ltac:(lia)) as (_ & _ & U). destruct (up_land h ltac:(lia)) as (_ & _ & V).
  pose proof (Z.div_pos (up w) 2 ltac:(lia) ltac:(lia)). pose proof (Z.div_pos (up h) 2 ltac:(lia) ltac:(lia)).
  unfold plane_w, plane_h. destruct (pl =? 0), (layout =? L420), (layout =? L422); cbn [orb]; lia.
Qed.

(** Allocation never performs an undefined operation, and every layout is as documented: 64-byte
    aligned planes and strides, one stride for both chroma planes, no chroma planes in 4:0:0. *)
Theorem C22_allocation : forall wide w h layout bpc, geometry wide w h layout bpc ->
  exists p, default_alloc wide w h layout bpc = Ok p /\ (64 | p_stride0 p) /\ (64 | p_stride1 p) /\
    (forall pl, has_plane layout pl -> exists b, base p pl = Some b /\ (64 | b)) /\
    (layout = L400 -> p_data1 p = None /\ p_data2 p = None) /\
    (** strides avoid multiples of 1024 *)
    ~ (1024 | p_stride0 p) /\ (layout <> L400 -> ~ (1024 | p_stride1 p)).
Proof.
  intros wide w h layout bpc G. destruct (alloc_ok _ _ _ _ _ G) as (p & E & K). exists p. split; [auto|].
  split; [apply K|]. split; [apply K|]. split.
  - intros pl HP. destruct (ok_base _ _ _ _ _ _ K pl HP) as (b & B1 & B2 & B3). eauto.
  - split; apply K.
Qed.
(** Every sample of the picture, rounded up to 128x128 superblocks, is stored inside the
    allocation, in front of the pool's own header, and 64 further bytes are allocated. *)
Theorem C22_inside : forall wide w h layout bpc p, geometry wide w h layout bpc -> default_alloc wide w h layout bpc = Ok p ->
  forall pl x y, has_plane layout pl -> 0 <= x < plane_w w layout pl -> 0 <= y < plane_h h layout pl ->
  0 <= addr p bpc pl x y /\ addr p bpc pl x y + px bpc <= p_hdr p /\ addr p bpc pl x y + px bpc + 64 <= p_alloc p.
Proof.
  intros wide w h layout bpc p G E pl x y HP X Y. destruct (alloc_ok _ _ _ _ _ G) as (p' & E' & K).
  rewrite E in E'. injection E' as <-. assert (PX : 1 <= px bpc <= 2) by (unfold px; destruct (bpc =? 8); lia).
  pose proof (ok_row _ _ _ _ _ _ K pl HP) as R. pose proof (ok_alloc _ _ _ _ _ _ K) as A. pose proof (ok_hdr _ _ _ _ _ _ K) as Hd.
  assert (PB : 8 <= POOLBUF wide <= 16) by (unfold POOLBUF; destruct wide; lia).
  assert (XB : x * px bpc + px bpc <= stride p pl) by nia.
  assert (YB : y * stride p pl + stride p pl <= stride p pl * plane_h h layout pl) by nia.
  assert (S0 : 0 <= stride p pl) by nia.
  assert (L1 : layout <> L400 -> 0 <= p_stride1 p * plane_h h layout 1).
  { intros NL. assert (HP1 : has_plane layout 1) by (split; [lia|tauto]). pose proof (ok_row _ _ _ _ _ _ K 1 HP1) as R1. unfold stride in R1.
    change (1 =? 0) with false in R1. cbv iota in R1.
    pose proof (plane_pos w h layout 1 (proj1 (g_w _ _ _ _ _ G)) (proj1 (g_h _ _ _ _ _ G))). clear - R1 PX H. nia. }
  destruct HP as (P & Q).
  assert (SPX : 0 <= x * px bpc) by nia. assert (SPY : 0 <= y * stride p pl) by nia.
  unfold addr. unfold base, stride in *. destruct (Z.eqb_spec pl 0) as [->|N0].
  - rewrite (ok_end0 _ _ _ _ _ _ K). destruct (Z.eqb_spec layout L400) as [Q4|Q4]; [lia|]. specialize (L1 Q4). lia.
  - assert (NL : layout <> L400) by tauto. specialize (L1 NL). pose proof (proj2 (Z.eqb_neq _ _) NL) as NB. rewrite NB in Hd.
    assert (H1 : plane_h h layout pl = plane_h h layout 1) by (unfold plane_h; apply Z.eqb_neq in N0; rewrite N0; reflexivity).
    rewrite H1 in YB.
    assert (HP0 : has_plane layout 0) by (split; [lia|auto]). pose proof (ok_row _ _ _ _ _ _ K 0 HP0) as R0. cbn in R0.
    assert (Z0 : 0 <= p_stride0 p * plane_h h layout 0).
    { pose proof (plane_pos w h layout 0 (proj1 (g_w _ _ _ _ _ G)) (proj1 (g_h _ _ _ _ _ G))) as PP. change (plane_w w layout 0) with (up w) in PP.
      clear - R0 PX PP. nia. }
    destruct (Z.eqb_spec pl 1).
    + rewrite (ok_end1 _ _ _ _ _ _ K NL). lia.
    + rewrite (ok_end2 _ _ _ _ _ _ K NL). lia.
Qed.
(** Different samples occupy different bytes. *)
Theorem C22_disjoint : forall wide w h layout bpc p, geometry wide w h layout bpc -> default_alloc wide w h layout bpc = Ok p ->
  forall pl x y pl' x' y', has_plane layout pl -> 0 <= x < plane_w w layout pl -> 0 <= y < plane_h h layout pl ->
  has_plane layout pl' -> 0 <= x' < plane_w w layout pl' -> 0 <= y' < plane_h h layout pl' ->
  (pl, x, y) <> (pl', x', y') ->
  addr p bpc pl x y + px bpc <= addr p bpc pl' x' y' \/ addr p bpc pl' x' y' + px bpc <= addr p bpc pl x y.
Proof.
  intros wide w h layout bpc p G E. destruct (alloc_ok _ _ _ _ _ G) as (p' & E' & K).
  rewrite E in E'. injection E' as <-. assert (PX : 1 <= px bpc <= 2) by (unfold px; destruct (bpc =? 8); lia).
  assert (SYM : forall pl x y pl' x' y', pl <= pl' -> has_plane layout pl -> 0 <= x < plane_w w layout pl -> 0 <= y < plane_h h layout pl ->
    has_plane layout pl' -> 0 <= x' < plane_w w layout pl' -> 0 <= y' < plane_h h layout pl' ->
    (pl, x, y) <> (pl', x', y') ->
    addr p bpc pl x y + px bpc <= addr p bpc pl' x' y' \/ addr p bpc pl' x' y' + px bpc <= addr p bpc pl x y).
  { intros pl x y pl' x' y' LE HP X Y HP' X' Y' NE.
    pose proof (ok_row _ _ _ _ _ _ K pl HP) as R. pose proof (ok_row _ _ _ _ _ _ K pl' HP') as R'.
    assert (XB : x * px bpc + px bpc <= stride p pl) by nia. assert (XB' : x' * px bpc + px bpc <= stride p pl') by nia.
    assert (YB : y * stride p pl + stride p pl <= stride p pl * plane_h h layout pl) by nia.
    assert (SPX : 0 <= x' * px bpc) by nia. assert (SPY : 0 <= y' * stride p pl') by nia.
    destruct (Z.eq_dec pl pl') as [->|NP].
    - unfold addr. destruct (ok_base _ _ _ _ _ _ K pl' HP) as (b & -> & _).
      destruct (Ztrichotomy y y') as [LT|[->|GT]].
      + left. assert ((y + 1) * stride p pl' <= y' * stride p pl') by (apply Z.mul_le_mono_nonneg_r; nia). lia.
      + assert (x <> x') by congruence. destruct (Z_lt_le_dec x x'); [left|right]; nia.
      + right. assert ((y' + 1) * stride p pl' <= y * stride p pl') by (apply Z.mul_le_mono_nonneg_r; nia). nia.
    - left. destruct HP as (P & Q), HP' as (P' & Q'). assert (NL : layout <> L400) by lia.
      unfold addr, base, stride in *.
      destruct (Z.eqb_spec pl' 0); [lia|].
      assert (HP1 : has_plane layout 1) by (split; [lia|tauto]). pose proof (ok_row _ _ _ _ _ _ K 1 HP1) as R1. unfold stride in R1.
      change (1 =? 0) with false in R1. cbv iota in R1.
      assert (L1 : 0 <= p_stride1 p * plane_h h layout 1).
      { pose proof (plane_pos w h layout 1 (proj1 (g_w _ _ _ _ _ G)) (proj1 (g_h _ _ _ _ _ G))). clear - R1 PX H. nia. }
      destruct (Z.eqb_spec pl 0) as [->|N0].
      + rewrite (ok_end0 _ _ _ _ _ _ K). destruct (Z.eqb_spec pl' 1).
        * rewrite (ok_end1 _ _ _ _ _ _ K NL). lia.
        * rewrite (ok_end2 _ _ _ _ _ _ K NL). lia.
      + assert (pl = 1) by lia. subst pl. assert (pl' = 2) by lia. subst pl'. cbn [Z.eqb Pos.eqb] in *.
        rewrite (ok_end1 _ _ _ _ _ _ K NL), (ok_end2 _ _ _ _ _ _ K NL). lia. }
  intros pl x y pl' x' y' HP X Y HP' X' Y' NE. destruct (Z_le_gt_dec pl pl').
  - apply SYM; auto.
  - apply or_comm. apply SYM; auto; try lia; try congruence.
Qed.

Example C22_example : geometry true 1920 1080 L420 10 /\
  default_alloc true 1920 1080 L420 10 = Ok (mkPlanes 3840 1920 0 (Some 4423680) (Some 5529600) 6635568 6635584) /\
  default_alloc false 8192 8192 L444 12 = Ok (mkPlanes 16448 16448 0 (Some 134742016) (Some 269484032) 404226104 404226112).
Proof. split; [constructor; unfold L420; try lia|]. vm_compute. auto. Qed.

Print Assumptions C22_allocation.
Print Assumptions C22_inside.
Print Assumptions C22_disjoint.

(** mc(): the block inter prediction process. *)
From Coq Require Import ZArith List Bool Lia.
From Verif Require Import Base.CInt Base.Lemmas Base.Loop Cdef.Block Mc.Model Mc.Kernel Mc.Blocks Mc.Funcs Mc.Edge.
From Verif Require Mc.Spec.
Import ListNotations.
Open Scope Z_scope.

(** * The specification in terms of the place of the block *)
Definition around (S : Z -> Z -> Z) (lastX lastY oy ox : Z) (y x : Z) : Z := S (Spec.Clip3 0 lastY (oy + y)) (Spec.Clip3 0 lastX (ox + x)).
Lemma split10 : forall s d x, (s + d * x) / 1024 = s / 1024 + (s mod 1024 + d * x) / 1024 /\ ((s + d * x) / 64) mod 16 = ((s mod 1024 + d * x) / 64) mod 16.
Proof.
  intros s d x. pose proof (Z.div_mod s 1024 ltac:(lia)) as E. split.
  - replace (s + d * x) with (s mod 1024 + d * x + s / 1024 * 1024) by lia. rewrite Z.div_add by lia. lia.
  - replace (s + d * x) with (s mod 1024 + d * x + (s / 1024 * 16) * 64) by lia. rewrite Z.div_add by lia. rewrite Z.mod_add by lia. reflexivity.
Qed.
Lemma pred_predP : forall bd c S lastX lastY sx sy dx dy w h f0 f1 y x,
  Spec.pred bd c S lastX lastY sx sy dx dy w h f0 f1 y x =
  predP bd (around S lastX lastY (sy / 1024) (sx / 1024)) (Spec.interpFilterIdx f1 w) (Spec.interpFilterIdx f0 h) (sx mod 1024) (sy mod 1024) dx dy c y x.
Proof.
  intros. unfold Spec.pred, predP. cbv zeta. apply K2_ext. intros t T. f_equal. unfold Spec.intermediate, first, K1. cbv zeta. change (2 ^ 6) with 64. change (2 ^ 10) with 1024.
  destruct (split10 sx dx x) as (-> & ->). f_equal. apply sum8_ext. intros s _. unfold around. f_equal. f_equal; f_equal; lia.
Qed.
(** Without scaling, half of a 1/64 sample is added. *)
Lemma predP_half : forall bd P ih iv mx my c y x, 0 <= mx <= 15 -> 0 <= my <= 15 ->
  predP bd P ih iv (64 * mx + 32) (64 * my + 32) 1024 1024 c y x = predP bd P ih iv (64 * mx) (64 * my) 1024 1024 c y x.
Proof.
  assert (H : forall m x, 0 <= m <= 15 -> ((64 * m + 32 + 1024 * x) / 64) mod 16 = m /\ (64 * m + 32 + 1024 * x) / 1024 = x).
  { intros m x H. split.
    - replace (64 * m + 32 + 1024 * x) with (32 + (m + x * 16) * 64) by ring. rewrite Z.div_add by lia. change (32 / 64) with 0. rewrite Z.add_0_l, Z.mod_add by lia. apply Z.mod_small. lia.
    - rewrite Z.mul_comm with (n := 1024). rewrite Z.div_add by lia. rewrite Z.div_small by lia. lia. }
  assert (H0 : forall m x, 0 <= m <= 15 -> ((64 * m + 1024 * x) / 64) mod 16 = m /\ (64 * m + 1024 * x) / 1024 = x).
  { intros m x H0. split.
    - replace (64 * m + 1024 * x) with ((m + x * 16) * 64) by ring. rewrite Z.div_mul by lia. rewrite Z.mod_add by lia. apply Z.mod_small. lia.
    - rewrite Z.mul_comm with (n := 1024). rewrite Z.div_add by lia. rewrite Z.div_small by lia. lia. }
  intros bd P ih iv mx my c y x Hx Hy. unfold predP, first. cbv zeta. destruct (H mx x Hx) as (-> & ->), (H my y Hy) as (-> & ->).
  destruct (H0 mx x Hx) as (-> & ->), (H0 my y Hy) as (-> & ->). reflexivity.
Qed.

(** * Positions *)
Lemma xScale_same : forall w, 1 <= w -> Spec.xScale w w = 16384.
Proof. intros w H. unfold Spec.xScale. rewrite (Z.mul_comm w), Z.div_add_l by lia. change (2 ^ 14) with 16384. rewrite Z.div_small; [lia|]. split; [apply Z.div_pos; lia|apply Z.div_lt_upper_bound; lia]. Qed.
Lemma step_same : Spec.step 16384 = 1024.
Proof. reflexivity. Qed.
Lemma start_same : forall s o mv, s = 0 \/ s = 1 -> Spec.start 16384 s o mv = 64 * (16 * o + (2 * mv) / 2 ^ s) + 32.
Proof.
  intros s o mv Hs. unfold Spec.start. cbv zeta. set (v := 2 * mv / 2 ^ s). clearbody v.
  replace ((o * 16 + v + 8) * 16384 - 8 * 2 ^ 14) with (16384 * (16 * o + v)) by (change (2 ^ 14) with 16384; ring).
  unfold Spec.Round2Signed, Spec.Round2. cbn [Z.eqb]. change (2 ^ (8 - 1)) with 128. change (2 ^ 8) with 256.
  destruct (Z.leb_spec 0 (16384 * (16 * o + v))); lia.
Qed.
(** of a motion vector component [mv] for subsampling [s] *)
Lemma mv_pos : forall s o mv, s = 0 \/ s = 1 ->
  let st := Spec.start 16384 s o mv in let m := Z.shiftl (Z.land mv (Z.shiftr 15 (1 - s))) (1 - s) in
  st / 1024 = o + Z.shiftr mv (3 + s) /\ st mod 1024 = 64 * m + 32 /\ 0 <= m <= 15 /\ ((Z.land mv (Z.shiftr 15 (1 - s)) = 0) <-> m = 0).
Proof.
  intros s o mv Hs. cbv zeta. rewrite start_same by exact Hs. rewrite Z.shiftr_div_pow2 by lia.
  assert (E : Z.land mv (Z.shiftr 15 (1 - s)) = mv mod (if s =? 0 then 8 else 16)).
  { destruct Hs as [->| ->]; [change (Z.shiftr 15 (1 - 0)) with (Z.ones 3)|change (Z.shiftr 15 (1 - 1)) with (Z.ones 4)]; rewrite Z.land_ones by lia; reflexivity. }
  rewrite E. destruct Hs as [->| ->]; cbn [Z.eqb].
  - change (2 ^ 0) with 1. change (2 ^ (3 + 0)) with 8. rewrite Z.div_1_r. change (1 - 0) with 1. rewrite Z.shiftl_mul_pow2 by lia. change (2 ^ 1) with 2.
    pose proof (Z.div_mod mv 8 ltac:(lia)). pose proof (Z.mod_pos_bound mv 8 ltac:(lia)). repeat split; lia.
  - change (2 ^ 1) with 2. change (2 ^ (3 + 1)) with 16. change (1 - 1) with 0. rewrite Z.shiftl_0_r.
    replace (2 * mv / 2) with mv by lia.
    pose proof (Z.div_mod mv 16 ltac:(lia)). pose proof (Z.mod_pos_bound mv 16 ltac:(lia)). repeat split; lia.
Qed.

(** * What the frame header guarantees (checked in dav1d_submit_frame, src/decode.c:3456-3462) *)
Record frame_ok (f : mc_in) : Prop := {
  fo_bd : depth (m_bd f);
  fo_w : 1 <= m_w f <= 65536; fo_h : 1 <= m_h f <= 65536;
  fo_rw : 1 <= m_rw f <= 65536; fo_rh : 1 <= m_rh f <= 65536;
  fo_2x : m_rw f <= m_w f * 2 /\ m_rh f <= m_h f * 2;
  fo_sx : m_rw f <> m_w f \/ m_rh f <> m_h f -> scale_fac (m_rw f) (m_w f) = Ok (m_scale_x f) /\ m_step_x f = svc_step (m_scale_x f);
  fo_sy : m_rw f <> m_w f \/ m_rh f <> m_h f -> scale_fac (m_rh f) (m_h f) = Ok (m_scale_y f) /\ m_step_y f = svc_step (m_scale_y f) }.
Lemma scale_fac_ok : forall r c s, 1 <= r <= 65536 -> 1 <= c <= 65536 -> r <= c * 2 -> scale_fac r c = Ok s ->
  s = Spec.xScale r c /\ 0 <= s <= 32768.
Proof.
  intros r c s Hr Hc H E. unfold scale_fac in E. rewrite Z.shiftl_mul_pow2, Z.shiftr_div_pow2 in E by lia. change (2 ^ 14) with 16384 in E. change (2 ^ 1) with 2 in E.
  rewrite ck_ok in E by (unfold INT_MIN, INT_MAX; lia). cbn [obind] in E. rewrite ck_ok in E by (unfold INT_MIN, INT_MAX; lia). cbn [obind] in E.
  destruct (Z.eqb_spec c 0) as [|_]; [lia|]. cbn [negb] in E. injection E as <-. rewrite Z.quot_div_nonneg by lia. split; [reflexivity|].
  split; [apply Z.div_pos; lia|]. apply Z.lt_succ_r. apply Z.div_lt_upper_bound; lia.
Qed.
Lemma step_ok : forall s, 0 <= s <= 32768 -> svc_step s = Spec.step s /\ 0 <= svc_step s <= 2048.
Proof.
  intros s H. unfold svc_step, Spec.step, Spec.Round2Signed, Spec.Round2. rewrite Z.shiftr_div_pow2 by lia. cbn [Z.eqb]. change (2 ^ (4 - 1)) with 8. change (2 ^ 4) with 16.
  destruct (Z.leb_spec 0 s); lia.
Qed.
Lemma scale_mv_ok : forall s sub o mv, 0 <= s <= 32768 -> sub = 0 \/ sub = 1 -> 0 <= o < 2 ^ 17 -> int16 mv ->
  Z.shiftl o 4 + mv * Z.shiftl 1 (1 - sub) = o * 16 + 2 * mv / 2 ^ sub /\
  scale_mv (o * 16 + 2 * mv / 2 ^ sub) s = Ok (Spec.start s sub o mv) /\ - 2 ^ 30 <= Spec.start s sub o mv <= 2 ^ 30 /\ -131072 <= o * 16 + 2 * mv / 2 ^ sub < 2 ^ 22.
Proof.
  intros s sub o mv Hs Hsub Ho Hm. unfold int16 in Hm.
  assert (E : mv * Z.shiftl 1 (1 - sub) = 2 * mv / 2 ^ sub) by (destruct Hsub as [->| ->]; [change (Z.shiftl 1 (1 - 0)) with 2; change (2 ^ 0) with 1|change (Z.shiftl 1 (1 - 1)) with 1; change (2 ^ 1) with 2]; lia).
  assert (R : -65536 <= 2 * mv / 2 ^ sub <= 65536) by (destruct Hsub as [->| ->]; [change (2 ^ 0) with 1|change (2 ^ 1) with 2]; lia).
  split; [rewrite Z.shiftl_mul_pow2 by lia; change (2 ^ 4) with 16; rewrite E; reflexivity|].
  unfold scale_mv, Spec.start. cbv zeta. set (v := 2 * mv / 2 ^ sub) in *. clearbody v. change (2 ^ 14) with 16384. change 0x4000 with 16384. change (2 ^ 17) with 131072 in *. change (2 ^ 30) with 1073741824. change (2 ^ 22) with 4194304.
  replace ((o * 16 + v + 8) * s - 8 * 16384) with ((o * 16 + v) * s + (s - 16384) * 8) by ring.
  set (T := (o * 16 + v) * s + (s - 16384) * 8) in *.
  assert (B : - (2 ^ 33) <= T <= 2 ^ 37) by (change (2 ^ 33) with 8589934592; change (2 ^ 37) with 137438953472; unfold T; nia). clearbody T.
  change (2 ^ 33) with 8589934592 in B. change (2 ^ 37) with 137438953472 in B.
  rewrite Z.shiftr_div_pow2 by lia. unfold Spec.Round2Signed, Spec.Round2. cbn [Z.eqb]. change (2 ^ (8 - 1)) with 128. change (2 ^ 8) with 256.
  rewrite ck_ok by (unfold INT_MIN, INT_MAX; lia). cbn [obind].
  destruct (Z.ltb_spec T 0), (Z.leb_spec 0 T); try lia; rewrite ck_ok by (unfold INT_MIN, INT_MAX; lia); (split; [f_equal; lia|split; lia]).
Qed.

Definition sub_x (f : mc_in) (pl : Z) : Z := b2z (ss_hor_of (m_layout f) pl).
Definition sub_y (f : mc_in) (pl : Z) : Z := b2z (ss_ver_of (m_layout f) pl).
Lemma b2z_01 : forall b, b2z b = 0 \/ b2z b = 1.
Proof. intros []; auto. Qed.
Lemma plane_size : forall n s, s = 0 \/ s = 1 -> 1 <= n -> Z.shiftr (n + s) s = (n + s) / 2 ^ s /\ 1 <= (n + s) / 2 ^ s.
Proof. intros n s Hs Hn. rewrite Z.shiftr_div_pow2 by lia. split; [reflexivity|]. destruct Hs as [->| ->]; [change (2 ^ 0) with 1|change (2 ^ 1) with 2]; lia. Qed.

(** * The functions chosen by filter_2d *)
Definition filter_ok (f0 f1 filter_2d : Z) : Prop :=
  0 <= f0 <= 3 /\ 0 <= f1 <= 3 /\ (f0 = 3 <-> f1 = 3) /\ rd_at (nth (Z.to_nat f1) filter_2d_tbl []) f0 = Ok filter_2d.
Section Chosen.
Variables (bd : Z) (P : Z -> Z -> Z) (src : Z -> Z -> outcome Z) (w h f0 f1 filter_2d : Z).
Hypothesis D : depth bd.
Hypothesis HP : forall y x, pixel bd (P y x).
Hypothesis Hw : 1 <= w <= 128.
Hypothesis Hh : 1 <= h <= 128.
Hypothesis HF : filter_ok f0 f1 filter_2d.
Let ih := Spec.interpFilterIdx f1 w.
Let iv := Spec.interpFilterIdx f0 h.
Variables (st : Z -> Z -> Z -> plane -> outcome plane) (d : plane) (y0 x0 : Z).
Definition value (put : bool) (p : Z) : Z := if put then Spec.Clip1 bd p else p - prep_bias bd.
Definition stores_for (put : bool) : Prop := stores st w h y0 x0 (if put then (fun _ => True) else int16).
Lemma chosen_ok : forall (put : bool) mx my, 0 <= mx <= 15 -> 0 <= my <= 15 -> src_ok P src w h mx my -> stores_for put ->
  exists d', (if put then fn_mc else fn_mct) bd filter_2d src w h mx my st d = Ok d' /\
    filled d d' w h y0 x0 (fun y x => value put (predP bd P ih iv (64 * mx) (64 * my) 1024 1024 (negb put) y x)).
Proof.
  intros put mx my Hmx Hmy HS ST. destruct HF as (H0 & H1 & HE & HT). pose proof (fns_ok bd P src w h f1 f0 HP st d y0 x0 f0 f1 filter_2d H0 H1 HE HT) as E.
  assert (X : forall d' c, filled d d' w h y0 x0 (fun y x => value put (pred1 bd P w h f1 f0 c mx my y x)) ->
    filled d d' w h y0 x0 (fun y x => value put (predP bd P ih iv (64 * mx) (64 * my) 1024 1024 c y x))).
  { intros d' c (A & B). split; [|exact B]. intros y x Hy Hx. rewrite A by assumption. rewrite (pred1_eq bd P src w h f1 f0 HP) by assumption. reflexivity. }
  unfold stores_for in ST. destruct put; unfold fn_mc, fn_mct; rewrite E; cbn [obind]; destruct (Z.eqb_spec f0 3) as [F|F]; cbn [negb].
  - destruct (put_bilin_ok bd P src w h f1 f0 D HP Hw Hh H1 H0 st d y0 x0 mx my ltac:(lia) ltac:(lia) Hmx Hmy HS ST) as (d' & E' & A). exists d'. split; [exact E'|apply X; exact A].
  - destruct (put_8tap_ok bd P src w h f1 f0 D HP Hw Hh H1 H0 st d y0 x0 mx my ltac:(lia) ltac:(lia) Hmx Hmy HS ST) as (d' & E' & A). exists d'. split; [exact E'|apply X; exact A].
  - destruct (prep_bilin_ok bd P src w h f1 f0 D HP Hw Hh H1 H0 st d y0 x0 mx my ltac:(lia) ltac:(lia) Hmx Hmy HS ST) as (d' & E' & A). exists d'. split; [exact E'|apply X; exact A].
  - destruct (prep_8tap_ok bd P src w h f1 f0 D HP Hw Hh H1 H0 st d y0 x0 mx my ltac:(lia) ltac:(lia) Hmx Hmy HS ST) as (d' & E' & A). exists d'. split; [exact E'|apply X; exact A].
Qed.
Lemma chosen_scaled_ok : forall (put : bool) mx my dx dy, 0 <= mx < 1024 -> 0 <= my < 1024 -> 0 <= dx <= 2048 -> 0 <= dy <= 2048 -> src_ok_s P src w h mx my dx dy -> stores_for put ->
  exists d', (if put then fn_mc_scaled else fn_mct_scaled) bd filter_2d src w h mx my dx dy st d = Ok d' /\
    filled d d' w h y0 x0 (fun y x => value put (predP bd P ih iv mx my dx dy (negb put) y x)).
Proof.
  intros put mx my dx dy Hmx Hmy Hdx Hdy HS ST. destruct HF as (H0 & H1 & HE & HT). pose proof (fns_ok bd P src w h f1 f0 HP st d y0 x0 f0 f1 filter_2d H0 H1 HE HT) as E.
  unfold stores_for in ST. destruct put; unfold fn_mc_scaled, fn_mct_scaled; rewrite E; cbn [obind]; destruct (Z.eqb_spec f0 3) as [F|F]; cbn [negb].
  - apply (put_bilin_scaled_ok bd P src w h f1 f0); try assumption; lia.
  - apply (put_8tap_scaled_ok bd P src w h f1 f0); try assumption; lia.
  - apply (prep_bilin_scaled_ok bd P src w h f1 f0); try assumption; lia.
  - apply (prep_8tap_scaled_ok bd P src w h f1 f0); try assumption; lia.
Qed.
End Chosen.

(** * The samples around a block, with or without a copy *)
Lemma window : forall (cond : bool) stride W H dx dy l t nW nH (refdata : Z -> Z -> outcome Z) S,
  1 <= W -> 1 <= H -> 1 <= nW <= stride -> 1 <= nH <= emu_rows stride -> 0 <= l -> 0 <= t ->
  (forall r c, 0 <= r < H -> 0 <= c < W -> refdata r c = Ok (S r c)) ->
  (cond = false -> 0 <= dx - l /\ dx - l + nW <= W /\ 0 <= dy - t /\ dy - t + nH <= H) ->
  exists ref, (if cond then obind (emu_edge nW nH W H (dx - l) (dy - t) stride refdata) (fun buf => Ok (fun y x => rd2 (emu_rows stride) stride buf (t + y) (l + x)))
    else Ok (fun y x => refdata (dy + y) (dx + x))) = Ok ref /\
  forall y x, - t <= y < nH - t -> - l <= x < nW - l -> ref y x = Ok (around S (W - 1) (H - 1) dy dx y x).
Proof.
  intros cond stride W H dx dy l t nW nH refdata S HW HH HnW HnH Hl Ht HS HC. destruct cond.
  - destruct (emu_edge_ok nW nH W H (dx - l) (dy - t) stride refdata S HnW HnH HW HH HS) as (buf & E & A). rewrite E. cbn [obind]. eexists. split; [reflexivity|].
    intros y x Hy Hx. apply rd2_ok; [lia|lia|]. rewrite A by lia. unfold around. f_equal. f_equal; f_equal; lia.
  - destruct (HC eq_refl) as (C1 & C2 & C3 & C4). eexists. split; [reflexivity|]. intros y x Hy Hx. cbv beta. rewrite HS by lia. unfold around, Spec.Clip3.
    destruct (Z.ltb_spec (dy + y) 0); [lia|]. destruct (Z.ltb_spec (H - 1) (dy + y)); [lia|]. destruct (Z.ltb_spec (dx + x) 0); [lia|]. destruct (Z.ltb_spec (W - 1) (dx + x)); [lia|]. reflexivity.
Qed.
Lemma mul_range : forall s n, s = 0 \/ s = 1 -> 1 <= n <= 32 -> 1 <= n * Z.shiftr 4 s <= 128.
Proof. intros s n [->| ->] H; [change (Z.shiftr 4 0) with 4|change (Z.shiftr 4 1) with 2]; lia. Qed.
Lemma around_pixel : forall bd S W H dy dx, 1 <= W -> 1 <= H -> (forall r c, 0 <= r < H -> 0 <= c < W -> pixel bd (S r c)) -> forall y x, pixel bd (around S (W - 1) (H - 1) dy dx y x).
Proof.
  intros bd S W H dy dx HW HH HS y x. unfold around. apply HS; unfold Spec.Clip3; repeat match goal with |- context [if ?a <? ?b then _ else _] => destruct (Z.ltb_spec a b) end; lia.
Qed.
Lemma filled_ext : forall d d' w h y0 x0 u v, (forall y x, u y x = v y x) -> filled d d' w h y0 x0 u -> filled d d' w h y0 x0 v.
Proof. intros d d' w h y0 x0 u v H (A & B). split; [|exact B]. intros y x Hy Hx. rewrite A by assumption. f_equal. apply H. Qed.

Section Mc.
Variables (f : mc_in) (put : bool) (st : Z -> Z -> Z -> plane -> outcome plane) (d : plane) (y0 x0 : Z).
Variables (bw4 bh4 bx by_ pl mvx mvy : Z) (refdata : Z -> Z -> outcome Z) (S : Z -> Z -> Z) (f0 f1 filter_2d : Z).
Let ssx := b2z (ss_hor_of (m_layout f) pl).
Let ssy := b2z (ss_ver_of (m_layout f) pl).
Let bw := bw4 * Z.shiftr 4 ssx.
Let bh := bh4 * Z.shiftr 4 ssy.
Let px := bx * Z.shiftr 4 ssx.
Let py := by_ * Z.shiftr 4 ssy.
Hypothesis D : depth (m_bd f).
Hypothesis Hw : 1 <= bw4 <= 32.
Hypothesis Hh : 1 <= bh4 <= 32.
Hypothesis HF : filter_ok f0 f1 filter_2d.
Hypothesis ST : stores_for bw bh st y0 x0 put.

Lemma b2z_ne : forall m k, (m = 0 <-> k = 0) -> b2z (negb (m =? 0)) = (if k =? 0 then 0 else 1).
Proof. intros m k H. destruct (Z.eqb_spec m 0), (Z.eqb_spec k 0); try reflexivity; tauto. Qed.
Lemma unscaled_ok : forall W H, m_rw f = m_w f -> m_rh f = m_h f ->
  W = (if negb (m_same f) then Z.shiftr (m_w f + ssx) ssx else Z.shiftr (m_bw f * 4) ssx) ->
  H = (if negb (m_same f) then Z.shiftr (m_h f + ssy) ssy else Z.shiftr (m_bh f * 4) ssy) ->
  1 <= W -> 1 <= H ->
  (forall r c, 0 <= r < H -> 0 <= c < W -> refdata r c = Ok (S r c) /\ pixel (m_bd f) (S r c)) ->
  exists d', mc f put st d bw4 bh4 bx by_ pl mvx mvy refdata filter_2d = Ok d' /\
    filled d d' bw bh y0 x0 (fun y x => value (m_bd f) put
      (Spec.pred (m_bd f) (negb put) S (W - 1) (H - 1) (Spec.start 16384 ssx px mvx) (Spec.start 16384 ssy py mvy) 1024 1024 bw bh f0 f1 y x)).
Proof.
  intros W H E1 E2 EW EH HW HH HS. unfold mc. cbv zeta. fold ssx. fold ssy. fold bw. fold bh. fold px. fold py. rewrite E1, E2, !Z.eqb_refl. cbn [andb]. rewrite <- EW, <- EH.
  pose proof (b2z_01 (ss_hor_of (m_layout f) pl)) as SX. pose proof (b2z_01 (ss_ver_of (m_layout f) pl)) as SY. change (ssx = 0 \/ ssx = 1) in SX. change (ssy = 0 \/ ssy = 1) in SY.
  assert (Bw : 1 <= bw <= 128) by (apply mul_range; assumption). assert (Bh : 1 <= bh <= 128) by (apply mul_range; assumption).
  destruct (mv_pos ssx px mvx SX) as (X1 & X2 & X3 & X4). destruct (mv_pos ssy py mvy SY) as (Y1 & Y2 & Y3 & Y4). cbv zeta in *.
  set (imx := Z.land mvx (Z.shiftr 15 (1 - ssx))) in *. set (imy := Z.land mvy (Z.shiftr 15 (1 - ssy))) in *. rewrite !(b2z_ne imx _ X4), !(b2z_ne imy _ Y4).
  set (mx := Z.shiftl imx (1 - ssx)) in *. set (my := Z.shiftl imy (1 - ssy)) in *.
  set (dx := px + Z.shiftr mvx (3 + ssx)) in *. set (dy := py + Z.shiftr mvy (3 + ssy)) in *.
  set (a := (if mx =? 0 then 0 else 1)) in *. set (b := (if my =? 0 then 0 else 1)) in *.
  assert (Ha : 0 <= a <= 1) by (unfold a; destruct (mx =? 0); lia). assert (Hb : 0 <= b <= 1) by (unfold b; destruct (my =? 0); lia).
  match goal with |- context [if ?c then obind (emu_edge _ _ _ _ _ _ _ _) _ else _] => destruct (window c 192 W H dx dy (a * 3) (b * 3) (bw + a * 7) (bh + b * 7) refdata S) as (ref & ER & AR) end;
    [exact HW|exact HH|lia|change (emu_rows 192) with 438; lia|lia|lia|intros r c Hr Hc; apply HS; assumption| |].
  { intros C. repeat apply orb_false_iff in C as [C ?]. repeat match goal with K : (_ <? _) = false |- _ => apply Z.ltb_ge in K end. lia. }
  rewrite ER. cbn [obind]. set (P := around S (W - 1) (H - 1) dy dx) in *.
  assert (HP : forall y x, pixel (m_bd f) (P y x)) by (apply around_pixel; [assumption|assumption|intros r c Hr Hc; apply HS; assumption]).
  assert (SO : src_ok P ref bw bh mx my).
  { unfold src_ok. intros y x Hy Hx. apply AR; unfold a, b; destruct (mx =? 0), (my =? 0); lia. }
  destruct (chosen_ok (m_bd f) P ref bw bh f0 f1 filter_2d D HP Bw Bh HF st d y0 x0 put mx my X3 Y3 SO ST) as (d' & E & A).
  exists d'. split; [exact E|]. apply (filled_ext _ _ _ _ _ _ _ _) with (2 := A). intros y x. rewrite pred_predP. rewrite X1, Y1, X2, Y2. rewrite predP_half by assumption. reflexivity.
Qed.

Lemma len_range : forall n k, 1 <= n <= 128 -> 0 <= k <= 2048 -> 0 <= (n - 1) * k <= 127 * 2048.
Proof. intros. nia. Qed.
Lemma span : forall s st n, 0 <= st <= 2048 -> 1 <= n <= 128 ->
  Z.shiftr s 10 = s / 1024 /\ Z.land s 1023 = s mod 1024 /\ 0 <= s mod 1024 < 1024 /\
  Z.shiftr (s + (n - 1) * st) 10 = s / 1024 + (s mod 1024 + st * (n - 1)) / 1024 /\ 0 <= (s mod 1024 + st * (n - 1)) / 1024 <= 254.
Proof.
  intros s k n Hs Hn. rewrite !Z.shiftr_div_pow2 by lia. change (2 ^ 10) with 1024. change 1023 with (Z.ones 10). rewrite Z.land_ones by lia. change (2 ^ 10) with 1024.
  pose proof (Z.mod_pos_bound s 1024 ltac:(lia)) as M. destruct (split10 s k (n - 1)) as (E & _). rewrite (Z.mul_comm (n - 1)). rewrite E.
  assert (0 <= k * (n - 1) <= 2048 * 127) by nia. set (q := k * (n - 1)) in *. clearbody q.
  split; [reflexivity|]. split; [reflexivity|]. split; [exact M|]. split; [reflexivity|]. split; [apply Z.div_pos; lia|]. apply Z.lt_succ_r. apply Z.div_lt_upper_bound; lia.
Qed.
Lemma scaled_ok : forall W H, frame_ok f -> m_rw f <> m_w f \/ m_rh f <> m_h f -> m_same f = false ->
  W = Z.shiftr (m_rw f + ssx) ssx -> H = Z.shiftr (m_rh f + ssy) ssy -> 1 <= W -> 1 <= H ->
  0 <= px < 2 ^ 17 -> 0 <= py < 2 ^ 17 -> int16 mvx -> int16 mvy ->
  (forall r c, 0 <= r < H -> 0 <= c < W -> refdata r c = Ok (S r c) /\ pixel (m_bd f) (S r c)) ->
  exists d', mc f put st d bw4 bh4 bx by_ pl mvx mvy refdata filter_2d = Ok d' /\
    filled d d' bw bh y0 x0 (fun y x => value (m_bd f) put
      (Spec.pred (m_bd f) (negb put) S (W - 1) (H - 1) (Spec.start (Spec.xScale (m_rw f) (m_w f)) ssx px mvx) (Spec.start (Spec.xScale (m_rh f) (m_h f)) ssy py mvy)
        (Spec.step (Spec.xScale (m_rw f) (m_w f))) (Spec.step (Spec.xScale (m_rh f) (m_h f))) bw bh f0 f1 y x)).
Proof.
  intros W H FO NE NS EW EH HW HH Bpx Bpy Imx Imy HS. destruct FO as [_ F1 F2 F3 F4 (F5 & F6) F7 F8]. destruct (F7 NE) as (Q1 & Q2). destruct (F8 NE) as (Q3 & Q4). clear F7 F8.
  destruct (scale_fac_ok _ _ _ F3 F1 F5 Q1) as (Q5 & Q6). destruct (scale_fac_ok _ _ _ F4 F2 F6 Q3) as (Q7 & Q8). rewrite <- Q5, <- Q7.
  destruct (step_ok _ Q6) as (Q9 & Q10). destruct (step_ok _ Q8) as (Q11 & Q12). rewrite <- Q2 in *. rewrite <- Q4 in *. rewrite <- Q9, <- Q11.
  pose proof (b2z_01 (ss_hor_of (m_layout f) pl)) as SX. pose proof (b2z_01 (ss_ver_of (m_layout f) pl)) as SY. change (ssx = 0 \/ ssx = 1) in SX. change (ssy = 0 \/ ssy = 1) in SY.
  assert (Bw : 1 <= bw <= 128) by (apply mul_range; assumption). assert (Bh : 1 <= bh <= 128) by (apply mul_range; assumption).
  destruct (scale_mv_ok _ ssx px mvx Q6 SX Bpx Imx) as (X1 & X2 & X3 & X4). destruct (scale_mv_ok _ ssy py mvy Q8 SY Bpy Imy) as (Y1 & Y2 & Y3 & Y4).
  unfold mc. cbv zeta. fold ssx. fold ssy. fold bw. fold bh. fold px. fold py.
  assert (N : (m_rw f =? m_w f) && (m_rh f =? m_h f) = false) by (apply andb_false_iff; destruct NE as [K|K]; apply Z.eqb_neq in K; auto). rewrite N, NS. cbn [negb].
  rewrite X1, Y1. change (2 ^ 22) with 4194304 in X4, Y4. change (2 ^ 30) with 1073741824 in X3, Y3. rewrite !ck_ok by (unfold INT_MIN, INT_MAX; lia). cbn [obind]. rewrite X2, Y2. cbn [obind].
  set (sx := Spec.start (m_scale_x f) ssx px mvx) in *. set (sy := Spec.start (m_scale_y f) ssy py mvy) in *. rewrite <- EW, <- EH.
  clearbody sx sy. clear X1 X2 Y1 Y2. destruct (span sx (m_step_x f) bw Q10 Bw) as (A1 & A2 & A3 & A4 & A5). destruct (span sy (m_step_y f) bh Q12 Bh) as (B1 & B2 & B3 & B4 & B5).
  assert (R1 := len_range bw (m_step_x f) Bw Q10). assert (R2 := len_range bh (m_step_y f) Bh Q12).
  rewrite (ck_ok (sx + (bw - 1) * m_step_x f)) by (clear - R1 X3; unfold INT_MIN, INT_MAX; lia). rewrite (ck_ok (sy + (bh - 1) * m_step_y f)) by (clear - R2 Y3; unfold INT_MIN, INT_MAX; lia).
  cbn [obind]. rewrite A1, A2, A4, B1, B2, B4.
  set (ex := (sx mod 1024 + m_step_x f * (bw - 1)) / 1024) in *. set (ey := (sy mod 1024 + m_step_y f * (bh - 1)) / 1024) in *.
  match goal with |- context [if ?c then obind (emu_edge ?a1 ?a2 _ _ _ _ _ _) _ else _] => destruct (window c 320 W H (sx / 1024) (sy / 1024) 3 3 a1 a2 refdata S) as (ref & ER & AR) end;
    [exact HW|exact HH|clear - A5; clearbody ex; generalize (sx / 1024); intros; lia|change (emu_rows 320) with 263; clear - B5; clearbody ey; generalize (sy / 1024); intros; lia|clear; lia|clear; lia|intros r c Hr Hc; apply HS; assumption| |].
  { clear - A5 B5. clearbody ex ey. generalize (sx / 1024), (sy / 1024). intros u v C. repeat apply orb_false_iff in C as [C ?]. repeat match goal with K : (_ <? _) = false |- _ => apply Z.ltb_ge in K end. lia. }
  rewrite ER. cbn [obind]. set (P := around S (W - 1) (H - 1) (sy / 1024) (sx / 1024)) in *.
  assert (HP : forall y x, pixel (m_bd f) (P y x)) by (apply around_pixel; [assumption|assumption|intros r c Hr Hc; apply HS; assumption]).
  assert (SO : src_ok_s P ref bw bh (sx mod 1024) (sy mod 1024) (m_step_x f) (m_step_y f)).
  { unfold src_ok_s. fold ex. fold ey. intros y x Hy Hx. apply AR; [clear - Hy B5; clearbody ey; revert Hy; generalize (sy / 1024)|clear - Hx A5; clearbody ex; revert Hx; generalize (sx / 1024)]; intros; lia. }
  destruct (chosen_scaled_ok (m_bd f) P ref bw bh f0 f1 filter_2d D HP Bw Bh HF st d y0 x0 put _ _ _ _ A3 B3 Q10 Q12 SO ST) as (d' & E & A).
  exists d'. split; [exact E|]. apply (filled_ext _ _ _ _ _ _ _ _) with (2 := A). intros y x. rewrite pred_predP. reflexivity.
Qed.

(** From a reference frame *)
Lemma mc_ok : frame_ok f -> m_same f = false -> 0 <= px < 2 ^ 17 -> 0 <= py < 2 ^ 17 -> int16 mvx -> int16 mvy ->
  (forall r c, 0 <= r < (m_rh f + ssy) / 2 ^ ssy -> 0 <= c < (m_rw f + ssx) / 2 ^ ssx -> refdata r c = Ok (S r c) /\ pixel (m_bd f) (S r c)) ->
  exists d', mc f put st d bw4 bh4 bx by_ pl mvx mvy refdata filter_2d = Ok d' /\
    filled d d' bw bh y0 x0 (fun y x => value (m_bd f) put
      (Spec.block_inter (m_bd f) (negb put) S (m_rw f) (m_rh f) (m_w f) (m_h f) ssx ssy px py bw bh mvy mvx f0 f1 y x)).
Proof.
  intros FO NS Bpx Bpy Imx Imy HS.
  pose proof (b2z_01 (ss_hor_of (m_layout f) pl)) as SX. pose proof (b2z_01 (ss_ver_of (m_layout f) pl)) as SY. change (ssx = 0 \/ ssx = 1) in SX. change (ssy = 0 \/ ssy = 1) in SY.
  destruct (plane_size (m_rw f) ssx SX (proj1 (fo_rw _ FO))) as (W1 & W2). destruct (plane_size (m_rh f) ssy SY (proj1 (fo_rh _ FO))) as (H1 & H2).
  unfold Spec.block_inter. cbv zeta. rewrite <- W1, <- H1 in *.
  destruct (Z.eq_dec (m_rw f) (m_w f)) as [E1|E1].
  - destruct (Z.eq_dec (m_rh f) (m_h f)) as [E2|E2].
    + replace (Spec.xScale (m_rw f) (m_w f)) with 16384 by (rewrite E1; symmetry; apply xScale_same; apply (fo_w _ FO)).
      replace (Spec.xScale (m_rh f) (m_h f)) with 16384 by (rewrite E2; symmetry; apply xScale_same; apply (fo_h _ FO)).
      rewrite step_same. apply unscaled_ok; try assumption; rewrite NS; cbn [negb]; congruence.
    + apply scaled_ok; auto.
  - apply scaled_ok; auto.
Qed.
End Mc.

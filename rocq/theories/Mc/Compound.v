(** The prediction of compound blocks and of intra block copy. *)
From Coq Require Import ZArith List Bool Lia.
From Verif Require Import Base.CInt Base.Lemmas Base.Loop Cdef.Block Mc.Model Mc.Kernel Mc.Blocks Mc.Funcs Mc.Whole Mc.Comb.
From Verif Require Mc.Spec.
Import ListNotations.
Open Scope Z_scope.

Lemma subX_eq : forall layout pl, b2z (ss_hor_of layout pl) = Spec.subX layout pl.
Proof. intros. unfold ss_hor_of, Spec.subX. destruct (pl =? 0), (layout =? 3); reflexivity. Qed.
Lemma subY_eq : forall layout pl, b2z (ss_ver_of layout pl) = Spec.subY layout pl.
Proof. intros. unfold ss_ver_of, Spec.subY. destruct (pl =? 0), (layout =? 1); reflexivity. Qed.
Lemma subX_01 : forall layout pl, Spec.subX layout pl = 0 \/ Spec.subX layout pl = 1.
Proof. intros. rewrite <- subX_eq. apply b2z_01. Qed.
Lemma subY_01 : forall layout pl, Spec.subY layout pl = 0 \/ Spec.subY layout pl = 1.
Proof. intros. rewrite <- subY_eq. apply b2z_01. Qed.
Lemma size_eq : forall n s, s = 0 \/ s = 1 -> n * Z.shiftr 4 s = n * 4 / 2 ^ s /\ Z.shiftr (n * 4) s = n * 4 / 2 ^ s.
Proof.
  intros n s Hs. rewrite (Z.shiftr_div_pow2 (n * 4)) by lia. split; [|reflexivity]. destruct Hs as [->| ->]; [change (Z.shiftr 4 0) with 4; change (2 ^ 0) with 1|change (Z.shiftr 4 1) with 2; change (2 ^ 1) with 2]; lia.
Qed.

(** [mc_ok] with the sizes of the specification *)
Definition at_block (f : mc_in) (compound : bool) (S : Z -> Z -> Z) (bw4 bh4 bx by_ pl mvx mvy f0 f1 y x : Z) : Z :=
  let sx := Spec.subX (m_layout f) pl in let sy := Spec.subY (m_layout f) pl in
  Spec.block_inter (m_bd f) compound S (m_rw f) (m_rh f) (m_w f) (m_h f) sx sy (bx * 4 / 2 ^ sx) (by_ * 4 / 2 ^ sy) (bw4 * 4 / 2 ^ sx) (bh4 * 4 / 2 ^ sy) mvy mvx f0 f1 y x.
Definition ref_ok (f : mc_in) (pl : Z) (refdata : Z -> Z -> outcome Z) (S : Z -> Z -> Z) : Prop :=
  forall r c, 0 <= r < (m_rh f + Spec.subY (m_layout f) pl) / 2 ^ Spec.subY (m_layout f) pl -> 0 <= c < (m_rw f + Spec.subX (m_layout f) pl) / 2 ^ Spec.subX (m_layout f) pl ->
    refdata r c = Ok (S r c) /\ pixel (m_bd f) (S r c).
Lemma pos_range : forall n s, s = 0 \/ s = 1 -> 0 <= n < 2 ^ 15 -> 0 <= n * 4 / 2 ^ s < 2 ^ 17.
Proof. intros n s Hs H. change (2 ^ 15) with 32768 in H. change (2 ^ 17) with 131072. destruct Hs as [->| ->]; [change (2 ^ 0) with 1|change (2 ^ 1) with 2]; lia. Qed.
Lemma mc_at : forall f put st d y0 x0 bw4 bh4 bx by_ pl mvx mvy refdata S f0 f1 filter_2d,
  let w := bw4 * 4 / 2 ^ Spec.subX (m_layout f) pl in let h := bh4 * 4 / 2 ^ Spec.subY (m_layout f) pl in
  1 <= bw4 <= 32 -> 1 <= bh4 <= 32 -> filter_ok f0 f1 filter_2d -> stores_for w h st y0 x0 put -> frame_ok f -> m_same f = false ->
  0 <= bx < 2 ^ 15 -> 0 <= by_ < 2 ^ 15 -> int16 mvx -> int16 mvy -> ref_ok f pl refdata S ->
  exists d', mc f put st d bw4 bh4 bx by_ pl mvx mvy refdata filter_2d = Ok d' /\
    filled d d' w h y0 x0 (fun y x => value (m_bd f) put (at_block f (negb put) S bw4 bh4 bx by_ pl mvx mvy f0 f1 y x)).
Proof.
  intros f put st d y0 x0 bw4 bh4 bx by_ pl mvx mvy refdata S f0 f1 filter_2d w h Hw Hh HF ST FO NS Hx Hy Mx My HR.
  assert (SX := subX_01 (m_layout f) pl). assert (SY := subY_01 (m_layout f) pl).
  assert (BX := pos_range bx _ SX Hx). assert (BY := pos_range by_ _ SY Hy).
  assert (M := mc_ok f put st d y0 x0 bw4 bh4 bx by_ pl mvx mvy refdata S f0 f1 filter_2d (fo_bd _ FO) Hw Hh HF).
  unfold at_block, w, h, ref_ok in *. rewrite subX_eq, subY_eq in M.
  rewrite (proj1 (size_eq bw4 _ SX)), (proj1 (size_eq bh4 _ SY)), (proj1 (size_eq bx _ SX)), (proj1 (size_eq by_ _ SY)) in M.
  apply M; assumption.
Qed.

(** * Compound *)
Section Compound.
Variables (k : comp_in) (ct : comp_type) (layout bd : Z) (S : bool -> Z -> Z -> Z -> Z) (wedge : bool -> Z -> Z -> Z) (f0 f1 : Z).
Record comp_ok : Prop := {
  co_frame : forall i, frame_ok (k_f k i); co_other : forall i, m_same (k_f k i) = false;
  co_layout : forall i, m_layout (k_f k i) = layout; co_bd : forall i, m_bd (k_f k i) = bd;
  co_layout_r : 0 <= layout <= 3;
  co_w : 1 <= k_bw4 k <= 32; co_h : 1 <= k_bh4 k <= 32;
  co_x : 0 <= k_bx k < 2 ^ 15; co_y : 0 <= k_by k < 2 ^ 15;
  co_mv : forall i, int16 (k_mvx k i) /\ int16 (k_mvy k i);
  co_filter : filter_ok f0 f1 (k_filter k) }.
Definition refs_ok (pl : Z) : Prop := forall i, ref_ok (k_f k i) pl (k_ref k i pl) (S i pl).
Definition ctype : Spec.compound_type :=
  match ct with COMP_AVG => Spec.COMPOUND_AVERAGE | COMP_WEIGHTED_AVG w => Spec.COMPOUND_DISTANCE w (16 - w) | COMP_SEG s => Spec.COMPOUND_DIFFWTD s | COMP_WEDGE s => Spec.COMPOUND_WEDGE s end.
Definition two (i : bool) (pl y x : Z) : Z := at_block (k_f k i) true (S i pl) (k_bw4 k) (k_bh4 k) (k_bx k) (k_by k) pl (k_mvx k i) (k_mvy k i) f0 f1 y x.
Definition bw (pl : Z) : Z := k_bw4 k * 4 / 2 ^ Spec.subX layout pl.
Definition bh (pl : Z) : Z := k_bh4 k * 4 / 2 ^ Spec.subY layout pl.
(** What a wedge block needs of its masks. *)
Definition wedge_ok : Prop := match ct with COMP_WEDGE s =>
  (forall y x, wedge true y x = 64 - wedge false y x) /\
  (forall y x, 0 <= y < bh 0 -> 0 <= x < bw 0 -> k_wedge k 0 0 y x = Ok (wedge false y x)) /\
  (layout <> 0 -> forall y x, 0 <= y < bh 1 -> 0 <= x < bw 1 -> k_wedge k (layout_idx layout) (b2z s) y x =
    Ok (let m := Spec.mask_at (wedge s) (Spec.subX layout 1 =? 1) (Spec.subY layout 1 =? 1) y x in if s then 64 - m else m))
  | _ => True end.
(** what is predicted from either reference, and that it is what [tmps] computes *)
Variables (tmps : Z -> bool -> outcome plane) (tw : bool -> Z -> Z -> Z -> Z).
Definition tmps_ok (pl : Z) : Prop := forall i, exists t, tmps pl i = Ok t /\ forall y x, 0 <= y < bh pl -> 0 <= x < bw pl -> tmp_rd k pl t y x = Ok (tw i pl y x - prep_bias bd).
Definition result (pl y x : Z) : Z := Spec.compound bd layout ctype tw wedge pl y x.
Hypothesis OK : comp_ok.
Hypothesis WO : wedge_ok.

Lemma plane_w_eq : forall pl, plane_w k pl = bw pl.
Proof. intros. unfold plane_w, bw. rewrite (co_layout OK false), subX_eq. apply size_eq. apply subX_01. Qed.
Lemma plane_h_eq : forall pl, plane_h k pl = bh pl.
Proof. intros. unfold plane_h, bh. rewrite (co_layout OK false), subY_eq. apply size_eq. apply subY_01. Qed.
Lemma size_pos : forall pl, 1 <= bw pl /\ 1 <= bh pl.
Proof.
  intros pl. destruct OK as [_ _ _ _ _ Hw Hh _ _ _ _]. unfold bw, bh.
  destruct (subX_01 layout pl) as [E|E], (subY_01 layout pl) as [E'|E']; rewrite E, E'; change (2 ^ 0) with 1; change (2 ^ 1) with 2; lia.
Qed.
Lemma comp_tmp_ok : forall pl i, refs_ok pl ->
  exists t, comp_tmp k pl i = Ok t /\ forall y x, 0 <= y < bh pl -> 0 <= x < bw pl -> tmp_rd k pl t y x = Ok (two i pl y x - prep_bias bd).
Proof.
  intros pl i HR. unfold comp_tmp.
  destruct (mc_at (k_f k i) false (st_tmp (plane_w k pl) (plane_h k pl)) plane0 0 0 (k_bw4 k) (k_bh4 k) (k_bx k) (k_by k) pl (k_mvx k i) (k_mvy k i) (k_ref k i pl) (S i pl) f0 f1 (k_filter k)) as (t & E & A & _).
  - apply OK.
  - apply OK.
  - apply OK.
  - rewrite (co_layout OK i). fold (bw pl). fold (bh pl). rewrite plane_w_eq, plane_h_eq. apply st_tmp_ok.
  - apply OK.
  - apply OK.
  - apply OK.
  - apply OK.
  - apply OK.
  - apply OK.
  - apply HR.
  - exists t. split; [exact E|]. intros y x Hy Hx. unfold tmp_rd. rewrite plane_w_eq, plane_h_eq. apply rd2_ok; [exact Hy|exact Hx|].
    specialize (A y x). rewrite (co_layout OK i) in A. fold (bw pl) in A. fold (bh pl) in A. rewrite !Z.add_0_l in A. rewrite A by assumption. unfold value, two. cbn [negb]. rewrite (co_bd OK i). reflexivity.
Qed.

Lemma sub_mask_eq : forall (s : bool) ssx ssy (p0 p1 : Z -> Z -> Z) r c, sub_ok ssx ssy ->
  Spec.mask_at (fun i j => Spec.difference_weight bd s (p0 i j) (p1 i j)) (ssx =? 1) (ssy =? 1) r c =
  (if s then 64 - sub_mask bd p1 p0 1 ssx ssy r c else sub_mask bd p0 p1 0 ssx ssy r c).
Proof.
  intros s ssx ssy p0 p1 r c [(-> & ->)|[(-> & ->)|(-> & ->)]]; unfold Spec.mask_at, sub_mask; cbn [Z.eqb Pos.eqb].
  - destruct s; [|reflexivity]. rewrite (weight_sym bd false). reflexivity.
  - unfold Spec.Round2. cbn [Z.eqb]. change (2 ^ (1 - 1)) with 1. change (2 ^ 1) with 2. destruct s; [|f_equal; lia].
    rewrite !(weight_sym bd false (p1 _ _)). unfold Spec.difference_weight. cbv zeta. set (a := Spec.Clip3 _ _ _). set (b := Spec.Clip3 _ _ (38 + Spec.Round2 (Z.abs (p0 r (2 * c + 1) - _)) _ / 16)). clearbody a b. lia.
  - replace (Z.even (2 * r + 1)) with false by (rewrite Z.even_add, Z.even_mul; reflexivity). replace (2 * r + 1 - 1) with (2 * r) by lia.
    unfold Spec.Round2. cbn [Z.eqb]. change (2 ^ (2 - 1)) with 2. change (2 ^ 2) with 4. destruct s; [|f_equal; lia].
    rewrite !(weight_sym bd false (p1 _ _)).
    set (a := Spec.difference_weight bd false (p0 (2 * r) (2 * c)) (p1 (2 * r) (2 * c))). set (b := Spec.difference_weight bd false (p0 (2 * r) (2 * c + 1)) (p1 (2 * r) (2 * c + 1))).
    set (e := Spec.difference_weight bd false (p0 (2 * r + 1) (2 * c)) (p1 (2 * r + 1) (2 * c))). set (g := Spec.difference_weight bd false (p0 (2 * r + 1) (2 * c + 1)) (p1 (2 * r + 1) (2 * c + 1))).
    assert (X : forall u v, Spec.difference_weight bd true u v = 64 - Spec.difference_weight bd false u v) by reflexivity. rewrite !X. fold a b e g. clearbody a b e g. lia.
Qed.

Lemma sub_ok_layout : sub_ok (Spec.subX layout 1) (Spec.subY layout 1).
Proof. unfold sub_ok, Spec.subX, Spec.subY. cbn [Z.eqb orb]. destruct (Z.eqb_spec layout 3), (Z.eqb_spec layout 1); cbn [negb]; auto. lia. Qed.
Lemma sub_pl : forall pl, 1 <= pl -> Spec.subX layout pl = Spec.subX layout 1 /\ Spec.subY layout pl = Spec.subY layout 1.
Proof. intros pl H. unfold Spec.subX, Spec.subY. replace (pl =? 0) with false by (symmetry; apply Z.eqb_neq; lia). split; reflexivity. Qed.
Lemma sub_0 : Spec.subX layout 0 = 0 /\ Spec.subY layout 0 = 0.
Proof. split; reflexivity. Qed.
Lemma mono_or_idx : layout = 0 \/ (if layout_idx layout =? 0 then 0 else 1) = Spec.subX layout 1 /\ (if layout_idx layout =? 2 then 1 else 0) = Spec.subY layout 1.
Proof.
  pose proof (co_layout_r OK). assert (layout = 0 \/ layout = 1 \/ layout = 2 \/ layout = 3) as [H1|[H1|[H1|H1]]] by lia; [left; exact H1|right|right|right]; rewrite H1; split; reflexivity.
Qed.
(** the mask that comp_luma hands to comp_chroma *)
Definition mask_good_of (mask : Z -> Z -> outcome Z) : Prop :=
  match ct with
  | COMP_SEG s => layout <> 0 -> forall r c, 0 <= r < bh 1 -> 0 <= c < bw 1 ->
      mask r c = Ok (let m := Spec.mask_at (fun i j => Spec.difference_weight bd s (tw false 0 i j) (tw true 0 i j)) (Spec.subX layout 1 =? 1) (Spec.subY layout 1 =? 1) r c in if s then 64 - m else m)
  | COMP_WEDGE s => layout <> 0 -> forall r c, 0 <= r < bh 1 -> 0 <= c < bw 1 -> mask r c = Ok (let m := Spec.mask_at (wedge s) (Spec.subX layout 1 =? 1) (Spec.subY layout 1 =? 1) r c in if s then 64 - m else m)
  | _ => True
  end.
Variables (st : Z -> Z -> Z -> plane -> outcome plane) (d : plane) (y0 x0 : Z).
Lemma diff_flip : forall s u v, Spec.mask_blend bd (Spec.difference_weight bd true u v) s v = Spec.mask_blend bd (Spec.difference_weight bd false u v) v s.
Proof. intros. unfold Spec.difference_weight at 1. cbv zeta. rewrite mask_blend_sym. reflexivity. Qed.
Lemma comp_luma_of_ok : tmps_ok 0 -> stores st (bw 0) (bh 0) y0 x0 (fun _ => True) ->
  exists d' mask, comp_luma_of k ct tmps st d = Ok (d', mask) /\ filled d d' (bw 0) (bh 0) y0 x0 (result 0) /\ mask_good_of mask.
Proof.
  intros HR ST. destruct (HR false) as (t0 & E0 & A0). destruct (HR true) as (t1 & E1 & A1). destruct (size_pos 0) as (W0 & H0).
  assert (D : depth bd) by (rewrite <- (co_bd OK false); apply (fo_bd _ (co_frame OK false))).
  unfold comp_luma_of. rewrite E0. cbn [obind]. rewrite E1. cbn [obind]. cbv zeta. rewrite plane_w_eq, plane_h_eq, (co_bd OK false), (co_layout OK false).
  set (p0 := tw false 0) in *. set (p1 := tw true 0) in *. pose proof WO as WO'. unfold wedge_ok in WO'. unfold result, Spec.compound, mask_good_of, ctype. cbv zeta. fold p0. fold p1. destruct ct as [|wt|s|s].
  - destruct (avg_ok bd (bw 0) (bh 0) (tmp_rd k 0 t0) (tmp_rd k 0 t1) p0 p1 st d y0 x0 D H0 ltac:(lia) A0 A1 ST) as (d' & E & F). rewrite E. cbn [obind]. eexists. eexists. split; [reflexivity|]. split; [exact F|exact I].
  - destruct (w_avg_ok bd (bw 0) (bh 0) (tmp_rd k 0 t0) (tmp_rd k 0 t1) p0 p1 st d y0 x0 D H0 ltac:(lia) A0 A1 ST wt) as (d' & E & F). rewrite E. cbn [obind]. eexists. eexists. split; [reflexivity|]. split; [exact F|exact I].
  - set (ssx := if layout_idx layout =? 0 then 0 else 1). set (ssy := if layout_idx layout =? 2 then 1 else 0).
    assert (SO : sub_ok ssx ssy). { unfold sub_ok, ssx, ssy. destruct (Z.eqb_spec (layout_idx layout) 0) as [K|K], (Z.eqb_spec (layout_idx layout) 2) as [K2|K2]; auto. congruence. }
    assert (EW : bw 0 = bw 0 / 2 ^ ssx * 2 ^ ssx). { assert (BW : bw 0 = 4 * k_bw4 k) by (unfold bw; change (Spec.subX layout 0) with 0; change (2 ^ 0) with 1; rewrite Z.div_1_r; ring). clear - BW SO. rewrite BW. destruct SO as [(-> & _)|[(-> & _)|(-> & _)]]; [change (2 ^ 0) with 1|change (2 ^ 1) with 2|change (2 ^ 1) with 2]; lia. }
    assert (EH : bh 0 = bh 0 / 2 ^ ssy * 2 ^ ssy). { assert (BW : bh 0 = 4 * k_bh4 k) by (unfold bh; change (Spec.subY layout 0) with 0; change (2 ^ 0) with 1; rewrite Z.div_1_r; ring). clear - BW SO. rewrite BW. destruct SO as [(_ & ->)|[(_ & ->)|(_ & ->)]]; [change (2 ^ 0) with 1|change (2 ^ 0) with 1|change (2 ^ 1) with 2]; lia. }
    assert (BS : bit_ok (b2z s)) by apply b2z_01.
    assert (TA : forall y x, 0 <= y < bh 0 -> 0 <= x < bw 0 -> tmp_rd k 0 (if s then t1 else t0) y x = Ok ((if s then p1 else p0) y x - prep_bias bd)) by (destruct s; assumption).
    assert (TB : forall y x, 0 <= y < bh 0 -> 0 <= x < bw 0 -> tmp_rd k 0 (if negb s then t1 else t0) y x = Ok ((if s then p0 else p1) y x - prep_bias bd)) by (destruct s; assumption).
    destruct (w_mask_ok bd (bw 0) (bh 0) _ _ _ _ st d y0 x0 D H0 ltac:(lia) TA TB ST (b2z s) ssx ssy (bw 0 / 2 ^ ssx) (bh 0 / 2 ^ ssy) BS SO EW EH) as (d' & mask & E & F & G).
    rewrite E. cbn [obind]. eexists. eexists. split; [reflexivity|]. split.
    + apply (filled_ext _ _ _ _ _ _ _ _) with (2 := F). intros y x. change (Spec.subX layout 0) with 0. cbn [Z.eqb Spec.mask_at]. destruct s; [|reflexivity].
      rewrite diff_flip. rewrite (weight_sym bd false). reflexivity.
    + intros NZ r c Hr Hc. destruct mono_or_idx as [|(I1 & I2)]; [contradiction|]. change (ssx = Spec.subX layout 1) in I1. change (ssy = Spec.subY layout 1) in I2.
      assert (J1 : bw 0 / 2 ^ ssx = bw 1) by (unfold bw; rewrite <- I1; change (Spec.subX layout 0) with 0; change (2 ^ 0) with 1; rewrite Z.div_1_r; reflexivity).
      assert (J2 : bh 0 / 2 ^ ssy = bh 1) by (unfold bh; rewrite <- I2; change (Spec.subY layout 0) with 0; change (2 ^ 0) with 1; rewrite Z.div_1_r; reflexivity).
      destruct (sub_pow _ _ SO) as (_ & _ & P3 & P4).
      rewrite (Z.shiftr_div_pow2 (bh 0)), (Z.shiftr_div_pow2 (bw 0)) by assumption. rewrite J1, J2 in *. apply rd2_ok; [exact Hr|exact Hc|]. rewrite G by assumption. f_equal.
      rewrite <- I1, <- I2. rewrite sub_mask_eq by exact SO. destruct s; cbn [b2z]; lia.
  - assert (TA : forall y x, 0 <= y < bh 0 -> 0 <= x < bw 0 -> tmp_rd k 0 (if s then t1 else t0) y x = Ok ((if s then p1 else p0) y x - prep_bias bd)) by (destruct s; assumption).
    assert (TB : forall y x, 0 <= y < bh 0 -> 0 <= x < bw 0 -> tmp_rd k 0 (if negb s then t1 else t0) y x = Ok ((if s then p0 else p1) y x - prep_bias bd)) by (destruct s; assumption).
    destruct (mask_ok bd (bw 0) (bh 0) _ _ _ _ st d y0 x0 D H0 ltac:(lia) TA TB ST (k_wedge k 0 0) (wedge false)) as (d' & E & F); [exact (proj1 (proj2 WO'))|].
    rewrite E. cbn [obind]. eexists. eexists. split; [reflexivity|]. split; [|exact (proj2 (proj2 WO'))].
    apply (filled_ext _ _ _ _ _ _ _ _) with (2 := F). intros y x. change (Spec.subX layout 0) with 0. cbn [Z.eqb Spec.mask_at]. destruct s; [|reflexivity].
    rewrite (proj1 WO' y x). rewrite mask_blend_sym. reflexivity.
Qed.
Lemma comp_chroma_of_ok : forall pl mask, 1 <= pl -> layout <> 0 -> mask_good_of mask -> tmps_ok pl -> stores st (bw pl) (bh pl) y0 x0 (fun _ => True) ->
  exists d', comp_chroma_of k ct tmps pl mask st d = Ok d' /\ filled d d' (bw pl) (bh pl) y0 x0 (result pl).
Proof.
  intros pl mask Hpl NZ MG HR ST. destruct (HR false) as (t0 & E0 & A0). destruct (HR true) as (t1 & E1 & A1). destruct (size_pos pl) as (W0 & H0).
  assert (D : depth bd) by (rewrite <- (co_bd OK false); apply (fo_bd _ (co_frame OK false))). destruct (sub_pl pl Hpl) as (Q1 & Q2).
  assert (B1 : bw pl = bw 1) by (unfold bw; rewrite Q1; reflexivity). assert (B2 : bh pl = bh 1) by (unfold bh; rewrite Q2; reflexivity).
  unfold comp_chroma_of. rewrite E0. cbn [obind]. rewrite E1. cbn [obind]. cbv zeta. rewrite plane_w_eq, plane_h_eq, (co_bd OK false).
  unfold result, Spec.compound, mask_good_of, ctype in *. cbv zeta. rewrite Q1, Q2. set (p0 := tw false pl) in *. set (p1 := tw true pl) in *.
  assert (MK : forall (s : bool) (m : Z -> Z -> Z), (forall r c, 0 <= r < bh 1 -> 0 <= c < bw 1 -> mask r c = Ok (if s then 64 - m r c else m r c)) ->
    exists d', mask_c bd (tmp_rd k pl (if s then t1 else t0)) (tmp_rd k pl (if negb s then t1 else t0)) (bw pl) (bh pl) mask st d = Ok d' /\ filled d d' (bw pl) (bh pl) y0 x0 (fun y x => Spec.mask_blend bd (m y x) (p0 y x) (p1 y x))).
  { intros s m HM.
    assert (TA : forall y x, 0 <= y < bh pl -> 0 <= x < bw pl -> tmp_rd k pl (if s then t1 else t0) y x = Ok ((if s then p1 else p0) y x - prep_bias bd)) by (destruct s; assumption).
    assert (TB : forall y x, 0 <= y < bh pl -> 0 <= x < bw pl -> tmp_rd k pl (if negb s then t1 else t0) y x = Ok ((if s then p0 else p1) y x - prep_bias bd)) by (destruct s; assumption).
    destruct (mask_ok bd (bw pl) (bh pl) _ _ _ _ st d y0 x0 D H0 ltac:(lia) TA TB ST mask (fun y x => if s then 64 - m y x else m y x)) as (d' & E & F); [rewrite B1, B2; exact HM|].
    exists d'. split; [exact E|]. apply (filled_ext _ _ _ _ _ _ _ _) with (2 := F). intros y x. destruct s; [|reflexivity]. cbv beta. apply mask_blend_sym. }
  destruct ct as [|wt|s|s].
  - apply (avg_ok bd (bw pl) (bh pl) (tmp_rd k pl t0) (tmp_rd k pl t1) p0 p1 st d y0 x0 D H0 ltac:(lia) A0 A1 ST).
  - apply (w_avg_ok bd (bw pl) (bh pl) (tmp_rd k pl t0) (tmp_rd k pl t1) p0 p1 st d y0 x0 D H0 ltac:(lia) A0 A1 ST wt).
  - apply MK. intros r c Hr Hc. apply MG; assumption.
  - apply MK. intros r c Hr Hc. apply MG; assumption.
Qed.
End Compound.
Section Translational.
Variables (k : comp_in) (ct : comp_type) (layout bd : Z) (S : bool -> Z -> Z -> Z -> Z) (wedge : bool -> Z -> Z -> Z) (f0 f1 : Z).
Definition mask_good (mask : Z -> Z -> outcome Z) : Prop := mask_good_of k ct layout bd wedge (two k S f0 f1) mask.
Hypothesis OK : comp_ok k layout bd f0 f1.
Hypothesis WO : wedge_ok k ct layout wedge.
Variables (st : Z -> Z -> Z -> plane -> outcome plane) (d : plane) (y0 x0 : Z).
Lemma comp_luma_ok : refs_ok k S 0 -> stores st (bw k layout 0) (bh k layout 0) y0 x0 (fun _ => True) ->
  exists d' mask, comp_luma k ct st d = Ok (d', mask) /\ filled d d' (bw k layout 0) (bh k layout 0) y0 x0 (result ct layout bd wedge (two k S f0 f1) 0) /\ mask_good mask.
Proof. intros HR. apply (comp_luma_of_ok k ct layout bd S wedge f0 f1); [exact OK|exact WO|]. intros i. apply (comp_tmp_ok k layout bd S f0 f1 OK 0 i HR). Qed.
Lemma comp_chroma_ok : forall pl mask, 1 <= pl -> layout <> 0 -> mask_good mask -> refs_ok k S pl -> stores st (bw k layout pl) (bh k layout pl) y0 x0 (fun _ => True) ->
  exists d', comp_chroma k ct pl mask st d = Ok d' /\ filled d d' (bw k layout pl) (bh k layout pl) y0 x0 (result ct layout bd wedge (two k S f0 f1) pl).
Proof. intros pl mask Hpl NZ MG HR. apply (comp_chroma_of_ok k ct layout bd S wedge f0 f1); [exact OK|exact Hpl|exact NZ|exact MG|]. intros i. apply (comp_tmp_ok k layout bd S f0 f1 OK pl i HR). Qed.
End Translational.


(** * Intra block copy *)
Lemma bilin_near : forall bd c (P Q : Z -> Z -> Z) w h mx my y x, 0 <= mx <= 15 -> 0 <= my <= 15 ->
  (forall t s, (t = 0 \/ t = 1 /\ my <> 0) -> (s = 0 \/ s = 1 /\ mx <> 0) -> P (y + t) (x + s) = Q (y + t) (x + s)) ->
  predP bd P (Spec.interpFilterIdx 3 w) (Spec.interpFilterIdx 3 h) (64 * mx) (64 * my) 1024 1024 c y x =
  predP bd Q (Spec.interpFilterIdx 3 w) (Spec.interpFilterIdx 3 h) (64 * mx) (64 * my) 1024 1024 c y x.
Proof.
  intros bd c P Q w h mx my y x Hx Hy H.
  assert (F : forall m x, 0 <= m <= 15 -> ((64 * m + 1024 * x) / 64) mod 16 = m /\ (64 * m + 1024 * x) / 1024 = x).
  { intros m z Hm. split.
    - replace (64 * m + 1024 * z) with ((m + z * 16) * 64) by ring. rewrite Z.div_mul by lia. rewrite Z.mod_add by lia. apply Z.mod_small. lia.
    - rewrite Z.mul_comm with (n := 1024). rewrite Z.div_add by lia. rewrite Z.div_small by lia. lia. }
  unfold predP. cbv zeta. destruct (F my y Hy) as (-> & ->). apply K2_ext. intros t Ht. rewrite Subpel_bilin by lia.
  assert (R : forall t, (t = 0 \/ t = 1 /\ my <> 0) -> first bd P (Spec.interpFilterIdx 3 w) (64 * mx) 1024 (y + t) x = first bd Q (Spec.interpFilterIdx 3 w) (64 * mx) 1024 (y + t) x).
  { intros u Hu. unfold first. cbv zeta. destruct (F mx x Hx) as (-> & ->). apply K1_ext. intros s Hs. rewrite Subpel_bilin by lia.
    destruct (Z.eqb_spec s 3) as [->|]; [replace (x + 3 - 3) with (x + 0) by lia; rewrite (H u 0) by auto; reflexivity|].
    destruct (Z.eqb_spec s 4) as [->|]; [|reflexivity]. replace (x + 4 - 3) with (x + 1) by lia. destruct (Z.eq_dec mx 0) as [->|]; [reflexivity|]. rewrite (H u 1) by auto. reflexivity. }
  destruct (Z.eqb_spec t 3) as [->|]; [replace (y + 3 - 3) with (y + 0) by lia; rewrite (R 0) by auto; reflexivity|].
  destruct (Z.eqb_spec t 4) as [->|]; [|reflexivity]. replace (y + 4 - 3) with (y + 1) by lia. destruct (Z.eq_dec my 0) as [->|]; [reflexivity|]. rewrite (R 1) by auto. reflexivity.
Qed.
(** the first and the last position that a block needs in one dimension *)
Definition inside (s o mv n last : Z) : Prop :=
  let p := Spec.start (2 ^ 14) s o mv in 0 <= p / 1024 /\ p / 1024 + n - 1 + (if (p / 64) mod 16 =? 0 then 0 else 1) <= last.
Lemma inside_clip : forall s o mv n last W, s = 0 \/ s = 1 -> inside s o mv n last -> last <= W - 1 ->
  let p := Spec.start 16384 s o mv in exists m, p mod 1024 = 64 * m + 32 /\ 0 <= m <= 15 /\
  forall x u, 0 <= x < n -> (u = 0 \/ u = 1 /\ m <> 0) -> Spec.Clip3 0 last (p / 1024 + (x + u)) = Spec.Clip3 0 (W - 1) (p / 1024 + (x + u)).
Proof.
  intros s o mv n last W Hs (A & B) C. cbv zeta in *. change (2 ^ 14) with 16384 in *. destruct (mv_pos s o mv Hs) as (_ & E & R & _). cbv zeta in E.
  set (p := Spec.start 16384 s o mv) in *. clearbody p. set (m := Z.shiftl _ _) in *. clearbody m. exists m. split; [exact E|]. split; [exact R|].
  assert (M : (p / 64) mod 16 = m).
  { destruct (split10 p 0 0) as (_ & K). rewrite Z.mul_0_l, !Z.add_0_r in K. rewrite K, E. replace (64 * m + 32) with (32 + m * 64) by ring. rewrite Z.div_add by lia. change (32 / 64) with 0. apply Z.mod_small. lia. }
  rewrite M in B. set (q := p / 1024) in *. clearbody q. intros x u Hx Hu. unfold Spec.Clip3. destruct (Z.eqb_spec m 0); destruct (Z.ltb_spec (q + (x + u)) 0), (Z.ltb_spec last (q + (x + u))), (Z.ltb_spec (W - 1) (q + (x + u))); lia.
Qed.
Lemma copy_at : forall f st d y0 x0 bw4 bh4 bx by_ pl mvx mvy refdata S lastX lastY,
  let sx := Spec.subX (m_layout f) pl in let sy := Spec.subY (m_layout f) pl in
  let w := bw4 * 4 / 2 ^ sx in let h := bh4 * 4 / 2 ^ sy in let x := bx * 4 / 2 ^ sx in let y := by_ * 4 / 2 ^ sy in
  let W := m_bw f * 4 / 2 ^ sx in let H := m_bh f * 4 / 2 ^ sy in
  depth (m_bd f) -> m_same f = true -> m_rw f = m_w f -> m_rh f = m_h f -> 1 <= m_bw f -> 1 <= m_bh f ->
  1 <= bw4 <= 32 -> 1 <= bh4 <= 32 -> stores st w h y0 x0 (fun _ => True) ->
  (forall r c, 0 <= r < H -> 0 <= c < W -> refdata r c = Ok (S r c) /\ pixel (m_bd f) (S r c)) ->
  inside sx x mvx w lastX -> inside sy y mvy h lastY -> lastX <= W - 1 -> lastY <= H - 1 ->
  exists d', mc f true st d bw4 bh4 bx by_ pl mvx mvy refdata 9 = Ok d' /\
    filled d d' w h y0 x0 (fun r c => Spec.single (m_bd f) (Spec.block_copy (m_bd f) S lastX lastY sx sy x y w h mvy mvx r c)).
Proof.
  intros f st d y0 x0 bw4 bh4 bx by_ pl mvx mvy refdata S lastX lastY sx sy w h x y W H D SM E1 E2 BW BH Hw Hh ST HS IX IY LX LY.
  assert (SX := subX_01 (m_layout f) pl). assert (SY := subY_01 (m_layout f) pl). fold sx in SX. fold sy in SY.
  assert (HF : filter_ok 3 3 9) by (unfold filter_ok; repeat split; try lia; reflexivity).
  assert (M := unscaled_ok f true st d y0 x0 bw4 bh4 bx by_ pl mvx mvy refdata S 3 3 9 D Hw Hh HF).
  rewrite subX_eq, subY_eq in M. fold sx in M. fold sy in M. rewrite (proj1 (size_eq bw4 _ SX)), (proj1 (size_eq bh4 _ SY)), (proj1 (size_eq bx _ SX)), (proj1 (size_eq by_ _ SY)) in M. fold w in M. fold h in M. fold x in M. fold y in M.
  specialize (M ST W H E1 E2). rewrite SM in M. cbn [negb] in M. rewrite (proj2 (size_eq _ _ SX)), (proj2 (size_eq _ _ SY)) in M. fold W in M. fold H in M.
  assert (P1 : 1 <= W) by (unfold W; clear - BW SX; destruct SX as [E|E]; rewrite E; [change (2 ^ 0) with 1|change (2 ^ 1) with 2]; lia).
  assert (P2 : 1 <= H) by (unfold H; clear - BH SY; destruct SY as [E|E]; rewrite E; [change (2 ^ 0) with 1|change (2 ^ 1) with 2]; lia).
  destruct (M eq_refl eq_refl P1 P2 HS) as (d' & E & A & B). exists d'. split; [exact E|]. split; [|exact B]. intros r c Hr Hc. rewrite A by assumption.
  assert (K : Spec.pred (m_bd f) false S (W - 1) (H - 1) (Spec.start 16384 sx x mvx) (Spec.start 16384 sy y mvy) 1024 1024 w h 3 3 r c = Spec.block_copy (m_bd f) S lastX lastY sx sy x y w h mvy mvx r c).
  { unfold Spec.block_copy. destruct (inside_clip sx x mvx w lastX W SX IX LX) as (mx & X1 & X2 & X3). destruct (inside_clip sy y mvy h lastY H SY IY LY) as (my & Y1 & Y2 & Y3). cbv zeta in *.
    change (2 ^ 14) with 16384. cbn [negb]. rewrite !pred_predP. rewrite X1, Y1. rewrite !predP_half by assumption. apply bilin_near; [exact X2|exact Y2|]. intros t s Ht Hs. unfold around. rewrite X3, Y3 by assumption. reflexivity. }
  rewrite K. reflexivity.
Qed.

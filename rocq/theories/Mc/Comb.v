(** Combining two predictions. *)
From Coq Require Import ZArith List Bool Lia.
From Verif Require Import Base.CInt Base.Lemmas Base.Loop Cdef.Block Mc.Model Mc.Kernel Mc.Blocks.
From Verif Require Mc.Spec.
Import ListNotations.
Open Scope Z_scope.

(** * One sample *)
Definition pbits (bd : Z) : Z := if bd =? 12 then 2 else 4.
Lemma consts : forall bd, depth bd -> inter_bits bd = pbits bd /\ Spec.InterPostRound bd = pbits bd.
Proof. intros bd [->|[->| ->]]; split; reflexivity. Qed.
Lemma pbits_range : forall bd, pbits bd = 2 \/ pbits bd = 4.
Proof. intros bd. unfold pbits. destruct (bd =? 12); auto. Qed.
Lemma shr_round : forall v w n r, 0 < n -> v = w + 2 ^ (n - 1) -> r = Spec.Round2 w n -> Z.shiftr v n = r.
Proof. intros v w n r Hn -> ->. unfold Spec.Round2. destruct (Z.eqb_spec n 0); [lia|]. apply Z.shiftr_div_pow2. lia. Qed.
Lemma avg_px : forall bd p0 p1, depth bd ->
  clip_pixel bd (Z.shiftr ((p0 - prep_bias bd) + (p1 - prep_bias bd) + (Z.shiftl 1 (inter_bits bd) + prep_bias bd * 2)) (inter_bits bd + 1)) = Spec.average bd p0 p1.
Proof.
  intros bd p0 p1 D. rewrite clip_eq by exact D. unfold Spec.average. f_equal. destruct (consts bd D) as (-> & ->).
  apply shr_round with (w := p0 + p1); [destruct (pbits_range bd); lia| |f_equal; lia].
  rewrite Z.shiftl_mul_pow2 by (destruct (pbits_range bd); lia). replace (pbits bd + 1 - 1) with (pbits bd) by lia. lia.
Qed.
Lemma w_avg_px : forall bd wt p0 p1, depth bd ->
  clip_pixel bd (Z.shiftr ((p0 - prep_bias bd) * wt + (p1 - prep_bias bd) * (16 - wt) + (Z.shiftl 8 (inter_bits bd) + prep_bias bd * 16)) (inter_bits bd + 4)) = Spec.distance bd wt (16 - wt) p0 p1.
Proof.
  intros bd wt p0 p1 D. rewrite clip_eq by exact D. unfold Spec.distance. f_equal. destruct (consts bd D) as (-> & ->).
  apply shr_round with (w := p0 * wt + p1 * (16 - wt)); [destruct (pbits_range bd); lia| |f_equal; lia].
  rewrite Z.shiftl_mul_pow2 by (destruct (pbits_range bd); lia). replace (pbits bd + 4 - 1) with (3 + pbits bd) by lia. rewrite Z.pow_add_r by (destruct (pbits_range bd); lia). change (2 ^ 3) with 8. lia.
Qed.
Lemma mask_px : forall bd m p0 p1, depth bd ->
  clip_pixel bd (Z.shiftr ((p0 - prep_bias bd) * m + (p1 - prep_bias bd) * (64 - m) + (Z.shiftl 32 (inter_bits bd) + prep_bias bd * 64)) (inter_bits bd + 6)) = Spec.mask_blend bd m p0 p1.
Proof.
  intros bd m p0 p1 D. rewrite clip_eq by exact D. unfold Spec.mask_blend. f_equal. destruct (consts bd D) as (-> & ->).
  apply shr_round with (w := m * p0 + (64 - m) * p1); [destruct (pbits_range bd); lia| |f_equal; lia].
  rewrite Z.shiftl_mul_pow2 by (destruct (pbits_range bd); lia). replace (pbits bd + 6 - 1) with (5 + pbits bd) by lia. rewrite Z.pow_add_r by (destruct (pbits_range bd); lia). change (2 ^ 5) with 32. lia.
Qed.
Lemma weight_px : forall bd p0 p1, depth bd ->
  Z.min (38 + Z.shiftr (Z.abs ((p0 - prep_bias bd) - (p1 - prep_bias bd)) + Z.shiftl 1 (bd + inter_bits bd - 4 - 5)) (bd + inter_bits bd - 4)) 64 = Spec.difference_weight bd false p0 p1.
Proof.
  intros bd p0 p1 D. unfold Spec.difference_weight. cbv zeta. destruct (consts bd D) as (-> & ->). replace (p0 - prep_bias bd - (p1 - prep_bias bd)) with (p0 - p1) by lia.
  set (n := bd - 8 + pbits bd). assert (Hn : 1 <= n) by (unfold n, pbits; destruct D as [->|[->| ->]]; cbn; lia).
  replace (bd + pbits bd - 4) with (n + 4) by (unfold n; lia). replace (n + 4 - 5) with (n - 1) by lia. rewrite Z.shiftl_mul_pow2, Z.shiftr_div_pow2, Z.pow_add_r by lia.
  unfold Spec.Round2. destruct (Z.eqb_spec n 0); [lia|]. change (2 ^ 4) with 16. assert (0 < 2 ^ n) by (apply Z.pow_pos_nonneg; lia). rewrite <- Z.div_div by lia. rewrite Z.mul_1_l.
  assert (0 <= (Z.abs (p0 - p1) + 2 ^ (n - 1)) / 2 ^ n) by (apply Z.div_pos; [|lia]; assert (0 < 2 ^ (n - 1)) by (apply Z.pow_pos_nonneg; lia); lia).
  set (q := (Z.abs (p0 - p1) + 2 ^ (n - 1)) / 2 ^ n) in *. clearbody q. unfold Spec.Clip3. assert (0 <= q / 16) by (apply Z.div_pos; lia). set (u := q / 16) in *. clearbody u.
  destruct (Z.ltb_spec (38 + u) 0); [lia|]. destruct (Z.ltb_spec 64 (38 + u)); lia.
Qed.
Lemma weight_range : forall bd p0 p1, depth bd -> 38 <= Spec.difference_weight bd false p0 p1 <= 64.
Proof.
  intros bd p0 p1 D. rewrite <- weight_px by exact D. assert (0 <= Z.shiftr (Z.abs (p0 - prep_bias bd - (p1 - prep_bias bd)) + Z.shiftl 1 (bd + inter_bits bd - 4 - 5)) (bd + inter_bits bd - 4)); [|lia].
  apply Z.shiftr_nonneg. assert (0 <= Z.shiftl 1 (bd + inter_bits bd - 4 - 5)) by (apply Z.shiftl_nonneg; lia). lia.
Qed.
Lemma weight_sym : forall bd s p0 p1, Spec.difference_weight bd s p0 p1 = Spec.difference_weight bd s p1 p0.
Proof. intros. unfold Spec.difference_weight. replace (Z.abs (p0 - p1)) with (Z.abs (p1 - p0)) by lia. reflexivity. Qed.
Lemma mask_blend_sym : forall bd m p0 p1, Spec.mask_blend bd (64 - m) p0 p1 = Spec.mask_blend bd m p1 p0.
Proof. intros. unfold Spec.mask_blend. f_equal. f_equal. lia. Qed.

(** * A block *)
Definition sub_ok (ssx ssy : Z) : Prop := ssx = 0 /\ ssy = 0 \/ ssx = 1 /\ ssy = 0 \/ ssx = 1 /\ ssy = 1.
Definition bit_ok (s : Z) : Prop := s = 0 \/ s = 1.
Lemma sub_pow : forall ssx ssy, sub_ok ssx ssy -> 1 <= 2 ^ ssx <= 2 /\ 1 <= 2 ^ ssy <= 2 /\ 0 <= ssx /\ 0 <= ssy.
Proof. intros ssx ssy [(-> & ->)|[(-> & ->)|(-> & ->)]]; cbn; lia. Qed.
Lemma same_half : forall ssx ssy y j, sub_ok ssx ssy -> j <= y -> j <> y -> j / 2 ^ ssy = y / 2 ^ ssy -> j + 1 = y.
Proof.
  intros ssx ssy y j [(_ & ->)|[(_ & ->)|(_ & ->)]]; [change (2 ^ 0) with 1|change (2 ^ 0) with 1|change (2 ^ 1) with 2]; rewrite ?Z.div_1_r; lia.
Qed.
Section Comb.
Variables (bd w h : Z) (tmp1 tmp2 : Z -> Z -> outcome Z) (p0 p1 : Z -> Z -> Z) (st : Z -> Z -> Z -> plane -> outcome plane) (d : plane) (y0 x0 : Z).
Hypothesis D : depth bd.
Hypothesis Hh : 1 <= h.
Hypothesis Hw : 0 <= w.
Hypothesis T1 : forall y x, 0 <= y < h -> 0 <= x < w -> tmp1 y x = Ok (p0 y x - prep_bias bd).
Hypothesis T2 : forall y x, 0 <= y < h -> 0 <= x < w -> tmp2 y x = Ok (p1 y x - prep_bias bd).
Hypothesis ST : stores st w h y0 x0 (fun _ => True).

Lemma avg_ok : exists d', avg_c bd tmp1 tmp2 w h st d = Ok d' /\ filled d d' w h y0 x0 (fun y x => Spec.average bd (p0 y x) (p1 y x)).
Proof.
  unfold avg_c. cbv zeta. apply block_ok with (ok := fun _ => True); [exact Hh|exact Hw|exact ST|]. intros y x Hy Hx. rewrite T1, T2 by assumption. cbn [obind]. rewrite avg_px by exact D. auto.
Qed.
Lemma w_avg_ok : forall wt, exists d', w_avg_c bd tmp1 tmp2 w h wt st d = Ok d' /\ filled d d' w h y0 x0 (fun y x => Spec.distance bd wt (16 - wt) (p0 y x) (p1 y x)).
Proof.
  intros wt. unfold w_avg_c. cbv zeta. apply block_ok with (ok := fun _ => True); [exact Hh|exact Hw|exact ST|]. intros y x Hy Hx. rewrite T1, T2 by assumption. cbn [obind]. rewrite w_avg_px by exact D. auto.
Qed.
Lemma mask_ok : forall mask m, (forall y x, 0 <= y < h -> 0 <= x < w -> mask y x = Ok (m y x)) ->
  exists d', mask_c bd tmp1 tmp2 w h mask st d = Ok d' /\ filled d d' w h y0 x0 (fun y x => Spec.mask_blend bd (m y x) (p0 y x) (p1 y x)).
Proof.
  intros mask m HM. unfold mask_c. cbv zeta. apply block_ok with (ok := fun _ => True); [exact Hh|exact Hw|exact ST|]. intros y x Hy Hx. rewrite T1, T2, HM by assumption. cbn [obind]. rewrite mask_px by exact D. auto.
Qed.

(** The weights of the differences, for luma and chroma *)
Variables (s ssx ssy mw mh : Z).
Hypothesis Hs : bit_ok s.
Hypothesis Hss : sub_ok ssx ssy.
Hypothesis Emw : w = mw * 2 ^ ssx.
Hypothesis Emh : h = mh * 2 ^ ssy.
Let W (y x : Z) : Z := Spec.difference_weight bd false (p0 y x) (p1 y x).
Let pair (y c : Z) : Z := W y (2 * c) + W y (2 * c + 1).
(** what is in the mask at column [c] after row [y] of the block *)
Let V (y c : Z) : Z :=
  if ssx =? 0 then W y c else if ssy =? 0 then (pair y c + 1 - s) / 2
  else if Z.even y then pair y c else (pair (y - 1) c + pair y c + 2 - s) / 4.
Definition sub_mask (r c : Z) : Z := V (if ssy =? 0 then r else 2 * r + 1) c.
Let QD (y x : Z) (e : plane) : Prop :=
  (forall j i, 0 <= i < w -> (0 <= j < y \/ j = y /\ i < x) -> e (y0 + j) (x0 + i) = Some (Spec.mask_blend bd (W j i) (p0 j i) (p1 j i))) /\
  (forall Y X, ~ (y0 <= Y /\ x0 <= X < x0 + w /\ (Y < y0 + y \/ Y = y0 + y /\ X < x0 + x)) -> e Y X = d Y X).
Definition seen (y k j c : Z) : Prop := j < y \/ j = y /\ c < k.
Let QM (y k : Z) (m : plane) : Prop :=
  forall j c, 0 <= j -> 0 <= c < mw -> seen y k j c -> ~ (seen y k (j + 1) c /\ (j + 1) / 2 ^ ssy = j / 2 ^ ssy) -> m (j / 2 ^ ssy) c = Some (V j c).

Lemma QD_next : forall y x e, 0 <= y -> 0 <= x < w -> QD y x e -> QD y (x + 1) (set2 e (y0 + y) (x0 + x) (Spec.mask_blend bd (W y x) (p0 y x) (p1 y x))).
Proof.
  intros y x e Hy Hx (A & B). split.
  - intros j i Hi Hj. destruct (Z.eq_dec j y) as [->|]; [destruct (Z.eq_dec i x) as [->|]; [apply set2_same|]|]; (rewrite set2_other by lia; apply A; lia).
  - intros Y X N. rewrite set2_other by lia. apply B. lia.
Qed.
Lemma W_range : forall y x, 38 <= W y x <= 64.
Proof. intros. apply weight_range. exact D. Qed.
Lemma V_range : forall y c, 0 <= V y c < 256.
Proof.
  intros y c. unfold V, pair. pose proof (W_range y c). pose proof (W_range y (2 * c)). pose proof (W_range y (2 * c + 1)). pose proof (W_range (y - 1) (2 * c)). pose proof (W_range (y - 1) (2 * c + 1)).
  set (a := W y c) in *. set (b := W y (2 * c)) in *. set (e := W y (2 * c + 1)) in *. set (g := W (y - 1) (2 * c)) in *. set (i := W (y - 1) (2 * c + 1)) in *. clearbody a b e g i. clear - Hs H H0 H1 H2 H3.
  unfold bit_ok in Hs. destruct (ssx =? 0), (ssy =? 0), (Z.even y); lia.
Qed.
Lemma QM_next : forall y k m, 0 <= y -> 0 <= k < mw -> QM y k m -> QM y (k + 1) (set2 m (y / 2 ^ ssy) k (V y k)).
Proof.
  intros y k m Hy Hk A j c Hj Hc HS N. destruct (Z.eq_dec c k) as [->|Nc].
  - destruct (Z.eq_dec j y) as [->|]; [apply set2_same|]. assert (R : j / 2 ^ ssy <> y / 2 ^ ssy).
    { intros E. apply N. unfold seen in *. assert (J := same_half ssx ssy y j Hss ltac:(lia) ltac:(assumption) E). split; [lia|]. rewrite J. symmetry. exact E. }
    rewrite set2_other by lia. apply A; [lia|lia|unfold seen in *; lia|]. intros (S1 & S2). apply N. split; [unfold seen in *; lia|exact S2].
  - rewrite set2_other by lia. apply A; [lia|lia|unfold seen in *; lia|]. intros (S1 & S2). apply N. split; [unfold seen in *; lia|exact S2].
Qed.
Lemma w_mask_ok : exists d' mask, w_mask_c bd tmp1 tmp2 w h s ssx ssy st d = Ok (d', mask) /\
  filled d d' w h y0 x0 (fun y x => Spec.mask_blend bd (W y x) (p0 y x) (p1 y x)) /\ (forall r c, 0 <= r < mh -> 0 <= c < mw -> mask r c = Some (sub_mask r c)).
Proof.
  destruct (sub_pow _ _ Hss) as (P1 & P2 & P3 & P4).
  assert (EW : Z.shiftr w ssx = mw) by (rewrite Z.shiftr_div_pow2, Emw by lia; apply Z.div_mul; lia).
  assert (EH : Z.shiftr h ssy = mh) by (rewrite Z.shiftr_div_pow2, Emh by lia; apply Z.div_mul; lia).
  assert (Hmw : 0 <= mw) by nia.
  unfold w_mask_c. cbv zeta. rewrite EW, EH. destruct (Z.leb_spec 1 h) as [_|]; [|lia].
  match goal with |- context [for_ 0 h ?f (d, plane0, 0)] =>
    destruct (for_inv _ (fun y (q : plane * plane * Z) => snd q = y / 2 ^ ssy /\ QD y 0 (fst (fst q)) /\ QM y 0 (snd (fst q))) f 0 h (d, plane0, 0) ltac:(lia)) as (q & E & _ & (A1 & A2) & B) end.
  - cbn [fst snd]. split; [rewrite Z.div_0_l; [reflexivity|lia]|]. split; [split; [intros; lia|reflexivity]|]. intros j c Hj Hc HS. unfold seen in HS. lia.
  - intros y [[e m] row] Hy (R & HD & HM). cbn [fst snd] in *. subst row.
    assert (PX : forall x g, 0 <= x < w -> obind (tmp1 y x) (fun a => obind (tmp2 y x) (fun b =>
        obind (st y x (clip_pixel bd (Z.shiftr (a * Z.min (38 + Z.shiftr (Z.abs (a - b) + Z.shiftl 1 (bd + inter_bits bd - 4 - 5)) (bd + inter_bits bd - 4)) 64 +
          b * (64 - Z.min (38 + Z.shiftr (Z.abs (a - b) + Z.shiftl 1 (bd + inter_bits bd - 4 - 5)) (bd + inter_bits bd - 4)) 64) + (Z.shiftl 32 (inter_bits bd) + prep_bias bd * 64)) (inter_bits bd + 6))) g)
          (fun d0 => Ok (Z.min (38 + Z.shiftr (Z.abs (a - b) + Z.shiftl 1 (bd + inter_bits bd - 4 - 5)) (bd + inter_bits bd - 4)) 64, d0))))
        = Ok (W y x, set2 g (y0 + y) (x0 + x) (Spec.mask_blend bd (W y x) (p0 y x) (p1 y x)))).
    { intros x g' Hx. rewrite T1, T2 by (clear - Hx Hy; lia). cbn [obind]. rewrite weight_px by exact D. rewrite mask_px by exact D. rewrite (ST y x _ g' Hy Hx I). reflexivity. }
    match goal with |- context [for_ 0 mw ?f (e, m)] =>
      destruct (for_inv _ (fun k (q : plane * plane) => QD y (k * 2 ^ ssx) (fst q) /\ QM y k (snd q)) f 0 mw (e, m) Hmw) as ([e' m'] & E & HD' & HM') end.
    + split; assumption.
    + intros k [g n] Hk (HD' & HM'). cbn [fst snd] in *. rewrite Z.shiftl_mul_pow2 by lia.
      assert (HR : 0 <= y / 2 ^ ssy < mh) by (split; [apply Z.div_pos; lia|apply Z.div_lt_upper_bound; lia]).
      pose proof (V_range y k) as VR.
      assert (HX : 0 <= k * 2 ^ ssx /\ k * 2 ^ ssx + 2 ^ ssx <= w) by (rewrite Emw; nia).
      rewrite PX by lia. cbn [obind].
      assert (K := Hss). unfold sub_ok in K. destruct K as [(S1 & S2)|K].
      * replace (ssx =? 0) with true by (rewrite S1; reflexivity). cbn [negb].
        assert (EV : V y k = W y (k * 2 ^ ssx)) by (unfold V; rewrite S1; change (2 ^ 0) with 1; rewrite Z.mul_1_r; reflexivity).
        rewrite <- EV. rewrite u8_id by (change (2 ^ 8) with 256; lia). rewrite wr2_ok by lia. cbn [obind]. eexists. split; [reflexivity|]. cbn [fst snd]. rewrite EV.
        split; [|rewrite <- EV; apply QM_next; [lia|lia|exact HM']]. replace ((k + 1) * 2 ^ ssx) with (k * 2 ^ ssx + 1) by (rewrite S1; change (2 ^ 0) with 1; lia). apply QD_next; [lia|lia|exact HD'].
      * assert (S1 : ssx = 1) by (clear - K; lia). replace (ssx =? 0) with false by (rewrite S1; reflexivity). cbn [negb].
        assert (EX : 2 ^ ssx = 2) by (rewrite S1; reflexivity). rewrite PX by lia. cbn [obind].
        assert (HD2 : QD y ((k + 1) * 2 ^ ssx) (set2 (set2 g (y0 + y) (x0 + k * 2 ^ ssx) (Spec.mask_blend bd (W y (k * 2 ^ ssx)) (p0 y (k * 2 ^ ssx)) (p1 y (k * 2 ^ ssx))))
          (y0 + y) (x0 + (k * 2 ^ ssx + 1)) (Spec.mask_blend bd (W y (k * 2 ^ ssx + 1)) (p0 y (k * 2 ^ ssx + 1)) (p1 y (k * 2 ^ ssx + 1))))).
        { replace ((k + 1) * 2 ^ ssx) with (k * 2 ^ ssx + 1 + 1) by lia. apply QD_next; [lia|lia|]. apply QD_next; [lia|lia|exact HD']. }
        match goal with |- context [obind (if negb (Z.land (h - y) ssy =? 0) then ?a else ?b) _] => assert (EV : (if negb (Z.land (h - y) ssy =? 0) then a else b) = Ok (V y k)) end.
        { assert (EP : W y (k * 2 ^ ssx) + W y (k * 2 ^ ssx + 1) = pair y k) by (unfold pair; rewrite EX; rewrite (Z.mul_comm k); reflexivity). rewrite EP.
          destruct K as [(_ & S2)|(_ & S2)].
          - replace (Z.land (h - y) ssy =? 0) with true by (rewrite S2, Z.land_0_r; reflexivity). replace (ssy =? 0) with true by (rewrite S2; reflexivity). cbn [negb]. unfold V. rewrite S1, S2. cbn [Z.eqb]. rewrite Z.shiftr_div_pow2 by lia. reflexivity.
          - replace (ssy =? 0) with false by (rewrite S2; reflexivity). cbn [negb]. assert (EY : 2 ^ ssy = 2) by (rewrite S2; reflexivity).
            assert (EL : Z.land (h - y) ssy = y mod 2). { rewrite S2. change 1 with (Z.ones 1). rewrite Z.land_ones by lia. change (2 ^ 1) with 2. rewrite Emh, EY. lia. }
            rewrite EL. unfold V at 1. rewrite S1, S2. cbn [Z.eqb]. destruct (Z.even y) eqn:EE.
            + apply Z.even_spec in EE as (q & ->). replace (2 * q mod 2) with 0 by lia. reflexivity.
            + assert (OO : Z.odd y = true) by (rewrite <- Z.negb_even, EE; reflexivity). apply Z.odd_spec in OO as (q & ->). replace ((2 * q + 1) mod 2) with 1 by lia. cbn [Z.eqb negb].
              assert (ER : (2 * q + 1) / 2 ^ ssy = q) by (rewrite EY; clear; lia). rewrite ER in *. change (2 ^ 1) with 2. replace ((2 * q + 1) / 2) with q by (clear; lia). rewrite (rd2_ok mh mw n q k (pair (2 * q) k)).
              * cbn [obind]. rewrite Z.shiftr_div_pow2 by lia. f_equal. change (2 ^ 2) with 4. f_equal. replace (2 * q + 1 - 1) with (2 * q) by lia. lia.
              * lia.
              * lia.
              * replace (pair (2 * q) k) with (V (2 * q) k) by (unfold V; rewrite S1, S2; cbn [Z.eqb]; rewrite Z.even_mul; reflexivity).
                assert (HQ := HM' (2 * q) k ltac:(lia) ltac:(lia)). rewrite EY in HQ. replace (2 * q / 2) with q in HQ by lia. apply HQ; [unfold seen; lia|]. unfold seen. lia. }
        rewrite EV. cbn [obind]. rewrite u8_id by (change (2 ^ 8) with 256; lia). rewrite wr2_ok by lia. cbn [obind]. eexists. split; [reflexivity|]. cbn [fst snd]. split; [exact HD2|]. apply QM_next; [lia|lia|exact HM'].
    + rewrite E. cbn [obind]. eexists. split; [reflexivity|]. cbn [fst snd]. split; [|split].
      * assert (K := Hss). unfold sub_ok in K. assert (S2 : ssy = 0 \/ ssy = 1) by (clear - K; lia). destruct S2 as [S2|S2].
        -- replace (ssy =? 0) with true by (rewrite S2; reflexivity). cbn [orb]. rewrite S2. change (2 ^ 0) with 1. rewrite !Z.div_1_r. reflexivity.
        -- replace (ssy =? 0) with false by (rewrite S2; reflexivity). cbn [orb]. change 1 with (Z.ones 1) at 1. rewrite Z.land_ones by lia. rewrite Emh, S2. change (2 ^ 1) with 2. destruct (Z.eqb_spec ((mh * 2 - y) mod 2) 0); cbn [negb]; lia.
      * rewrite <- Emw in HD'. destruct HD' as (F1 & F2). split; [intros j i Hi Hj; apply F1; lia|]. intros Y X N. apply F2. lia.
      * intros j c Hj Hc HS N. apply HM'; [lia|lia|unfold seen in *; lia|]. intros (N1 & N2). apply N. split; [unfold seen in *; lia|exact N2].
  - rewrite E. cbn [obind]. eexists. eexists. split; [reflexivity|]. split.
    + split; [intros y x Hy Hx; apply A1; lia|]. intros Y X N. apply A2. unfold within in N. lia.
    + intros r c Hr Hc. unfold sub_mask. assert (K := Hss). unfold sub_ok in K. assert (S2 : ssy = 0 \/ ssy = 1) by (clear - K; lia).
      set (j := if ssy =? 0 then r else 2 * r + 1). assert (J : j / 2 ^ ssy = r /\ (j + 1) / 2 ^ ssy <> r /\ 0 <= j < h).
      { rewrite Emh. unfold j. destruct S2 as [S2|S2]; rewrite S2; cbn [Z.eqb]; [change (2 ^ 0) with 1; rewrite !Z.div_1_r|change (2 ^ 1) with 2]; lia. }
      destruct J as (J1 & J2 & J3). rewrite <- J1 at 1. apply B; [lia|exact Hc|unfold seen; lia|]. intros (_ & N). congruence.
Qed.
End Comb.

(** dav1d_loopfilter_sbrow_cols and dav1d_loopfilter_sbrow_rows. *)
From Coq Require Import ZArith List Bool Lia.
From Verif Require Import Base.CInt Base.Lemmas Base.Loop Mc.Kernel Lf.Model Lf.Line Lf.Edge Lf.Strip Lf.Frame Lf.Sbrow.
From Verif Require Lf.Spec.
Import ListNotations.
Open Scope Z_scope.
Local Open Scope outcome_scope.
Local Ltac Zify.zify_post_hook ::= Z.div_mod_to_equations.

(** A plane of [rows] x [cols] pixels [v] *)
Definition holds (bd rows cols : Z) (d : plane) (v : Z -> Z -> Z) : Prop :=
  forall y x, 0 <= y < rows -> 0 <= x < cols -> d y x = Some (v y x) /\ pixel bd (v y x).
Lemma good_h : forall bd rows cols d v, good bd rows cols true d v <-> holds bd rows cols d v.
Proof. intros bd rows cols d v. unfold good, holds, repr, yof, xof. split; [intros [K1 K2] y x Hy Hx; split; [apply K1|apply K2]; assumption|intros K; split; intros a b Ha Hb; apply K; assumption]. Qed.
Lemma good_v : forall bd rows cols d v, good bd rows cols false d (fun x y => v y x) <-> holds bd rows cols d v.
Proof. intros bd rows cols d v. unfold good, holds, repr, yof, xof. split; [intros [K1 K2] y x Hy Hx; split; [apply (K1 x y)|apply (K2 x y)]; assumption|intros K; split; intros a b Ha Hb; apply K; assumption]. Qed.

(** * Sizes *)
Section Sizes.
Variables (w4 h4 sby : Z) (sb128 : bool) (ss : Z).
Hypothesis Hss : ss = 0 \/ ss = 1.
Hypothesis Hby : 0 <= sby.
Definition size_sb : Z := if sb128 then 32 else 16.
Definition row0 : Z := sby * (size_sb / 2 ^ ss).
Definition row1 : Z := Z.min ((h4 + ss) / 2 ^ ss) (row0 + size_sb / 2 ^ ss).
Definition half : Z := 16 / 2 ^ ss.
Lemma sbsz_eq : sbsz sb128 = size_sb.
Proof. unfold sbsz, is_sb64, size_sb. destruct sb128; reflexivity. Qed.
Lemma starty4_eq : starty4 sby sb128 = if sb128 then 0 else 16 * (sby mod 2).
Proof.
  unfold starty4, is_sb64. destruct sb128; cbn [negb b2z]; [rewrite Z.land_0_r; reflexivity|]. replace (Z.land sby 1) with (sby mod 2) by (symmetry; apply (Z.land_ones sby 1); lia). rewrite Z.shiftl_mul_pow2 by lia. change (2 ^ 4) with 16. lia.
Qed.
Lemma half_ok : hsize half.
Proof. unfold hsize, half. destruct Hss as [->| ->]; [right|left]; reflexivity. Qed.
Lemma half_shift : Z.shiftr 16 ss = half.
Proof. unfold half. destruct Hss as [->| ->]; reflexivity. Qed.
Lemma row0_eq : Z.shiftr (sby * sbsz sb128) ss = row0.
Proof.
  rewrite sbsz_eq. unfold row0, size_sb. rewrite Z.shiftr_div_pow2 by (destruct Hss as [->| ->]; lia).
  destruct Hss as [->| ->]; [change (2 ^ 0) with 1|change (2 ^ 1) with 2]; destruct sb128; [change (32 / 1) with 32|change (16 / 1) with 16|change (32 / 2) with 16|change (16 / 2) with 8]; lia.
Qed.
Lemma start_eq : Z.shiftr (starty4 sby sb128) ss = row0 mod (2 * half).
Proof.
  rewrite starty4_eq. rewrite Z.shiftr_div_pow2 by (destruct Hss as [->| ->]; lia). unfold row0, half, size_sb.
  destruct Hss as [->| ->]; [change (2 ^ 0) with 1|change (2 ^ 1) with 2]; destruct sb128; [change (32 / 1) with 32; change (2 * (16 / 1)) with 32|change (16 / 1) with 16; change (2 * 16) with 32|change (32 / 2) with 16; change (2 * (16 / 2)) with 16|change (16 / 2) with 8; change (2 * 8) with 16]; lia.
Qed.
Lemma start_half : start_ok half (row0 mod (2 * half)).
Proof.
  unfold start_ok. rewrite <- start_eq, starty4_eq. unfold half. destruct sb128; [left; destruct Hss as [->| ->]; reflexivity|].
  destruct (Z.mod_pos_bound sby 2) as [K1 K2]; [lia|]. assert (K : sby mod 2 = 0 \/ sby mod 2 = 1) by lia. destruct K as [-> | ->]; [left|right]; destruct Hss as [->| ->]; reflexivity.
Qed.
Lemma end_eq : Z.shiftr (endy4 h4 sby sb128 + ss) ss = row1 - row0 + row0 mod (2 * half).
Proof.
  rewrite <- start_eq. unfold endy4. rewrite starty4_eq, sbsz_eq. rewrite !Z.shiftr_div_pow2 by (destruct Hss as [->| ->]; lia). unfold row1, row0, size_sb.
  destruct Hss as [->| ->]; [change (2 ^ 0) with 1|change (2 ^ 1) with 2]; destruct sb128; [change (32 / 1) with 32|change (16 / 1) with 16|change (32 / 2) with 16|change (16 / 2) with 8]; lia.
Qed.
Hypothesis Hin : sby * size_sb < h4.
Lemma rows_range : 0 <= row0 < row1 /\ row1 <= (h4 + ss) / 2 ^ ss.
Proof.
  unfold row1, row0, size_sb in *.
  destruct Hss as [->| ->]; [change (2 ^ 0) with 1|change (2 ^ 1) with 2]; destruct sb128; [change (32 / 1) with 32|change (16 / 1) with 16|change (32 / 2) with 16|change (16 / 2) with 8]; lia.
Qed.
Lemma rows_fit : row1 - row0 + row0 mod (2 * half) <= 2 * half.
Proof.
  rewrite <- start_eq, starty4_eq. rewrite !Z.shiftr_div_pow2 by (destruct Hss as [->| ->]; lia). unfold row1, row0, half, size_sb.
  destruct Hss as [->| ->]; [change (2 ^ 0) with 1|change (2 ^ 1) with 2]; destruct sb128; [change (32 / 1) with 32; change (16 / 1) with 16|change (16 / 1) with 16|change (32 / 2) with 16; change (16 / 2) with 8|change (16 / 2) with 8]; lia.
Qed.
Lemma rows_end : end_ok half ((h4 + ss) / 2 ^ ss) row0 row1 (row0 mod (2 * half)).
Proof.
  unfold end_ok. rewrite <- start_eq, starty4_eq. rewrite !Z.shiftr_div_pow2 by (destruct Hss as [->| ->]; lia). unfold row1, row0, half, size_sb.
  destruct Hss as [->| ->]; [change (2 ^ 0) with 1|change (2 ^ 1) with 2]; destruct sb128; [change (32 / 1) with 32; change (16 / 1) with 16|change (16 / 1) with 16|change (32 / 2) with 16; change (16 / 2) with 8|change (16 / 2) with 8]; lia.
Qed.
Lemma have_top : (0 <? sby) = (0 <? row0).
Proof.
  unfold row0, size_sb. destruct Hss as [->| ->]; [change (2 ^ 0) with 1|change (2 ^ 1) with 2]; destruct sb128; [change (32 / 1) with 32|change (16 / 1) with 16|change (32 / 2) with 16|change (16 / 2) with 8];
    match goal with |- _ = (0 <? ?e) => destruct (Z.ltb_spec 0 sby), (Z.ltb_spec 0 e) end; try lia; reflexivity.
Qed.
Lemma width_eq : forall X, Z.shiftr (Z.min 32 (w4 - X * 32) + ss) ss = Z.min (2 * half) ((w4 + ss) / 2 ^ ss - 2 * half * X).
Proof.
  intros X. rewrite !Z.shiftr_div_pow2 by (destruct Hss as [->| ->]; lia). unfold half.
  destruct Hss as [->| ->]; [change (2 ^ 0) with 1; change (16 / 1) with 16|change (2 ^ 1) with 2; change (16 / 2) with 8]; lia.
Qed.
Lemma count_ok : 0 < w4 -> 2 * half * ((w4 + 31) / 32 - 1) < (w4 + ss) / 2 ^ ss <= 2 * half * ((w4 + 31) / 32).
Proof.
  intros H. unfold half. destruct Hss as [->| ->]; [change (2 ^ 0) with 1; change (16 / 1) with 16|change (2 ^ 1) with 2; change (16 / 2) with 8]; lia.
Qed.
Lemma width_pos : 0 < w4 -> 0 < (w4 + ss) / 2 ^ ss.
Proof. intros H. destruct Hss as [->| ->]; [change (2 ^ 0) with 1|change (2 ^ 1) with 2]; lia. Qed.
Lemma base_eq : forall X, X * Z.shiftr 32 ss = 2 * half * X /\ X * Z.shiftr 128 ss = 4 * (2 * half * X).
Proof. intros X. unfold half. destruct Hss as [->| ->]; [change (Z.shiftr 32 0) with 32; change (Z.shiftr 128 0) with 128; change (16 / 2 ^ 0) with 16|change (Z.shiftr 32 1) with 16; change (Z.shiftr 128 1) with 64; change (16 / 2 ^ 1) with 8]; lia. Qed.
Lemma half_le : 2 * half <= 32.
Proof. unfold half. destruct Hss as [->| ->]; [change (16 / 2 ^ 0) with 16|change (16 / 2 ^ 1) with 8]; lia. Qed.
End Sizes.

Local Ltac Zify.zify_post_hook ::= idtac.
(** * The passes of a plane with subsampling [ssv], [ssh] *)
Section Pass.
Variables (bd rows cols pl sharp : Z) (t : lut) (lev : levels) (i : Z) (L : Z -> Z -> Z) (w4 h4 sby : Z) (sb128 : bool) (ssv ssh : Z) (filter : Z -> masks).
Hypothesis Hd : depth bd.
Hypothesis Hs : 0 <= sharp <= 7.
Hypothesis Ht : lut_ok sharp t.
Hypothesis Hv : ssv = 0 \/ ssv = 1.
Hypothesis Hh : ssh = 0 \/ ssh = 1.
Hypothesis Hw4 : 0 < w4.
Hypothesis Hby : 0 <= sby.
Hypothesis Hin : sby * size_sb sb128 < h4.
Notation W := ((w4 + ssh) / 2 ^ ssh). Notation H := ((h4 + ssv) / 2 ^ ssv).
Notation R0 := (row0 sby sb128 ssv). Notation R1 := (row1 h4 sby sb128 ssv).
Notation hv := (half ssv). Notation hh := (half ssh).
Notation n128 := ((w4 + 31) / 32).
Hypothesis Hrows : 4 * H <= rows.
Hypothesis Hcols : 4 * W <= cols.
Hypothesis Hlev : forall r c, 0 <= r < H -> 0 <= c < W -> lev r c i = Ok (L r c) /\ 0 <= L r c < 64.
Lemma n_pos : 0 < n128. Proof. apply Z.div_str_pos. lia. Qed.

Notation Ecol := (Ecol pl hv hh filter).
Notation Erow := (Erow pl hv hh filter).

Section C.
Hypothesis Hm : forall X, 0 <= X < n128 -> mask_ok (negb (pl =? 0)) hv (filter X).
Hypothesis Hout : forall r c, r / (2 * hv) = R0 / (2 * hv) -> H <= r -> 0 <= c < W -> Ecol r c = None.
Hypothesis Hreach : forall r c fs, R0 <= r < R1 -> 0 < c < W -> Ecol r c = Some fs -> reach pl fs <= 4 * c /\ 4 * c + reach pl fs <= cols.
Definition pass_cols (d : plane) : outcome plane :=
  for_ 0 n128 (fun X d => for_ 0 (Z.min (2 * hh) (W - 2 * hh * X)) (fun x d =>
    if negb (negb (X =? 0)) && (x =? 0) then Ok d else strip_h bd rows cols t lev pl i (Mcol hv (R0 mod (2 * hv)) (R1 - R0 + R0 mod (2 * hv)) (filter X) x) R0 (2 * hh * X + x) d) d) d.
Lemma pass_cols_ok : forall d v, holds bd rows cols d v -> exists d', pass_cols d = Ok d' /\
  holds bd rows cols d' (fun y => if (R0 <=? y / 4) && (y / 4 <? R1) then Spec.filter_line bd pl sharp (Ecol (y / 4)) (L (y / 4)) 0 W (v y) else v y).
Proof.
  intros d v G. apply good_h in G.
  destruct (cols_ok bd rows cols pl sharp t lev i L hv hh W H R0 R1 (R0 mod (2 * hv)) n128 Hd Hs Ht (half_ok ssv Hv) (half_ok ssh Hh) (width_pos w4 ssh Hh Hw4) (rows_range h4 sby sb128 ssv Hv Hby Hin) (start_half sby sb128 ssv Hv) eq_refl (rows_fit h4 sby sb128 ssv Hv) Hrows (count_ok w4 ssh Hh Hw4) n_pos Hlev filter Hm Hout (rows_end h4 sby sb128 ssv Hv) Hreach d v G) as (d' & E' & G').
  exists d'. split; [exact E'|]. apply good_h in G'. exact G'.
Qed.
End C.
Section R.
Hypothesis Hm : forall X, 0 <= X < n128 -> mask_ok (negb (pl =? 0)) hh (filter X).
Hypothesis Hout : forall r c, R0 <= r < R1 -> W <= c < 2 * hh * n128 -> Erow c r = None.
Hypothesis Hreach : forall r c fs, R0 <= r < R1 -> 0 < r -> 0 <= c < W -> Erow c r = Some fs -> reach pl fs <= 4 * r /\ 4 * r + reach pl fs <= rows.
Definition pass_rows (d : plane) : outcome plane :=
  for_ 0 n128 (fun X d => for_ (R0 mod (2 * hv)) (R1 - R0 + R0 mod (2 * hv)) (fun y d =>
    if negb (0 <? sby) && (y =? 0) then Ok d else strip_v bd rows cols t lev pl i (Mrow hh (filter X) y) (R0 + (y - R0 mod (2 * hv))) (2 * hh * X) d) d) d.
Lemma pass_rows_ok : forall d v, holds bd rows cols d v -> exists d', pass_rows d = Ok d' /\
  holds bd rows cols d' (fun y x => if x / 4 <? W then Spec.filter_line bd pl sharp (Erow (x / 4)) (fun r => L r (x / 4)) R0 R1 (fun y => v y x) y else v y x).
Proof.
  intros d v G. apply good_v in G.
  destruct (rows_ok bd rows cols pl sharp t lev i L hv hh W H R0 R1 (R0 mod (2 * hv)) n128 Hd Hs Ht (half_ok ssv Hv) (half_ok ssh Hh) (width_pos w4 ssh Hh Hw4) (rows_range h4 sby sb128 ssv Hv Hby Hin) (start_half sby sb128 ssv Hv) eq_refl (rows_fit h4 sby sb128 ssv Hv) Hcols (count_ok w4 ssh Hh Hw4) n_pos Hlev filter Hm Hout Hreach (0 <? sby) (have_top sby sb128 ssv Hv) d _ G) as (d' & E' & G').
  exists d'. split; [exact E'|]. apply good_v. apply (good_ext bd rows cols false d' _ _ G'). intros a b Ha _. assert (0 <= a / 4) by (apply Z.div_pos; lia). destruct (Z.leb_spec 0 (a / 4)); [|lia]. cbn [andb]. destruct (a / 4 <? W); reflexivity.
Qed.
End R.
End Pass.

(** * The functions *)
Section Eqs.
Variables (bd rows cols : Z) (t : lut) (lev : levels) (w4 h4 sby : Z) (sb128 : bool) (filter : Z -> masks).
Hypothesis Hby : 0 <= sby.
Lemma zero_ss : (0 = 0 \/ 0 = 1). Proof. left. reflexivity. Qed.
Lemma cols_y_pass : forall d, sbrow_cols_y bd rows cols t lev w4 h4 ((w4 + 31) / 32) sby sb128 filter (4 * row0 sby sb128 0) d = pass_cols bd rows cols 0 t lev 0 w4 h4 sby sb128 0 0 filter d.
Proof.
  intros d. unfold sbrow_cols_y, pass_cols. apply for_ext. intros X d1 HX.
  pose proof (row0_eq sby sb128 0 zero_ss) as E1. rewrite Z.shiftr_0_r in E1. rewrite E1.
  pose proof (start_eq sby sb128 0 zero_ss) as E2. rewrite Z.shiftr_0_r in E2. rewrite E2.
  pose proof (end_eq h4 sby sb128 0 zero_ss) as E3. rewrite Z.shiftr_0_r, (Z.add_0_r (endy4 _ _ _)) in E3. rewrite E3.
  pose proof (width_eq w4 0 zero_ss X) as E4. rewrite Z.shiftr_0_r, (Z.add_0_r (Z.min _ _)) in E4. rewrite E4.
  replace (128 * X) with (4 * (32 * X)) by lia. rewrite cols_y_eq by (pose proof (half_le 0 zero_ss); lia). reflexivity.
Qed.
Lemma rows_y_pass : forall d, sbrow_rows_y bd rows cols t lev h4 ((w4 + 31) / 32) sby sb128 filter (4 * row0 sby sb128 0) d = pass_rows bd rows cols 0 t lev 1 w4 h4 sby sb128 0 0 filter d.
Proof.
  intros d. unfold sbrow_rows_y, pass_rows. apply for_ext. intros X d1 HX.
  pose proof (row0_eq sby sb128 0 zero_ss) as E1. rewrite Z.shiftr_0_r in E1. rewrite E1.
  pose proof (start_eq sby sb128 0 zero_ss) as E2. rewrite Z.shiftr_0_r in E2. rewrite E2.
  pose proof (end_eq h4 sby sb128 0 zero_ss) as E3. rewrite Z.shiftr_0_r, (Z.add_0_r (endy4 _ _ _)) in E3. rewrite E3.
  replace (128 * X) with (4 * (32 * X)) by lia. rewrite rows_y_eq; [reflexivity| |].
  - apply Z.mod_pos_bound. reflexivity.
  - pose proof (rows_fit h4 sby sb128 0 zero_ss). pose proof (half_le 0 zero_ss). lia.
Qed.
Variables (pl i ssv ssh : Z).
Hypothesis Hpl : pl <> 0.
Hypothesis Hv : ssv = 0 \/ ssv = 1.
Hypothesis Hh : ssh = 0 \/ ssh = 1.
Lemma cols_uv_pass : forall d, sbrow_cols_uv bd rows cols t lev w4 h4 ((w4 + 31) / 32) sby sb128 ssv ssh i filter (4 * row0 sby sb128 ssv) d = pass_cols bd rows cols pl t lev i w4 h4 sby sb128 ssv ssh filter d.
Proof.
  intros d. unfold sbrow_cols_uv, pass_cols, uv_endy4. apply for_ext. intros X d1 HX.
  rewrite (row0_eq sby sb128 ssv Hv), (start_eq sby sb128 ssv Hv), (end_eq h4 sby sb128 ssv Hv), (width_eq w4 ssh Hh X).
  destruct (base_eq ssh Hh X) as [-> ->]. rewrite (cols_uv_eq bd rows cols t lev i pl) by (try exact Hpl; pose proof (half_le ssh Hh); lia). rewrite (half_shift ssv Hv). reflexivity.
Qed.
Lemma rows_uv_pass : forall d, sbrow_rows_uv bd rows cols t lev h4 ((w4 + 31) / 32) sby sb128 ssv ssh i filter (4 * row0 sby sb128 ssv) d = pass_rows bd rows cols pl t lev i w4 h4 sby sb128 ssv ssh filter d.
Proof.
  intros d. unfold sbrow_rows_uv, pass_rows, uv_endy4. apply for_ext. intros X d1 HX.
  rewrite (row0_eq sby sb128 ssv Hv), (start_eq sby sb128 ssv Hv), (end_eq h4 sby sb128 ssv Hv).
  destruct (base_eq ssh Hh X) as [-> ->]. rewrite (rows_uv_eq bd rows cols t lev i pl); [|exact Hpl| |].
  - rewrite (half_shift ssh Hh). reflexivity.
  - apply Z.mod_pos_bound. pose proof (hsize_pos _ (half_ok ssv Hv)). lia.
  - pose proof (rows_fit h4 sby sb128 ssv Hv). pose proof (half_le ssv Hv). lia.
Qed.
End Eqs.

(** The loops over superblocks. *)
From Coq Require Import ZArith List Bool Lia.
From Verif Require Import Base.CInt Base.Lemmas Base.Loop Mc.Kernel Lf.Model Lf.Line Lf.Edge Lf.Strip Lf.Frame.
From Verif Require Lf.Spec.
Import ListNotations.
Open Scope Z_scope.
Local Open Scope outcome_scope.

(** Filtering line [a] at position [p], in units of four samples: [E u p] is the size of the edge of the unit [u] of
    lines and [L u p] the level of the block after it. Nothing is before position 0. *)
Definition gstep (bd pl sharp : Z) (E : Z -> Z -> option Z) (L : Z -> Z -> Z) (a p : Z) (line : Z -> Z) : Z -> Z :=
  if p =? 0 then line else
  match E (a / 4) p with Some fs => Spec.edge_filter bd pl sharp fs (L (a / 4) p) (L (a / 4) (p - 1)) line (4 * p) | None => line end.

Section Seq.
Variables (bd rows cols : Z) (hor : bool).
Notation good := (good bd rows cols hor).
(** Loops whose iterations do [g] to every line *)
Lemma seq_ok : forall lo hi body g d v, lo <= hi ->
  (forall c d v, lo <= c < hi -> good d v -> exists d', body c d = Ok d' /\ good d' (fun a => g a c (v a))) -> good d v ->
  exists d', for_ lo hi body d = Ok d' /\ good d' (fun a => zfor lo hi (g a) (v a)).
Proof.
  intros lo hi body g d v H HB G. apply (for_inv _ (fun c (d : plane) => good d (fun a => zfor lo c (g a) (v a)))); [exact H| |].
  - apply (good_ext bd rows cols hor d v); [exact G|]. intros a b _ _. rewrite zfor_nil by lia. reflexivity.
  - intros c d1 Hc G1. destruct (HB c d1 _ Hc G1) as (d2 & E2 & G2). exists d2. split; [exact E2|].
    apply (good_ext bd rows cols hor d2 _ _ G2). intros a b _ _. rewrite zfor_last by lia. reflexivity.
Qed.
End Seq.

Section Abs.
Variables (bd rows cols : Z) (hor : bool) (pl sharp : Z) (t : lut) (E : Z -> Z -> option Z) (L : Z -> Z -> Z).
Notation A := (if hor then rows else cols). Notation B := (if hor then cols else rows).
Hypothesis Hd : depth bd.
Hypothesis Hs : 0 <= sharp <= 7.
Hypothesis Ht : lut_ok sharp t.
Notation good := (good bd rows cols hor).
Notation gstep := (gstep bd pl sharp E L).
(** What an edge needs *)
Definition edge_ok (u p : Z) : Prop := forall fs, E u p = Some fs ->
  fsize pl fs /\ 0 <= L u p < 64 /\ 0 <= L u (p - 1) < 64 /\ 4 * u + 4 <= A /\ reach pl fs <= 4 * p /\ 4 * p + reach pl fs <= B.

Lemma strip_abs : forall m ocur oprev u0 p n d v, 0 <= u0 -> p <> 0 -> 0 <= n <= 32 ->
  (forall k, 0 <= k < 32 -> sz (negb (pl =? 0)) m k = if k <? n then E (u0 + k) p else None) ->
  (forall u, u0 <= u < u0 + n -> edge_ok u p /\ (E u p <> None -> ocur (u - u0) = Ok (L u p) /\ oprev (u - u0) = Ok (L u (p - 1)))) -> good d v ->
  exists d', for_ 0 32 (fun k d => match sz (negb (pl =? 0)) m k with Some fs => filter_unit bd rows cols t hor (ocur k) (oprev k) (width pl fs) (yof hor (4 * u0 + 4 * k) (4 * p)) (xof hor (4 * u0 + 4 * k) (4 * p)) d | None => Ok d end) d = Ok d' /\
    good d' (fun a => if (u0 <=? a / 4) && (a / 4 <? u0 + n) then gstep a p (v a) else v a).
Proof.
  intros m ocur oprev u0 p n d v Hu Hp Hn HE HO G.
  destruct (strip_ok bd rows cols hor pl sharp t Hd Hs Ht (sz (negb (pl =? 0)) m) ocur oprev (fun k => L (u0 + k) p) (fun k => L (u0 + k) (p - 1)) (4 * u0) (4 * p) d v) as (d' & E1 & G1); [|lia|exact G|].
  - intros k fs Hk E0. rewrite HE in E0 by exact Hk. destruct (Z.ltb_spec k n); [|discriminate E0].
    destruct (HO (u0 + k) ltac:(lia)) as [K1 K2]. destruct (K1 fs E0) as (Q1 & Q2 & Q3 & Q4 & Q5 & Q6). destruct K2 as [Q7 Q8]; [rewrite E0; discriminate|].
    replace (u0 + k - u0) with k in * by lia. repeat split; try assumption; try lia.
  - exists d'. split; [exact E1|]. apply (good_ext bd rows cols hor d' _ _ G1). intros a b _ _. unfold step, Sbrow.gstep. destruct (Z.eqb_spec p 0); [contradiction|].
    destruct (Z.leb_spec (4 * u0) a) as [P1|P1], (Z.leb_spec u0 (a / 4)) as [P2|P2]; cbn [andb].
    + replace ((a - 4 * u0) / 4) with (a / 4 - u0) by (replace (a - 4 * u0) with (a + (- u0) * 4) by lia; rewrite Z.div_add by lia; lia).
      destruct (Z.ltb_spec a (4 * u0 + 128)) as [P3|P3].
      * assert (a / 4 - u0 < 32) by (assert (a / 4 < u0 + 32) by (apply Z.div_lt_upper_bound; lia); lia). rewrite HE by lia. replace (u0 + (a / 4 - u0)) with (a / 4) by lia.
        destruct (Z.ltb_spec (a / 4 - u0) n), (Z.ltb_spec (a / 4) (u0 + n)); try lia; reflexivity.
      * assert (u0 + 32 <= a / 4) by (apply Z.div_le_lower_bound; lia). destruct (Z.ltb_spec (a / 4) (u0 + n)); [lia|reflexivity].
    + exfalso. assert (u0 <= a / 4) by (apply Z.div_le_lower_bound; lia). lia.
    + exfalso. pose proof (Z.mul_div_le a 4 ltac:(lia)). lia.
    + reflexivity.
Qed.
End Abs.

(** * Blocks of units *)
(** Quotients by variables are handled by the lemmas below. *)
Local Ltac Zify.zify_post_hook ::= idtac.
Definition hsize (hb : Z) : Prop := hb = 8 \/ hb = 16.
Lemma hsize_pos : forall hb, hsize hb -> 0 < hb <= 16.
Proof. intros hb [->| ->]; lia. Qed.
Lemma blk_in : forall nb n W X, 0 < nb -> 0 <= X < n -> nb * (n - 1) < W -> 0 <= nb * X < W.
Proof. intros nb n W X H1 H2 H3. assert (nb * X <= nb * (n - 1)) by (apply Z.mul_le_mono_nonneg_l; lia). split; [apply Z.mul_nonneg_nonneg; lia|lia]. Qed.
Lemma blk_div : forall nb X x, 0 <= x < nb -> (nb * X + x) / nb = X /\ (nb * X + x) mod nb = x.
Proof. intros nb X x H. split; symmetry; [apply (Z.div_unique _ nb X x)|apply (Z.mod_unique _ nb X x)]; lia. Qed.
Lemma blk_zero : forall nb X x, 0 < nb -> 0 <= X -> 0 <= x -> nb * X + x = 0 -> X = 0 /\ x = 0.
Proof. intros nb X x H1 H2 H3 H4. assert (0 <= nb * X) by (apply Z.mul_nonneg_nonneg; lia). assert (E : nb * X = 0) by lia. apply Z.mul_eq_0 in E. lia. Qed.
Lemma blk_end : forall nb n X, 0 < nb -> X < n -> nb * X + nb <= nb * n.
Proof. intros nb n X H1 H2. assert (nb * (X + 1) <= nb * n) by (apply Z.mul_le_mono_nonneg_l; lia). lia. Qed.
Lemma blk_find : forall nb u X, 0 < nb -> (nb * X <=? u) && (u <? nb * X + nb) = (X =? u / nb).
Proof.
  intros nb u X H. pose proof (Z.div_mod u nb ltac:(lia)) as D. pose proof (Z.mod_pos_bound u nb H) as D2. destruct (Z.eqb_spec X (u / nb)) as [E|E].
  - rewrite E. destruct (Z.leb_spec (nb * (u / nb)) u), (Z.ltb_spec u (nb * (u / nb) + nb)); try lia; reflexivity.
  - destruct (Z.leb_spec (nb * X) u), (Z.ltb_spec u (nb * X + nb)); try reflexivity. exfalso. apply E. apply (Z.div_unique u nb X (u - nb * X)); lia.
Qed.
Lemma blk_lt : forall nb n u, 0 < nb -> u < nb * n -> u / nb < n.
Proof. intros nb n u H1 H2. apply Z.div_lt_upper_bound; assumption. Qed.

(** * A superblock row of a plane of [W] x [H] units; superblocks have 2 [hv] rows of 2 [hh] units. *)
Section Row.
Variables (bd rows cols pl sharp : Z) (t : lut) (lev : levels) (i : Z) (L : Z -> Z -> Z) (hv hh W H : Z) (R0 R1 start : Z) (n128 : Z).
Notation nbv := (2 * hv). Notation nbh := (2 * hh).
Hypothesis Hd : depth bd.
Hypothesis Hs : 0 <= sharp <= 7.
Hypothesis Ht : lut_ok sharp t.
Hypothesis Hnv : hsize hv.
Hypothesis Hnh : hsize hh.
Hypothesis HW : 0 < W.
Hypothesis HR : 0 <= R0 < R1 /\ R1 <= H.
Definition start_ok : Prop := start = 0 \/ start = hv.
Hypothesis Hst : start_ok.
Hypothesis HRs : R0 mod nbv = start.
Hypothesis Hen : R1 - R0 + start <= nbv.
Hypothesis Hrows : 4 * H <= rows.
Hypothesis Hcols : 4 * W <= cols.
Hypothesis Hn : nbh * (n128 - 1) < W <= nbh * n128.
Hypothesis Hn0 : 0 < n128.
Hypothesis Hlev : forall r c, 0 <= r < H -> 0 <= c < W -> lev r c i = Ok (L r c) /\ 0 <= L r c < 64.
Notation uv := (negb (pl =? 0)).
Notation en := (R1 - R0 + start).

Lemma start_range : 0 <= start /\ start <= hv.
Proof. pose proof (hsize_pos hv Hnv). destruct Hst as [E|E]; rewrite E; lia. Qed.
Lemma mod_base : forall k, 0 <= k < nbv - start -> (R0 + k) mod nbv = start + k.
Proof.
  intros k Hk. pose proof (hsize_pos hv Hnv). pose proof start_range. rewrite <- Z.add_mod_idemp_l by lia. rewrite HRs. apply Z.mod_small. lia.
Qed.

Section Cols.
Variable filter : Z -> masks.
Hypothesis Hm : forall X, 0 <= X < n128 -> mask_ok uv hv (filter X).
Definition Ecol (r c : Z) : option Z := edge uv hv (filter (c / nbh)) (c mod nbh) (r mod nbv).
Hypothesis Hout : forall r c, r / nbv = R0 / nbv -> H <= r -> 0 <= c < W -> Ecol r c = None.
Definition end_ok : Prop := R1 = H \/ en = hv \/ en = nbv.
Hypothesis Hend : end_ok.
Hypothesis Hreach : forall r c fs, R0 <= r < R1 -> 0 < c < W -> Ecol r c = Some fs -> reach pl fs <= 4 * c /\ 4 * c + reach pl fs <= cols.
Notation good := (good bd rows cols true).
Notation G1 := (fun a p (line : Z -> Z) => if (R0 <=? a / 4) && (a / 4 <? R1) then gstep bd pl sharp Ecol L a p line else line).
Notation col X x := (fun d => if negb (negb (X =? 0)) && (x =? 0) then Ok d else strip_h bd rows cols t lev pl i (Mcol hv start en (filter X) x) R0 (nbh * X + x) d).

Lemma col_masks : forall X x k, 0 <= X < n128 -> 0 <= x < nbh -> nbh * X + x < W -> 0 <= nbh * X -> 0 <= k < 32 ->
  sz uv (Mcol hv start en (filter X) x) k = if k <? R1 - R0 then Ecol (R0 + k) (nbh * X + x) else None.
Proof.
  intros X x k HX Hx HxW Hc0 Hk. pose proof (hsize_pos hv Hnv) as Pv. pose proof (hsize_pos hh Hnh) as Ph. pose proof start_range as Sr. destruct (blk_div nbh X x Hx) as [Ec1 Ec2].
  rewrite (col_sz uv hv start en (filter X) x k); [|exact Hnv|apply Hm; exact HX|lia|exact Hk|exact Hst|lia|].
  - replace (R1 - R0 + start - start) with (R1 - R0) by lia. destruct (Z.ltb_spec k (R1 - R0)); [|reflexivity]. unfold Ecol. rewrite Ec1, Ec2, mod_base by lia. reflexivity.
  - intros kk Hkk. assert (Q : R1 = H /\ start <= kk < nbv /\ en <= kk).
    { clear - Hkk Hend HR Pv Sr. unfold end_ok in Hend. destruct (Z.leb_spec en hv); lia. } destruct Q as (Q1 & Q2 & Q3). clear Hkk.
    replace kk with (start + (kk - start)) by lia. rewrite <- (mod_base (kk - start)) by lia.
    assert (K := Hout (R0 + (kk - start)) (nbh * X + x)). unfold Ecol in K. rewrite Ec1, Ec2 in K. clear Ec1 Ec2. apply K; [|clear - Q1 Q3; lia|lia].
    pose proof (Z.div_mod R0 nbv ltac:(lia)) as D. rewrite HRs in D. symmetry. apply (Z.div_unique _ nbv (R0 / nbv) kk); [left|]; clear - D Q2 Sr Pv; lia.
Qed.
Lemma col_ok : forall X x d v, 0 <= X < n128 -> 0 <= x < Z.min nbh (W - nbh * X) -> good d v -> exists d', col X x d = Ok d' /\ good d' (fun a => G1 a (nbh * X + x) (v a)).
Proof.
  intros X x d2 v2 HX Hx Gd2. pose proof (hsize_pos hh Hnh) as Ph. pose proof (hsize_pos hv Hnv) as Pv. pose proof start_range as Sr. pose proof (blk_in nbh n128 W X ltac:(lia) HX ltac:(lia)) as HXW. rewrite negb_involutive.
  destruct ((X =? 0) && (x =? 0)) eqn:E0.
  - exists d2. split; [reflexivity|]. apply (good_ext bd rows cols true d2 v2 _ Gd2). intros a b _ _. apply andb_true_iff in E0. destruct E0 as [E1 E2]. apply Z.eqb_eq in E1, E2. unfold gstep. rewrite E1, E2. replace (nbh * 0 + 0) with 0 by lia.
    cbn [Z.eqb]. destruct ((R0 <=? a / 4) && (a / 4 <? R1)); reflexivity.
  - assert (Np : nbh * X + x <> 0). { intros Q. destruct (blk_zero nbh X x ltac:(lia) ltac:(lia) ltac:(lia) Q) as [Q1 Q2]. rewrite Q1, Q2 in E0. discriminate E0. }
    pose proof (col_masks X x) as CM. set (c := nbh * X + x) in *. assert (Hc : 0 < c < W) by (unfold c in *; lia).
    destruct (strip_abs bd rows cols true pl sharp t Ecol L Hd Hs Ht (Mcol hv start en (filter X) x) (fun k => lev (R0 + k) c i) (fun k => lev (R0 + k) (c - 1) i) R0 c (R1 - R0) d2 v2) as (d3 & E3 & G3); [lia|exact Np|lia| | |exact Gd2|].
    + intros k Hk. apply CM; lia.
    + clear CM Np. intros u Hu. split.
      * intros fs Efs. destruct (Hreach u c fs ltac:(lia) Hc Efs) as [K1 K2].
        destruct (Hlev u c ltac:(lia) ltac:(lia)) as [_ K3]. destruct (Hlev u (c - 1) ltac:(lia) ltac:(lia)) as [_ K4].
        split; [apply (sz_size uv pl _ _ fs eq_refl Efs)|]. split; [exact K3|]. split; [exact K4|]. split; [lia|]. split; [exact K1|exact K2].
      * intros _. replace (R0 + (u - R0)) with u by lia. split; apply Hlev; lia.
    + exists d3. split; [exact E3|]. apply (good_ext bd rows cols true d3 _ _ G3). intros a b _ _. replace (R0 + (R1 - R0)) with R1 by lia. reflexivity.
Qed.
Lemma cols_ok : forall d v, good d v ->
  exists d', for_ 0 n128 (fun X d => for_ 0 (Z.min nbh (W - nbh * X)) (fun x d => col X x d) d) d = Ok d' /\
    good d' (fun a => if (R0 <=? a / 4) && (a / 4 <? R1) then zfor 0 W (gstep bd pl sharp Ecol L a) (v a) else v a).
Proof.
  intros d v G. pose proof (hsize_pos hh Hnh) as Ph.
  destruct (seq_ok bd rows cols true 0 n128 (fun X d => for_ 0 (Z.min nbh (W - nbh * X)) (fun x d => col X x d) d)
    (fun a X line => zfor 0 (Z.min nbh (W - nbh * X)) (fun x => G1 a (nbh * X + x)) line) d v) as (d' & E' & G'); [lia| |exact G|].
  - intros X d1 v1 HX Gd. pose proof (blk_in nbh n128 W X ltac:(lia) HX ltac:(lia)) as HXW.
    apply (seq_ok bd rows cols true 0 (Z.min nbh (W - nbh * X)) (fun x d => col X x d) (fun a x line => G1 a (nbh * X + x) line)); [lia| |exact Gd].
    intros x d2 v2 Hx Gd2. apply (col_ok X x d2 v2 HX Hx Gd2).
  - exists d'. split; [exact E'|]. apply (good_ext bd rows cols true d' _ _ G'). intros a b _ _. rewrite (zfor_blocks _ (fun p line => G1 a p line)) by lia. replace (Z.min W (nbh * n128)) with W by lia.
    destruct ((R0 <=? a / 4) && (a / 4 <? R1)); [reflexivity|]. rewrite zfor_id by (intros; reflexivity). reflexivity.
Qed.
End Cols.

Section Rows.
Variable filter : Z -> masks.
Hypothesis Hm : forall X, 0 <= X < n128 -> mask_ok uv hh (filter X).
(** of the unit [c] of columns at row [r] *)
Definition Erow (c r : Z) : option Z := edge uv hh (filter (c / nbh)) (r mod nbv) (c mod nbh).
Hypothesis Hout : forall r c, R0 <= r < R1 -> W <= c < nbh * n128 -> Erow c r = None.
Hypothesis Hreach : forall r c fs, R0 <= r < R1 -> 0 < r -> 0 <= c < W -> Erow c r = Some fs -> reach pl fs <= 4 * r /\ 4 * r + reach pl fs <= rows.
Variable ht : bool.
Hypothesis Hht : ht = (0 <? R0).
Notation good := (good bd rows cols false).
Notation LT := (fun c r => L r c).
Notation G1 := (fun a p (line : Z -> Z) => gstep bd pl sharp Erow LT a p line).
Notation row X y := (fun d => if negb ht && (y =? 0) then Ok d else strip_v bd rows cols t lev pl i (Mrow hh (filter X) y) (R0 + (y - start)) (nbh * X) d).

Lemma row_ok : forall X y d v, 0 <= X < n128 -> start <= y < en -> good d v ->
  exists d', row X y d = Ok d' /\ good d' (fun a => if (nbh * X <=? a / 4) && (a / 4 <? nbh * X + nbh) then G1 a (R0 + (y - start)) (v a) else v a).
Proof.
  intros X y d2 v2 HX Hy Gd2. pose proof (hsize_pos hh Hnh) as Ph. pose proof (hsize_pos hv Hnv) as Pv. pose proof start_range as Sr. pose proof (blk_in nbh n128 W X ltac:(lia) HX ltac:(lia)) as HXW. pose proof (blk_end nbh n128 X ltac:(lia) ltac:(lia)) as HXE.
  assert (Ep : (R0 + (y - start)) mod nbv = y) by (rewrite mod_base by lia; lia). set (p := R0 + (y - start)) in *.
  assert (Hp1 : R0 <= p < R1) by (unfold p; lia).
  destruct (negb ht && (y =? 0)) eqn:E0.
  - exists d2. split; [reflexivity|]. apply (good_ext bd rows cols false d2 v2 _ Gd2). intros a b _ _. apply andb_true_iff in E0. destruct E0 as [E1 E2]. rewrite Hht in E1. apply negb_true_iff, Z.ltb_ge in E1. apply Z.eqb_eq in E2.
    assert (E3 : p = 0) by (unfold p; lia). unfold gstep. rewrite E3. change (0 =? 0) with true.
    destruct ((nbh * X <=? a / 4) && (a / 4 <? nbh * X + nbh)); reflexivity.
  - assert (Np : 0 < p). { destruct (Z.eq_dec R0 0) as [Q|Q]; [|lia]. assert (S0 : start = 0) by (rewrite <- HRs, Q; apply Z.mod_0_l; lia). destruct (Z.eqb_spec y 0) as [|Ny]; [|clear E0; unfold p; lia].
      rewrite Hht, Q in E0. discriminate E0. }
    clear E0.
    destruct (strip_abs bd rows cols false pl sharp t Erow LT Hd Hs Ht (Mrow hh (filter X) y) (fun k => lev p (nbh * X + k) i) (fun k => lev (p - 1) (nbh * X + k) i) (nbh * X) p nbh d2 v2) as (d3 & E3 & G3); [lia|lia|lia| | |exact Gd2|].
    + intros k Hk. rewrite (row_sz uv hh (filter X) y k) by (try exact Hnh; try (apply Hm; exact HX); lia). destruct (Z.ltb_spec k nbh) as [Lk|Lk]; [|reflexivity].
      unfold Erow. rewrite Ep. destruct (blk_div nbh X k ltac:(lia)) as [-> ->]. reflexivity.
    + intros u Hu. assert (UW : forall fs, Erow u p = Some fs -> 0 <= u < W).
      { intros fs Efs. destruct (Z.lt_ge_cases u W) as [|Q]; [lia|]. rewrite (Hout p u) in Efs; [discriminate Efs|lia|lia]. }
      split.
      * intros fs Efs. pose proof (UW fs Efs) as Q. destruct (Hreach p u fs Hp1 Np Q Efs) as [K1 K2].
        destruct (Hlev p u ltac:(lia) Q) as [_ K3]. destruct (Hlev (p - 1) u ltac:(lia) Q) as [_ K4].
        split; [apply (sz_size uv pl _ _ fs eq_refl Efs)|]. split; [exact K3|]. split; [exact K4|]. split; [lia|]. split; [exact K1|exact K2].
      * intros NE. destruct (Erow u p) as [fs|] eqn:Efs; [|contradiction]. pose proof (UW fs eq_refl) as Q. replace (nbh * X + (u - nbh * X)) with u by lia. split; apply Hlev; lia.
    + exists d3. split; [exact E3|]. apply (good_ext bd rows cols false d3 _ _ G3). intros a b _ _. reflexivity.
Qed.
Lemma pick : forall S (f : S -> S) X0 n s, 0 <= n -> zfor 0 n (fun X s => if X =? X0 then f s else s) s = if (0 <=? X0) && (X0 <? n) then f s else s.
Proof.
  clear. intros S f X0 n s Hn0. pattern n. apply natlike_ind; [| |exact Hn0].
  - rewrite zfor_nil by lia. destruct (Z.leb_spec 0 X0), (Z.ltb_spec X0 0); try lia; reflexivity.
  - intros m Hm0 IH. unfold Z.succ. rewrite zfor_last by lia. rewrite IH. destruct (Z.eqb_spec m X0), (Z.leb_spec 0 X0), (Z.ltb_spec X0 m), (Z.ltb_spec X0 (m + 1)); try lia; reflexivity.
Qed.
Lemma rows_ok : forall d v, good d v ->
  exists d', for_ 0 n128 (fun X d => for_ start en (fun y d => row X y d) d) d = Ok d' /\
    good d' (fun a => if (0 <=? a / 4) && (a / 4 <? W) then zfor R0 R1 (gstep bd pl sharp Erow LT a) (v a) else v a).
Proof.
  intros d v G. pose proof (hsize_pos hh Hnh) as Ph.
  destruct (seq_ok bd rows cols false 0 n128 (fun X d => for_ start en (fun y d => row X y d) d)
    (fun a X line => zfor start en (fun y line => if (nbh * X <=? a / 4) && (a / 4 <? nbh * X + nbh) then G1 a (R0 + (y - start)) line else line) line) d v) as (d' & E' & G'); [lia| |exact G|].
  - intros X d1 v1 HX Gd.
    apply (seq_ok bd rows cols false start en (fun y d => row X y d) (fun a y line => if (nbh * X <=? a / 4) && (a / 4 <? nbh * X + nbh) then G1 a (R0 + (y - start)) line else line)); [lia| |exact Gd].
    intros y d2 v2 Hy Gd2. apply (row_ok X y d2 v2 HX Hy Gd2).
  - exists d'. split; [exact E'|]. apply (good_ext bd rows cols false d' _ _ G'). intros a b _ _.
    set (full := fun line => zfor R0 R1 (fun p line => G1 a p line) line).
    assert (Blk : forall X line, zfor start en (fun y line => if (nbh * X <=? a / 4) && (a / 4 <? nbh * X + nbh) then G1 a (R0 + (y - start)) line else line) line = if X =? a / 4 / nbh then full line else line).
    { intros X line. rewrite blk_find by lia. destruct (X =? a / 4 / nbh); [|apply zfor_id; reflexivity]. unfold full.
      assert (Q : zfor ((R0 - start) + start) ((R0 - start) + en) (fun p line => G1 a p line) line = zfor R0 R1 (fun p line => G1 a p line) line) by (f_equal; lia). rewrite <- Q. rewrite zfor_shift. apply zfor_ext. intros j s _. f_equal. lia. }
    rewrite (zfor_ext _ _ (fun X line => if X =? a / 4 / nbh then full line else line)) by (intros X s _; apply Blk). clear Blk. rewrite pick by lia.
    destruct (Z.leb_spec 0 (a / 4)) as [P1|P1].
    + assert (P3 : 0 <= a / 4 / nbh) by (apply Z.div_pos; lia). destruct (Z.leb_spec 0 (a / 4 / nbh)); [|lia]. cbn [andb]. destruct (Z.ltb_spec (a / 4) W) as [P2|P2].
      * pose proof (blk_lt nbh n128 (a / 4) ltac:(lia) ltac:(lia)) as P4. destruct (Z.ltb_spec (a / 4 / nbh) n128); [reflexivity|lia].
      * destruct (Z.ltb_spec (a / 4 / nbh) n128) as [P4|P4]; [|reflexivity].
        unfold full. rewrite zfor_id; [reflexivity|]. intros p s Hp. unfold gstep. destruct (p =? 0); [reflexivity|]. rewrite (Hout p (a / 4)); [reflexivity|exact Hp|]. split; [exact P2|].
        pose proof (blk_end nbh n128 (a / 4 / nbh) ltac:(lia) P4). pose proof (Z.mod_pos_bound (a / 4) nbh ltac:(lia)). pose proof (Z.div_mod (a / 4) nbh ltac:(lia)). lia.
    + cbn [andb]. assert (P3 : a / 4 / nbh < 0) by (apply Z.div_lt_upper_bound; lia). destruct (Z.leb_spec 0 (a / 4 / nbh)); [lia|reflexivity].
Qed.
End Rows.
End Row.

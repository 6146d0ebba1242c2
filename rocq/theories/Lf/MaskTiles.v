(** The loops over the boundaries of tile columns and tile rows. *)
From Coq Require Import ZArith List Bool Lia.
From Verif Require Import Base.CInt Base.Lemmas Base.Loop Lf.Model Lf.Strip Lf.Frame Lf.Sbrow Lf.Deblock Lf.MaskModel Lf.MaskBits Lf.MaskBlock Lf.MaskTile Lf.MaskTilesModel.
From Verif Require Lf.MaskSpec.
Import ListNotations.
Open Scope Z_scope.
Local Open Scope outcome_scope.
Local Ltac Zify.zify_post_hook ::= idtac.

Definition line_ok (fix_ : fixer) (uv : bool) (hb pl : Z) : Prop := forall x lo hi nlpf lpf (lt prev : Z -> Z) m, mask_ok uv hb m -> 0 <= x < 32 -> 0 <= lo -> lo <= hi -> hi <= 2 * hb -> hi - lo <= nlpf ->
  (forall p, lo <= p < hi -> lpf (p - lo) = Some (Z.min (cap_of uv) (prev p)) /\ 0 <= prev p) ->
  (forall p, lo <= p < hi -> 0 <= lt p /\ edge uv hb m x p = Some (MaskSpec.filter_size pl (4 * 2 ^ lt p) (4 * 2 ^ cap_of uv))) ->
  exists m', fix_ x lo hi nlpf lpf m = Ok m' /\ mask_ok uv hb m' /\
  forall x' q, 0 <= q < 2 * hb -> edge uv hb m' x' q = if (x' =? x) && ((lo <=? q) && (q <? hi)) then Some (MaskSpec.filter_size pl (4 * 2 ^ lt q) (4 * 2 ^ prev q)) else edge uv hb m x' q.
Lemma luma_line : line_ok fix_line_luma false 16 0.
Proof. intros x lo hi nlpf lpf lt prev m. exact (fix_line_spec false 16 0 (or_intror eq_refl) (or_introl (conj eq_refl eq_refl)) (fun _ => eq_refl) 0 x lo hi nlpf lpf lt prev m eq_refl). Qed.
Lemma chroma_line : forall ss pl, ss = 0 \/ ss = 1 -> pl <> 0 -> line_ok (fix_line_chroma ss) true (half ss) pl.
Proof.
  intros ss pl Hs Hp x lo hi nlpf lpf lt prev m. apply (fix_line_spec true (half ss) ss (half_ok ss Hs)); [destruct Hs as [->| ->]; [left|right]; split; reflexivity|discriminate|]. destruct (Z.eqb_spec pl 0); [contradiction|reflexivity].
Qed.

Lemma at_sb_ok : forall nsb ms x f m, 0 <= x < nsb -> f (ms x) = Ok m -> at_sb nsb ms x f = Ok (fun x' => if x' =? x then m else ms x').
Proof. intros nsb ms x f m Hx E. unfold at_sb. destruct (Z.leb_spec 0 x), (Z.ltb_spec x nsb); try (exfalso; lia). cbn [andb]. rewrite E. reflexivity. Qed.

(** The 128x128 block and the column in it of a superblock *)
Definition sb_of (is s : Z) : Z := s * (32 / 2 ^ is) / 32.
Definition col_of (is ssh s : Z) : Z := s * (32 / 2 ^ is) mod 32 / 2 ^ ssh.
Lemma sb_of_ok : forall is s, is = 0 \/ is = 1 -> Z.shiftr s is = sb_of is s.
Proof.
  intros is s [->| ->]; unfold sb_of; [rewrite Z.shiftr_0_r; change (32 / 2 ^ 0) with 32; rewrite Z.div_mul by lia; reflexivity|].
  rewrite Z.shiftr_div_pow2 by lia. change (32 / 2 ^ 1) with 16. change 32 with (2 * 16). rewrite Z.div_mul_cancel_r by lia. reflexivity.
Qed.
Lemma mod_col : forall is s, is = 0 \/ is = 1 -> s * (32 / 2 ^ is) mod 32 = if Z.land s is =? 0 then 0 else 16.
Proof.
  intros is s [->| ->].
  - change (32 / 2 ^ 0) with 32. rewrite Z.mod_mul, Z.land_0_r by lia. reflexivity.
  - change (32 / 2 ^ 1) with 16. replace (Z.land s 1) with (s mod 2) by (symmetry; exact (Z.land_ones s 1 ltac:(lia))). change 32 with (2 * 16) at 1. rewrite Z.mul_mod_distr_r by lia. pose proof (Z.mod_pos_bound s 2 ltac:(lia)) as B. assert (C : s mod 2 = 0 \/ s mod 2 = 1) by lia. destruct C as [->| ->]; reflexivity.
Qed.
Lemma col_of_ok : forall is ssh s, is = 0 \/ is = 1 -> 0 <= ssh -> Z.shiftr (if Z.land s is =? 0 then 0 else 16) ssh = col_of is ssh s.
Proof. intros is ssh s Hi Hs. unfold col_of. rewrite mod_col by exact Hi. apply Z.shiftr_div_pow2. exact Hs. Qed.
Lemma col_bound : forall is ssh s, is = 0 \/ is = 1 -> ssh = 0 \/ ssh = 1 -> 0 <= col_of is ssh s < 32.
Proof. intros is ssh s Hi Hs. unfold col_of. rewrite mod_col by exact Hi. destruct Hs as [->| ->]; destruct (Z.land s is =? 0); vm_compute; split; congruence. Qed.
Lemma loc_inj : forall is ssh a b, is = 0 \/ is = 1 -> ssh = 0 \/ ssh = 1 -> sb_of is a = sb_of is b -> col_of is ssh a = col_of is ssh b -> a = b.
Proof.
  intros is ssh a b Hi Hs E1 E2. unfold sb_of, col_of in *. assert (P : 32 / 2 ^ is = 32 \/ 32 / 2 ^ is = 16) by (destruct Hi as [->| ->]; [left|right]; reflexivity).
  pose proof (Z.div_mod (a * (32 / 2 ^ is)) 32 ltac:(lia)) as D1. pose proof (Z.div_mod (b * (32 / 2 ^ is)) 32 ltac:(lia)) as D2.
  assert (E3 : a * (32 / 2 ^ is) mod 32 = b * (32 / 2 ^ is) mod 32).
  { rewrite !mod_col in * by exact Hi. destruct Hs as [->| ->]; destruct (Z.land a is =? 0), (Z.land b is =? 0); try reflexivity; vm_compute in E2; discriminate. }
  rewrite E1, E3 in D1. rewrite <- D2 in D1. apply Z.mul_reg_r in D1; [exact D1|]. destruct P as [P|P]; rewrite P; discriminate.
Qed.

Section Cols.
Variables (fix_ : fixer) (uv : bool) (hb pl : Z).
Hypothesis HF : line_ok fix_ uv hb pl.
Variables (nsb bw is ssh halign lo hi nlpf n pos0 : Z) (col_start lpf : arr) (cs : Z -> Z) (lt prev : Z -> Z -> Z).
Hypothesis His : is = 0 \/ is = 1.
Hypothesis Hssh : ssh = 0 \/ ssh = 1.
Hypothesis Hlo : 0 <= lo <= hi.
Hypothesis Hhi : hi <= 2 * hb.
Hypothesis Hn : n <= 64.
Hypothesis Hcs : forall t, 1 <= t <= n -> col_start t = Some (cs t) /\ 0 <= cs t.
Hypothesis Hinc : forall a b, 1 <= a -> a < b -> b < n -> cs a < cs b.
Hypothesis Hin : forall t, 1 <= t < n -> cs t * (32 / 2 ^ is) < bw.
Hypothesis Hend : bw <= cs n * (32 / 2 ^ is).
Hypothesis Hsb : bw <= 32 * nsb.
Hypothesis Hlpf : forall t, 1 <= t < n -> pos0 + (t - 1) * halign + (hi - lo) <= nlpf.
Hypothesis Hprev : forall t p, 1 <= t < n -> lo <= p < hi -> lpf (pos0 + (t - 1) * halign + (p - lo)) = Some (Z.min (cap_of uv) (prev t p)) /\ 0 <= prev t p.
Notation sbx t := (sb_of is (cs t)). Notation colx t := (col_of is ssh (cs t)).
Definition old (ms : row_masks) (t : Z) : Prop := forall p, lo <= p < hi -> 0 <= lt t p /\ edge uv hb (ms (sbx t)) (colx t) p = Some (MaskSpec.filter_size pl (4 * 2 ^ lt t p) (4 * 2 ^ cap_of uv)).
Lemma shl_ok : forall x, Z.shiftl x (5 - is) = x * (32 / 2 ^ is).
Proof. intros x. destruct His as [->| ->]; [exact (Z.shiftl_mul_pow2 x 5 ltac:(lia))|exact (Z.shiftl_mul_pow2 x 4 ltac:(lia))]. Qed.
Lemma sb_in : forall t, 1 <= t < n -> 0 <= sbx t < nsb.
Proof.
  intros t Ht. destruct (Hcs t ltac:(lia)) as [_ P]. pose proof (Hin t Ht) as Q. unfold sb_of. assert (R : 0 <= cs t * (32 / 2 ^ is)) by (apply Z.mul_nonneg_nonneg; [exact P|destruct His as [->| ->]; vm_compute; discriminate]).
  clear - P Q R Hsb. set (a := cs t * (32 / 2 ^ is)) in *. clearbody a. split; [apply Z.div_pos; lia|apply Z.div_lt_upper_bound; lia].
Qed.
Lemma loop_ok : forall k t ms, 1 <= t <= n -> n - t < Z.of_nat k -> (forall X, 0 <= X < nsb -> mask_ok uv hb (ms X)) -> (forall t', t <= t' < n -> old ms t') ->
  exists ms', tile_cols_loop k fix_ nsb bw is (5 - is) ssh halign lo hi nlpf col_start lpf (pos0 + (t - 1) * halign) t ms = Ok ms' /\ (forall X, 0 <= X < nsb -> mask_ok uv hb (ms' X)) /\
    (forall t' p, t <= t' < n -> lo <= p < hi -> edge uv hb (ms' (sbx t')) (colx t') p = Some (MaskSpec.filter_size pl (4 * 2 ^ lt t' p) (4 * 2 ^ prev t' p))) /\
    (forall X x q, 0 <= q < 2 * hb -> (forall t', t <= t' < n -> ~ (X = sbx t' /\ x = colx t' /\ lo <= q < hi)) -> edge uv hb (ms' X) x q = edge uv hb (ms X) x q).
Proof.
  induction k as [|k IH]; intros t ms Ht Hk Hm Hold; [clear - Ht Hk; lia|]. cbn [tile_cols_loop]. destruct (Hcs t Ht) as [C1 C2]. rewrite (rd1_ok _ _ _ (cs t)) by (try exact C1; unfold MAX_TILE_COLS; clear - Ht Hn; lia). cbn [obind]. rewrite shl_ok.
  destruct (Z.eq_dec t n) as [->|N].
  { destruct (Z.geb_spec (cs n * (32 / 2 ^ is)) bw) as [_|G]; [|clear - G Hend; lia]. exists ms. split; [reflexivity|]. split; [exact Hm|]. split; [intros t' p Q; clear - Q; lia|reflexivity]. }
  assert (Tn : 1 <= t < n) by (clear - Ht N; lia). pose proof (Hin t Tn) as In. destruct (Z.geb_spec (cs t * (32 / 2 ^ is)) bw) as [G|_]; [clear - G In; lia|].
  rewrite sb_of_ok, col_of_ok by (try assumption; destruct Hssh as [->| ->]; lia).
  destruct (HF (colx t) lo hi (nlpf - (pos0 + (t - 1) * halign)) (fun i => lpf (pos0 + (t - 1) * halign + i)) (lt t) (prev t) (ms (sbx t))) as (m' & E & M' & J).
  { apply Hm. apply sb_in. exact Tn. }
  { apply col_bound; assumption. }
  { apply Hlo. } { apply Hlo. } { exact Hhi. } { pose proof (Hlpf t Tn) as Q. clear - Q. lia. }
  { intros p Hp. apply Hprev; assumption. }
  { intros p Hp. apply (Hold t); [clear - Tn; lia|exact Hp]. }
  rewrite (at_sb_ok _ _ _ _ m') by (try exact E; apply sb_in; exact Tn). cbn [obind].
  set (ms1 := fun x' => if x' =? sbx t then m' else ms x').
  assert (Df : forall t', t + 1 <= t' < n -> ~ (sbx t' = sbx t /\ colx t' = colx t)).
  { intros t' Ht' [Q1 Q2]. pose proof (loc_inj is ssh _ _ His Hssh Q1 Q2). assert (R : 1 <= t /\ t < t' /\ t' < n) by (clear - Tn Ht'; lia). destruct R as (R1 & R2 & R3). pose proof (Hinc t t' R1 R2 R3) as Q3. rewrite H in Q3. exact (Z.lt_irrefl _ Q3). }
  assert (K1 : forall X x q, 0 <= q < 2 * hb -> ~ (X = sbx t /\ x = colx t /\ lo <= q < hi) -> edge uv hb (ms1 X) x q = edge uv hb (ms X) x q).
  { intros X x q Hq Nq. unfold ms1. destruct (Z.eqb_spec X (sbx t)) as [->|]; [|reflexivity]. rewrite J by exact Hq. destruct (Z.eqb_spec x (colx t)) as [->|]; cbn [andb]; [|reflexivity].
    destruct (Z.leb_spec lo q), (Z.ltb_spec q hi); cbn [andb]; try reflexivity. exfalso. apply Nq. repeat split; assumption. }
  destruct (IH (t + 1) ms1) as (ms' & E' & Mm & I1 & I2); [clear - Tn; lia|clear - Hk; lia| | |].
  { intros X HX. unfold ms1. destruct (X =? sbx t); [exact M'|apply Hm; exact HX]. }
  { intros t' Ht' p Hp. destruct (Hold t' ltac:(clear - Ht'; lia) p Hp) as [O1 O2]. split; [exact O1|]. rewrite K1; [exact O2|clear - Hp Hlo Hhi; lia|]. intros (Q1 & Q2 & _). apply (Df t' Ht'). split; assumption. }
  exists ms'. replace (pos0 + (t - 1) * halign + halign) with (pos0 + (t + 1 - 1) * halign) by ring. split; [exact E'|]. split; [exact Mm|]. split.
  - intros t' p Ht' Hp. destruct (Z.eq_dec t' t) as [->|Nt]; [|apply I1; [clear - Nt Ht'; lia|exact Hp]].
    rewrite I2; [|clear - Hp Hlo Hhi; lia|intros t' Ht2 (Q1 & Q2 & _); apply (Df t' Ht2); split; congruence]. unfold ms1. rewrite Z.eqb_refl, J by (clear - Hp Hlo Hhi; lia). rewrite Z.eqb_refl. replace ((lo <=? p) && (p <? hi)) with true by (clear - Hp; lia). reflexivity.
  - intros X x q Hq Nq. rewrite I2 by (try exact Hq; intros t' Ht2; apply Nq; clear - Ht2; lia). apply K1; [exact Hq|]. apply Nq. clear - Tn. lia.
Qed.
End Cols.

Lemma align_ok : forall b, Z.land (b + 31) (Z.lnot 31) = (b + 31) / 32 * 32.
Proof. intros b. change (Z.lnot 31) with (Z.lnot (Z.ones 5)). rewrite <- Z.ldiff_land, Z.ldiff_ones_r by lia. rewrite Z.shiftl_mul_pow2, Z.shiftr_div_pow2 by lia. reflexivity. Qed.
Lemma start_ok : forall is sby, is = 0 \/ is = 1 -> Z.shiftl (Z.land sby is) 4 = sby * (32 / 2 ^ is) mod 32.
Proof.
  intros is sby Hi. rewrite mod_col by exact Hi. destruct Hi as [->| ->]; [rewrite Z.land_0_r; reflexivity|].
  replace (Z.land sby 1) with (sby mod 2) by (symmetry; exact (Z.land_ones sby 1 ltac:(lia))). pose proof (Z.mod_pos_bound sby 2 ltac:(lia)). assert (C : sby mod 2 = 0 \/ sby mod 2 = 1) by lia. destruct C as [->| ->]; reflexivity.
Qed.
Lemma pos_ok : forall is ss sby, is = 0 \/ is = 1 -> ss = 0 \/ ss = 1 -> Z.shiftl sby (5 - is - ss) = sby * (32 / 2 ^ is) / 2 ^ ss.
Proof.
  intros is ss sby Hi Hs. rewrite Z.shiftl_mul_pow2 by (destruct Hi as [->| ->], Hs as [->| ->]; lia).
  assert (E : 32 / 2 ^ is = 2 ^ (5 - is - ss) * 2 ^ ss) by (destruct Hi as [->| ->], Hs as [->| ->]; reflexivity). rewrite E, Z.mul_assoc, Z.div_mul; [reflexivity|destruct Hs as [->| ->]; discriminate].
Qed.
Lemma span : forall is ss sby h4, is = 0 \/ is = 1 -> ss = 0 \/ ss = 1 -> sby * (32 / 2 ^ is) < h4 ->
  let y := sby * (32 / 2 ^ is) mod 32 in 0 <= y / 2 ^ ss /\ y / 2 ^ ss <= (y + Z.min (h4 - sby * (32 / 2 ^ is)) (32 / 2 ^ is) + ss) / 2 ^ ss /\ (y + Z.min (h4 - sby * (32 / 2 ^ is)) (32 / 2 ^ is) + ss) / 2 ^ ss <= 2 * half ss.
Proof.
  intros is ss sby h4 Hi Hs H. cbv zeta. pose proof (mod_col is sby Hi) as E. set (y := sby * (32 / 2 ^ is) mod 32) in *. set (d := h4 - sby * (32 / 2 ^ is)). assert (Hd : 0 < d) by (unfold d; lia). clearbody d.
  assert (B : 0 <= y /\ y + 32 / 2 ^ is <= 32) by (rewrite E; destruct Hi as [->| ->]; [rewrite Z.land_0_r; vm_compute; split; discriminate|destruct (Z.land sby 1 =? 0); vm_compute; split; discriminate]).
  assert (P : 0 < 32 / 2 ^ is) by (destruct Hi as [->| ->]; reflexivity). set (z := 32 / 2 ^ is) in *. clearbody y z. clear E H. destruct Hs as [->| ->].
  - change (2 ^ 0) with 1. change (2 * half 0) with 32. rewrite !Z.div_1_r. lia.
  - change (2 ^ 1) with 2. change (2 * half 1) with 16. split; [apply Z.div_pos; lia|]. split; [apply Z.div_le_mono; lia|]. apply Z.lt_succ_r. apply Z.div_lt_upper_bound; lia.
Qed.

(** * Tile columns *)
Section TileCols.
Variables (fix_ : fixer) (uv : bool) (pl nsb bw bh h4 is sby ssh ssv nlpf n : Z) (col_start lpf : arr) (cs : Z -> Z) (lt prev : Z -> Z -> Z).
Hypothesis HF : line_ok fix_ uv (half ssv) pl.
Notation sz := (32 / 2 ^ is). Notation y0 := (sby * sz). Notation lo := (y0 mod 32 / 2 ^ ssv). Notation hi := ((y0 mod 32 + Z.min (h4 - y0) sz + ssv) / 2 ^ ssv).
Notation pos t := (y0 / 2 ^ ssv + (t - 1) * ((bh + 31) / 32 * 32 / 2 ^ ssv)).
Hypothesis His : is = 0 \/ is = 1.
Hypothesis Hssh : ssh = 0 \/ ssh = 1.
Hypothesis Hssv : ssv = 0 \/ ssv = 1.
Hypothesis Hy : y0 < h4.
Hypothesis Hn : 1 <= n <= 64.
Hypothesis Hcs : forall t, 1 <= t <= n -> col_start t = Some (cs t) /\ 0 <= cs t.
Hypothesis Hinc : forall a b, 1 <= a -> a < b -> b < n -> cs a < cs b.
Hypothesis Hin : forall t, 1 <= t < n -> cs t * sz < bw.
Hypothesis Hend : bw <= cs n * sz.
Hypothesis Hsb : bw <= 32 * nsb.
Hypothesis Hlpf : forall t, 1 <= t < n -> pos t + (hi - lo) <= nlpf.
Hypothesis Hprev : forall t p, 1 <= t < n -> lo <= p < hi -> lpf (pos t + (p - lo)) = Some (Z.min (cap_of uv) (prev t p)) /\ 0 <= prev t p.
Lemma tile_cols_ok : forall ms, (forall X, 0 <= X < nsb -> mask_ok uv (half ssv) (ms X)) ->
  (forall t p, 1 <= t < n -> lo <= p < hi -> 0 <= lt t p /\ edge uv (half ssv) (ms (sb_of is (cs t))) (col_of is ssh (cs t)) p = Some (MaskSpec.filter_size pl (4 * 2 ^ lt t p) (4 * 2 ^ cap_of uv))) ->
  exists ms', tile_cols fix_ nsb bw bh h4 is sby ssh ssv nlpf col_start lpf ms = Ok ms' /\ (forall X, 0 <= X < nsb -> mask_ok uv (half ssv) (ms' X)) /\
    (forall t p, 1 <= t < n -> lo <= p < hi -> edge uv (half ssv) (ms' (sb_of is (cs t))) (col_of is ssh (cs t)) p = Some (MaskSpec.filter_size pl (4 * 2 ^ lt t p) (4 * 2 ^ prev t p))) /\
    (forall X x q, 0 <= q < 2 * half ssv -> (forall t, 1 <= t < n -> ~ (X = sb_of is (cs t) /\ x = col_of is ssh (cs t) /\ lo <= q < hi)) -> edge uv (half ssv) (ms' X) x q = edge uv (half ssv) (ms X) x q).
Proof.
  intros ms Hm Hold. destruct (span is ssv sby h4 His Hssv Hy) as (S1 & S2 & S3). unfold tile_cols. rewrite start_ok, align_ok, pos_ok by assumption.
  assert (Sv : 0 <= ssv) by (destruct Hssv as [->| ->]; lia). rewrite !(Z.shiftr_div_pow2 _ ssv) by exact Sv. replace (Z.shiftr 32 is) with sz by (symmetry; apply Z.shiftr_div_pow2; destruct His as [->| ->]; lia).
  replace (y0 / 2 ^ ssv) with (pos 1) by ring. apply loop_ok with (uv := uv) (hb := half ssv) (pl := pl) (n := n) (cs := cs) (lt := lt) (prev := prev); try assumption; [split; assumption|apply Hn|clear - Hn; lia|clear - Hn; lia|intros t Ht p Hp; apply Hold; assumption].
Qed.
End TileCols.

(** * Tile rows *)
Section TileRows.
Variables (fix_ : fixer) (uv : bool) (pl nsb w4 is sby ssh ssv nctx : Z) (ctx : Z -> arr) (lt prev : Z -> Z).
Hypothesis HF : line_ok fix_ uv (half ssh) pl.
Notation N := (2 * half ssh). Notation W := ((w4 + ssh) / 2 ^ ssh). Notation y := (sby * (32 / 2 ^ is) mod 32 / 2 ^ ssv).
Hypothesis His : is = 0 \/ is = 1.
Hypothesis Hssh : ssh = 0 \/ ssh = 1.
Hypothesis Hssv : ssv = 0 \/ ssv = 1.
Hypothesis Hw : 0 < w4 < 2 ^ 31.
Hypothesis Hsb : 0 <= nsb /\ 32 * (nsb - 1) < w4 <= 32 * nsb.
Hypothesis Hctx : N <= nctx.
Hypothesis Hprev : forall c, 0 <= c < W -> ctx (c / N) (c mod N) = Some (Z.min (cap_of uv) (prev c)) /\ 0 <= prev c.
Lemma width_ok : forall x, 0 <= x < nsb -> Z.shiftr (u32 (Z.min 32 (w4 - Z.shiftl x 5)) + ssh) ssh = Z.min N (W - N * x) /\ 0 < Z.min N (W - N * x).
Proof.
  clear - Hssh Hw Hsb. intros x Hx. rewrite Z.shiftl_mul_pow2 by lia. change (2 ^ 5) with 32. change (2 ^ 31) with 2147483648 in Hw. rewrite u32_id by (change (2 ^ 32) with 4294967296; lia).
  destruct Hssh as [->| ->].
  - change (2 * half 0) with 32. change (2 ^ 0) with 1. rewrite Z.shiftr_0_r, Z.div_1_r. lia.
  - change (2 * half 1) with 16. change (2 ^ 1) with 2. rewrite Z.shiftr_div_pow2 by lia. change (2 ^ 1) with 2.
    pose proof (Z.div_mod (w4 + 1) 2 ltac:(lia)). pose proof (Z.mod_pos_bound (w4 + 1) 2 ltac:(lia)). set (v := (w4 + 1) / 2) in *. split; [|lia].
    symmetry. destruct (Z.min_spec 32 (w4 - x * 32)) as [[L ->]|[L ->]].
    + change ((32 + 1) / 2) with 16. lia.
    + replace (w4 - x * 32 + 1) with (w4 + 1 + (- (16 * x)) * 2) by lia. rewrite Z.div_add by lia. fold v. lia.
Qed.
Lemma tile_rows_ok : forall ms, (forall X, 0 <= X < nsb -> mask_ok uv (half ssh) (ms X)) ->
  (forall c, 0 <= c < W -> 0 <= lt c /\ edge uv (half ssh) (ms (c / N)) y (c mod N) = Some (MaskSpec.filter_size pl (4 * 2 ^ lt c) (4 * 2 ^ cap_of uv))) ->
  exists ms', tile_rows fix_ nsb w4 is sby ssh ssv nctx ctx ms = Ok ms' /\ (forall X, 0 <= X < nsb -> mask_ok uv (half ssh) (ms' X)) /\
    (forall x' c, 0 <= c < N * nsb -> edge uv (half ssh) (ms' (c / N)) x' (c mod N) =
      if (x' =? y) && (c <? W) then Some (MaskSpec.filter_size pl (4 * 2 ^ lt c) (4 * 2 ^ prev c)) else edge uv (half ssh) (ms (c / N)) x' (c mod N)).
Proof.
  intros ms Hm Hold. unfold tile_rows. rewrite start_ok by exact His. rewrite (Z.shiftr_div_pow2 _ ssv) by (destruct Hssv as [->| ->]; lia).
  assert (Hy : 0 <= y < 32).
  { pose proof (Z.mod_pos_bound (sby * (32 / 2 ^ is)) 32 ltac:(lia)). destruct Hssv as [->| ->]; [change (2 ^ 0) with 1; rewrite Z.div_1_r; lia|]. change (2 ^ 1) with 2. split; [apply Z.div_pos; lia|apply Z.div_lt_upper_bound; lia]. }
  set (yy := y) in *. clearbody yy. pose proof width_ok as WO. assert (PN : 0 < N) by (destruct Hssh as [->| ->]; reflexivity). set (nn := N) in *. set (ww := W) in *.
  assert (Loc : forall X p, 0 <= p < nn -> (nn * X + p) / nn = X /\ (nn * X + p) mod nn = p).
  { intros X p Hp. split; [symmetry; apply (Z.div_unique _ nn _ p); lia|symmetry; apply (Z.mod_unique _ nn X p); lia]. }
  assert (Hnn : nn = 2 * half ssh) by reflexivity. clearbody nn ww.
  edestruct (for_inv _ (fun k (ms' : row_masks) => (forall X, 0 <= X < nsb -> mask_ok uv (half ssh) (ms' X)) /\ (forall X, k <= X -> ms' X = ms X) /\
    forall x' X p, 0 <= X < k -> 0 <= p < nn -> edge uv (half ssh) (ms' X) x' p = if (x' =? yy) && (nn * X + p <? ww) then Some (MaskSpec.filter_size pl (4 * 2 ^ lt (nn * X + p)) (4 * 2 ^ prev (nn * X + p))) else edge uv (half ssh) (ms X) x' p)) as (ms' & E & I1 & _ & I2); [exact (proj1 Hsb)| | |exists ms'; split; [exact E|split; [exact I1|]]].
  - split; [exact Hm|]. split; [reflexivity|]. intros x' X p Q. clear - Q. lia.
  - intros k ms1 Hk (M1 & U1 & J1). cbv zeta. destruct (WO k Hk) as [-> Pw].
    assert (Rng : forall p, 0 <= p < Z.min nn (ww - nn * k) -> 0 <= nn * k + p < ww /\ 0 <= p < nn) by (intros p Hp; assert (0 <= nn * k) by (apply Z.mul_nonneg_nonneg; [apply Z.lt_le_incl; exact PN|apply Hk]); clear - Hp H; lia).
    destruct (HF yy 0 (Z.min nn (ww - nn * k)) nctx (ctx k) (fun p => lt (nn * k + p)) (fun p => prev (nn * k + p)) (ms1 k)) as (m' & E' & M' & J').
    { apply M1. exact Hk. } { exact Hy. } { clear; lia. } { clear - Pw; lia. } { rewrite <- Hnn. apply Z.le_min_l. } { clear - Hctx. lia. }
    { intros p Hp. destruct (Rng p Hp) as [R1 R2]. destruct (Loc k p R2) as [L1 L2]. pose proof (Hprev (nn * k + p) R1) as Q. rewrite L1, L2 in Q. rewrite Z.sub_0_r. exact Q. }
    { intros p Hp. destruct (Rng p Hp) as [R1 R2]. destruct (Loc k p R2) as [L1 L2]. pose proof (Hold (nn * k + p) R1) as Q. rewrite L1, L2 in Q. rewrite U1 by (clear; lia). exact Q. }
    rewrite (at_sb_ok _ _ _ _ m' Hk E'). eexists. split; [reflexivity|]. cbv beta. split; [|split].
    + intros X HX. destruct (X =? k); [exact M'|apply M1; exact HX].
    + intros X HX. destruct (Z.eqb_spec X k) as [Q|Q]; [clear - Q HX; lia|apply U1; clear - HX; lia].
    + intros x' X p HX Hp. destruct (Z.eqb_spec X k) as [->|Q]; [|apply J1; [clear - Q HX; lia|exact Hp]]. rewrite J' by (rewrite <- Hnn; exact Hp). rewrite U1 by (clear; lia). destruct (x' =? yy); cbn [andb]; [|reflexivity].
      replace ((0 <=? p) && (p <? Z.min nn (ww - nn * k))) with (nn * k + p <? ww); [reflexivity|]. clear - Hp. set (z := nn * k) in *. clearbody z.
      destruct (Z.leb_spec 0 p), (Z.ltb_spec p (Z.min nn (ww - z))), (Z.ltb_spec (z + p) ww); cbn [andb]; try reflexivity; exfalso; lia.
  - intros x' c Hc. assert (Pn : nn <> 0) by (clear - PN; lia). pose proof (Z.div_mod c nn Pn) as D. pose proof (Z.mod_pos_bound c nn PN) as B. rewrite I2; [rewrite <- D; reflexivity| |exact B]. split; [apply Z.div_pos; [apply Hc|exact PN]|apply Z.div_lt_upper_bound; [exact PN|apply Hc]].
Qed.
End TileRows.

From Coq Require Import ZArith List Bool Lia.
From Verif Require Import Base.CInt Base.Lemmas Tile.Bufs Tile.BufsProofs.
Import ListNotations.
Open Scope Z_scope.
Open Scope outcome_scope.

Section FRAME.
Variables (f : frame) (sbw : Z).
Hypothesis OK : frame_ok f sbw.
Definition in_tiles (r c : Z) : Prop := 0 <= r < fr_rows f /\ 0 <= c < fr_cols f.
Definition sbs : Z := fr_sb_step f * 4.
Definition rs := at_ (fr_row_start f).
Definition cs := at_ (fr_col_start f).
(** the number of luma pixels of the superblocks of a tile *)
Definition area (r c : Z) : Z := ((rs (r + 1) - rs r) * sbs) * ((cs (c + 1) - cs c) * sbs).
Definition exact_off (r c : Z) : Z := rs r * sbs * (fr_sb128w f * 128) + (rs (r + 1) - rs r) * sbs * (cs c * sbs).

Lemma sbs_val : sbs = 64 \/ sbs = 128.
Proof. unfold sbs. rewrite (ok_step _ _ OK). pose proof (ok_sb128 _ _ OK). assert (fr_sb128 f = 0 \/ fr_sb128 f = 1) as [->| ->] by lia; cbn; lia. Qed.
Lemma u32_id : forall x, 0 <= x < 2 ^ 32 -> u32 x = x.
Proof. intros. apply Z.mod_small. assumption. Qed.

Lemma facts : forall r c, in_tiles r c ->
  0 <= rs r < rs (r + 1) /\ rs (r + 1) <= fr_sbh f /\ 0 <= cs c < cs (c + 1) /\ cs (c + 1) <= sbw.
Proof.
  intros r c (R & C). pose proof (cuts_range _ _ _ r (ok_row_start _ _ OK) ltac:(lia)). pose proof (cuts_range _ _ _ (r + 1) (ok_row_start _ _ OK) ltac:(lia)).
  pose proof (cuts_range _ _ _ c (ok_col_start _ _ OK) ltac:(lia)). pose proof (cuts_range _ _ _ (c + 1) (ok_col_start _ _ OK) ltac:(lia)).
  destruct (ok_row_start _ _ OK) as (_ & _ & _ & A). destruct (ok_col_start _ _ OK) as (_ & _ & _ & B).
  specialize (A r R). specialize (B c C). unfold rs, cs. lia.
Qed.

Lemma off_bounds : forall r c, in_tiles r c -> 0 <= exact_off r c /\ exact_off r c + area r c <= rs (r + 1) * sbs * (fr_sb128w f * 128) /\ 0 < area r c.
Proof.
  intros r c T. destruct (facts r c T) as (A & B & C & D). pose proof (ok_w _ _ OK) as W. fold sbs in W. pose proof (ok_sb128w _ _ OK) as W1.
  unfold exact_off, area. destruct sbs_val as [E|E]; rewrite E in *.
  - set (w := fr_sb128w f * 128) in *. assert (cs (c + 1) * 64 <= w) by nia. split; [|split]; nia.
  - set (w := fr_sb128w f * 128) in *. assert (cs (c + 1) * 128 <= w) by nia. split; [|split]; nia.
Qed.
Lemma off_total : forall r c, in_tiles r c -> exact_off r c + area r c <= num_sb128 f * 128 * 128.
Proof.
  intros r c T. destruct (off_bounds r c T) as (_ & A & _). destruct (facts r c T) as (_ & B & _). pose proof (ok_h _ _ OK) as H. fold sbs in H.
  pose proof (ok_sb128w _ _ OK) as W1. unfold num_sb128.
  assert (rs (r + 1) * sbs <= fr_sb128h f * 128) by (destruct sbs_val as [E|E]; rewrite E in *; nia). nia.
Qed.

Lemma tile_start_off_ok : forall r c, in_tiles r c -> tile_start_off f r c = Ok (exact_off r c).
Proof.
  intros r c T. pose proof (facts r c T) as (A & B & C & D). pose proof (off_bounds r c T) as (O1 & O2 & O3). pose proof (off_total r c T) as O4.
  unfold tile_start_off. pose proof T as (R & CC).
  rewrite (cuts_rd _ _ _ r (ok_row_start _ _ OK)) by lia. rewrite (cuts_rd _ _ _ (r + 1) (ok_row_start _ _ OK)) by lia.
  rewrite (cuts_rd _ _ _ c (ok_col_start _ _ OK)) by lia. cbn [obind]. fold sbs. fold (rs r) (rs (r + 1)) (cs c).
  pose proof (ok_w _ _ OK) as W. pose proof (ok_h _ _ OK) as H. fold sbs in W, H. pose proof (ok_sb128w _ _ OK) as W1. pose proof (ok_sb128h _ _ OK) as H1.
  assert (P32 : 2 ^ 32 = 4294967296) by reflexivity.
  assert (N : num_sb128 f * 128 * 128 <= 4294967296) by (unfold num_sb128; nia).
  assert (X1 : 0 <= rs r * sbs <= 65536) by (destruct sbs_val as [E|E]; rewrite E in *; nia).
  assert (X2 : 0 <= (rs (r + 1) - rs r) * sbs <= 65536) by (destruct sbs_val as [E|E]; rewrite E in *; nia).
  assert (X3 : 0 <= cs c <= 1024) by (pose proof (ok_sbw _ _ OK); lia).
  unfold exact_off in *.
  assert (Y1 : 0 <= rs r * sbs * (fr_sb128w f * 128)) by nia.
  assert (Y2 : 0 <= (rs (r + 1) - rs r) * sbs * (cs c * sbs)) by (destruct sbs_val as [E|E]; rewrite E in *; nia).
  rewrite (u32_id sbs) by (destruct sbs_val; lia).
  rewrite (u32_id (rs r * sbs)) by lia. rewrite (u32_id (rs r * sbs * fr_sb128w f)) by nia.
  rewrite (u32_id ((rs (r + 1) - rs r) * sbs)) by lia. rewrite (u32_id ((rs (r + 1) - rs r) * sbs * cs c)) by nia.
  replace (rs r * sbs * fr_sb128w f * 128) with (rs r * sbs * (fr_sb128w f * 128)) by ring.
  replace ((rs (r + 1) - rs r) * sbs * cs c * sbs) with ((rs (r + 1) - rs r) * sbs * (cs c * sbs)) by ring.
  rewrite (u32_id (rs r * sbs * (fr_sb128w f * 128))) by lia. rewrite (u32_id ((rs (r + 1) - rs r) * sbs * (cs c * sbs))) by lia.
  rewrite u32_id by lia. reflexivity.
Qed.

Lemma off_order : forall r c r' c', in_tiles r c -> in_tiles r' c' -> r < r' \/ (r = r' /\ c < c') -> exact_off r c + area r c <= exact_off r' c'.
Proof.
  intros r c r' c' T T' L. destruct (facts r c T) as (A & B & C & D). destruct (facts r' c' T') as (A' & B' & C' & D').
  pose proof (ok_sb128w _ _ OK) as W1. assert (S1 : 0 < sbs) by (destruct sbs_val; lia).
  destruct L as [L|[-> L]].
  - destruct (off_bounds r c T) as (_ & O & _). pose proof (cuts_mono _ _ _ (r + 1) r' (ok_row_start _ _ OK) ltac:(unfold in_tiles in *; lia) ltac:(lia) ltac:(unfold in_tiles in *; lia)) as M.
    fold (rs (r + 1)) (rs r') in M. unfold exact_off at 2.
    assert (0 <= (rs (r' + 1) - rs r') * sbs * (cs c' * sbs)).
    { apply Z.mul_nonneg_nonneg; apply Z.mul_nonneg_nonneg; lia. }
    assert (rs (r + 1) * sbs * (fr_sb128w f * 128) <= rs r' * sbs * (fr_sb128w f * 128)).
    { apply Z.mul_le_mono_nonneg_r; [lia|]. apply Z.mul_le_mono_nonneg_r; lia. }
    lia.
  - pose proof (cuts_mono _ _ _ (c + 1) c' (ok_col_start _ _ OK) ltac:(unfold in_tiles in *; lia) ltac:(lia) ltac:(unfold in_tiles in *; lia)) as M.
    fold (cs (c + 1)) (cs c') in M. unfold exact_off, area.
    set (h := (rs (r' + 1) - rs r') * sbs). assert (0 <= h) by (unfold h; apply Z.mul_nonneg_nonneg; lia).
    assert (cs c * sbs + (cs (c + 1) - cs c) * sbs <= cs c' * sbs).
    { replace (cs c * sbs + (cs (c + 1) - cs c) * sbs) with (cs (c + 1) * sbs) by ring. apply Z.mul_le_mono_nonneg_r; lia. }
    nia.
Qed.

(** offsets and areas are multiples of the size of a superblock *)
Lemma off_mult : forall r c, exists k, exact_off r c = 4096 * k.
Proof.
  intros r c. unfold exact_off. destruct sbs_val as [-> | ->].
  - exists (rs r * fr_sb128w f * 2 + (rs (r + 1) - rs r) * cs c). ring.
  - exists (rs r * fr_sb128w f * 4 + (rs (r + 1) - rs r) * cs c * 4). ring.
Qed.
Lemma area_mult : forall r c, exists k, area r c = 4096 * k.
Proof.
  intros r c. unfold area. destruct sbs_val as [-> | ->].
  - exists ((rs (r + 1) - rs r) * (cs (c + 1) - cs c)). ring.
  - exists ((rs (r + 1) - rs r) * (cs (c + 1) - cs c) * 4). ring.
Qed.

(** the share of a buffer that belongs to [n] pixels at offset [x] *)
Definition cbi_share (n : Z) : Z := n * size_mul0 (fr_layout f) / 64.
Definition cf_share (n : Z) : Z := n * size_mul0 (fr_layout f) * 2 ^ fr_hbd f / 2.
Definition pal_idx_share (n : Z) : Z := n * size_mul1 (fr_layout f) / 8.

Lemma share_cbi : forall r c, in_tiles r c -> cbi_off f (exact_off r c) = cbi_share (exact_off r c).
Proof.
  intros r c T. unfold cbi_off, cbi_share. f_equal. apply Z.mod_small. destruct (off_bounds r c T) as (A & B & C). pose proof (off_total r c T) as D.
  pose proof (num_pos f sbw (fun _ => true) OK) as N. pose proof (mul0_pos f 0 (fun _ => true)) as M. change (2 ^ 18) with 262144 in N. change (2 ^ 64) with 18446744073709551616. assert (exact_off r c <= 4294967296) by lia. nia.
Qed.
Lemma share_cf : forall r c, in_tiles r c -> cf_off f (exact_off r c) = cf_share (exact_off r c).
Proof.
  intros r c T. unfold cf_off, cf_share. pose proof (ok_hbd _ _ OK) as HB. destruct (off_bounds r c T) as (A & B & C). pose proof (off_total r c T) as D.
  pose proof (num_pos f sbw (fun _ => true) OK) as N. pose proof (mul0_pos f 0 (fun _ => true)) as M. change (2 ^ 18) with 262144 in N.
  assert (E : u64 (exact_off r c * size_mul0 (fr_layout f)) = exact_off r c * size_mul0 (fr_layout f)).
  { apply Z.mod_small. change (2 ^ 64) with 18446744073709551616. assert (exact_off r c <= 4294967296) by lia. nia. }
  rewrite E, Z.shiftr_div_pow2 by lia. assert (fr_hbd f = 0 \/ fr_hbd f = 1) as [->| ->] by lia.
  - change (2 ^ (1 - 0)) with 2. rewrite Z.mul_1_r. reflexivity.
  - change (2 ^ (1 - 1)) with 1. change (2 ^ 1) with 2. rewrite Z.div_1_r, Z.div_mul by lia. reflexivity.
Qed.
Lemma share_pal : forall r c, in_tiles r c -> pal_idx_off f (exact_off r c) = pal_idx_share (exact_off r c).
Proof.
  intros r c T. unfold pal_idx_off, pal_idx_share. f_equal. apply Z.mod_small. destruct (off_bounds r c T) as (A & B & C). pose proof (off_total r c T) as D.
  pose proof (num_pos f sbw (fun _ => true) OK) as N. pose proof (mul1_pos f 0 (fun _ => true)) as M. change (2 ^ 18) with 262144 in N. change (2 ^ 64) with 18446744073709551616. assert (exact_off r c <= 4294967296) by lia. nia.
Qed.

(** shares of consecutive ranges are consecutive *)
Lemma cbi_lin : forall k, cbi_share (4096 * k) = 64 * k * size_mul0 (fr_layout f).
Proof. intros. unfold cbi_share. replace (4096 * k * size_mul0 (fr_layout f)) with (64 * k * size_mul0 (fr_layout f) * 64) by ring. apply Z.div_mul. lia. Qed.
Lemma cf_lin : forall k, cf_share (4096 * k) = 2048 * k * size_mul0 (fr_layout f) * 2 ^ fr_hbd f.
Proof. intros. unfold cf_share. replace (4096 * k * size_mul0 (fr_layout f) * 2 ^ fr_hbd f) with (2048 * k * size_mul0 (fr_layout f) * 2 ^ fr_hbd f * 2) by ring. apply Z.div_mul. lia. Qed.
Lemma pal_lin : forall k, pal_idx_share (4096 * k) = 512 * k * size_mul1 (fr_layout f).
Proof. intros. unfold pal_idx_share. replace (4096 * k * size_mul1 (fr_layout f)) with (512 * k * size_mul1 (fr_layout f) * 8) by ring. apply Z.div_mul. lia. Qed.

(** ** lowest_pixel *)
Lemma low_cols_ok : forall n h p, low_cols n h p = (map (fun k => p + Z.of_nat k * h) (seq 0 n), p + Z.of_nat n * h).
Proof.
  induction n as [|n IH]; intros h p; cbn [low_cols]; [cbn; f_equal; lia|]. rewrite IH. cbn [seq map].
  f_equal; [|lia]. f_equal; [lia|]. rewrite <- seq_shift, map_map. apply map_ext. intros k. lia.
Qed.
Definition low_at (r c : Z) : Z := rs r * fr_cols f + c * (rs (r + 1) - rs r).
Lemma low_rows_ok : forall n r, 0 <= r -> r + Z.of_nat n = fr_rows f ->
  exists l, low_rows f n r (rs r * fr_cols f) = Ok l /\ zlen l = Z.of_nat n * fr_cols f /\
    forall r' c, r <= r' < fr_rows f -> 0 <= c < fr_cols f -> at_ l ((r' - r) * fr_cols f + c) = low_at r' c.
Proof.
  pose proof (ok_cols _ _ OK) as C.
  induction n as [|n IH]; intros r R E; cbn [low_rows].
  - exists []. split; [reflexivity|]. split; [reflexivity|]. intros; lia.
  - rewrite (cuts_rd _ _ _ r (ok_row_start _ _ OK)) by lia. rewrite (cuts_rd _ _ _ (r + 1) (ok_row_start _ _ OK)) by lia. cbn [obind].
    rewrite low_cols_ok. fold (rs r) (rs (r + 1)).
    replace (rs r * fr_cols f + Z.of_nat (Z.to_nat (fr_cols f)) * (rs (r + 1) - rs r)) with (rs (r + 1) * fr_cols f) by (rewrite Z2Nat.id by lia; ring).
    destruct (IH (r + 1) ltac:(lia) ltac:(lia)) as (l & -> & L & A). cbn [obind].
    eexists. split; [reflexivity|]. set (row := map _ _).
    assert (LR : length row = Z.to_nat (fr_cols f)) by (unfold row; rewrite map_length, seq_length; reflexivity).
    split; [unfold zlen in *; rewrite app_length; nia|]. intros r' c R' C'. destruct (Z.eq_dec r' r) as [->|N].
    + rewrite Z.sub_diag, Z.mul_0_l, Z.add_0_l. unfold at_. rewrite app_nth1 by lia. unfold row.
      rewrite (nth_indep _ 0 (rs r * fr_cols f + Z.of_nat 0 * (rs (r + 1) - rs r))) by (rewrite map_length, seq_length; lia).
      rewrite (map_nth (fun k => rs r * fr_cols f + Z.of_nat k * (rs (r + 1) - rs r))). rewrite seq_nth by lia. unfold low_at. rewrite Nat.add_0_l, Z2Nat.id by lia. reflexivity.
    + rewrite <- (A r' c) by lia. unfold at_. rewrite app_nth2 by nia. f_equal. rewrite LR. nia.
Qed.
Lemma low_order : forall r c r' c', in_tiles r c -> in_tiles r' c' -> r < r' \/ (r = r' /\ c < c') -> low_at r c + (rs (r + 1) - rs r) <= low_at r' c'.
Proof.
  intros r c r' c' T T' L. destruct (facts r c T) as (A & B & _). destruct (facts r' c' T') as (A' & B' & _). unfold in_tiles in *.
  unfold low_at. destruct L as [L|[-> L]].
  - pose proof (cuts_mono _ _ _ (r + 1) r' (ok_row_start _ _ OK) ltac:(lia) ltac:(lia) ltac:(lia)) as M. fold (rs (r + 1)) (rs r') in M. nia.
  - nia.
Qed.
Lemma low_total : forall r c, in_tiles r c -> 0 <= low_at r c /\ low_at r c + (rs (r + 1) - rs r) <= fr_cols f * fr_sbh f.
Proof. intros r c T. destruct (facts r c T) as (A & B & _). unfold in_tiles in *. unfold low_at. nia. Qed.

(** ** lr_ref *)
Lemma lr_ref_ok : forall ss_hor d us r c, 0 <= ss_hor <= 1 -> 0 <= d -> 0 <= us -> in_tiles r c ->
  exists o, lr_ref f ss_hor d us r c = Ok o /\
    forall i u, o = Some (i, u) -> 0 <= i < (fr_sr_w f + 127) / 128 * fr_sb128h f /\ 0 <= u < 4.
Proof.
  intros ss d us r c SS D US T. destruct (facts r c T) as (A & B & C & E). pose proof T as (R & CC). unfold lr_ref.
  rewrite (cuts_rd _ _ _ r (ok_row_start _ _ OK)) by lia. rewrite (cuts_rd _ _ _ c (ok_col_start _ _ OK)) by lia. cbn [obind]. fold (rs r) (cs c).
  pose proof (ok_sb128 _ _ OK) as S1. pose proof (ok_w _ _ OK) as W. pose proof (ok_h _ _ OK) as H. rewrite (ok_step _ _ OK) in W, H.
  pose proof (ok_sb128w _ _ OK) as W1. pose proof (ok_sb128h _ _ OK) as H1. pose proof (ok_sr_w _ _ OK) as SW.
  set (row := Z.shiftl (rs r) (4 + fr_sb128 f)). set (col := Z.shiftl (cs c) (4 + fr_sb128 f)).
  assert (RB : 0 <= Z.shiftr row 5 < fr_sb128h f).
  { unfold row. rewrite Z.shiftl_mul_pow2, Z.shiftr_div_pow2 by lia. rewrite Z.pow_add_r by lia. change (2 ^ 4) with 16. change (2 ^ 5) with 32.
    assert (0 <= 2 ^ fr_sb128 f) by (apply Z.pow_nonneg; lia).
    split; [apply Z.div_pos; nia|]. apply Z.div_lt_upper_bound; [lia|]. assert (fr_sb128 f = 0 \/ fr_sb128 f = 1) as [Q|Q] by lia; rewrite Q in *; cbn [Z.pow Z.pow_pos Pos.iter] in *; lia. }
  assert (L16 : forall x, Z.land x 16 = 0 \/ Z.land x 16 = 16).
  { intros x. change 16 with (2 ^ 4). rewrite <- (Z.shiftl_1_l 4). destruct (Z.testbit x 4) eqn:TB; [right|left]; apply Z.bits_inj'; intros k K; rewrite Z.land_spec, ?Z.bits_0, Z.shiftl_1_l, Z.pow2_bits_eqb by lia;
      destruct (Z.eqb_spec 4 k) as [<-|NE]; rewrite ?TB, ?andb_false_r, ?andb_true_r; reflexivity. }
  assert (L64 : forall x, Z.land x 64 = 0 \/ Z.land x 64 = 64).
  { intros x. change 64 with (2 ^ 6). destruct (Z.testbit x 6) eqn:TB; [right|left]; apply Z.bits_inj'; intros k K; rewrite Z.land_spec, ?Z.bits_0, Z.pow2_bits_eqb by lia;
      destruct (Z.eqb_spec 6 k) as [<-|NE]; rewrite ?TB, ?andb_false_r, ?andb_true_r; reflexivity. }
  assert (U1 : Z.shiftr (Z.land row 16) 3 = 0 \/ Z.shiftr (Z.land row 16) 3 = 2) by (destruct (L16 row) as [->| ->]; [left|right]; reflexivity).
  destruct (fr_resize f) eqn:RZ.
  - rewrite (Z.shiftr_div_pow2 (fr_sr_w f + 127)) by lia. change (2 ^ 7) with 128.
    set (px := Z.shiftl _ _). destruct (Z.leb_spec ((fr_sr_w f + 127) / 128) (Z.shiftr px 7)) as [LE|LT]; eexists; (split; [reflexivity|]); intros i u EQ; [discriminate|].
    injection EQ as <- <-.
    assert (PX : 0 <= Z.shiftr px 7).
    { unfold px. apply Z.shiftr_nonneg, Z.shiftl_nonneg, Z.shiftr_nonneg. assert (0 <= col) by (unfold col; apply Z.shiftl_nonneg; lia).
      assert (0 <= Z.shiftr (4 * col * d) ss) by (apply Z.shiftr_nonneg; apply Z.mul_nonneg_nonneg; lia).
      assert (8 <= Z.shiftl 8 us) by (rewrite Z.shiftl_mul_pow2 by lia; pose proof (pow2_pos us US); lia). lia. }
    assert (U2 : Z.shiftr (Z.land px 64) 6 = 0 \/ Z.shiftr (Z.land px 64) 6 = 1) by (destruct (L64 px) as [->| ->]; [left|right]; reflexivity).
    split; [nia|]. clear - U1 U2. lia.
  - eexists. split; [reflexivity|]. intros i u EQ. injection EQ as <- <-. rewrite (ok_same_w _ _ OK RZ).
    assert (CB : 0 <= Z.shiftr (cs c) (1 - fr_sb128 f) < fr_sb128w f).
    { rewrite Z.shiftr_div_pow2 by lia. assert (fr_sb128 f = 0 \/ fr_sb128 f = 1) as [Q|Q] by lia; rewrite Q in *; cbn [Z.pow Z.pow_pos Pos.iter Z.sub Z.add Z.opp Z.pos_sub Pos.pred_double] in *.
      - split; [apply Z.div_pos; lia|apply Z.div_lt_upper_bound; lia].
      - rewrite Z.div_1_r. lia. }
    assert (U2 : Z.shiftr (Z.land col 16) 4 = 0 \/ Z.shiftr (Z.land col 16) 4 = 1) by (destruct (L16 col) as [->| ->]; [left|right]; reflexivity).
    split; [nia|]. clear - U1 U2. lia.
Qed.
End FRAME.

(** ** lines *)
Definition slot (base s n L : Z) : Z := if s <? 0 then base + (n - 1 - L) * Z.abs s else base + L * Z.abs s.
Lemma slot_inside : forall base s n L, 0 <= L < n -> base <= slot base s n L /\ slot base s n L + Z.abs s <= base + n * Z.abs s.
Proof. intros base s n L H. unfold slot. destruct (Z.ltb_spec s 0); nia. Qed.
Lemma slot_disjoint : forall base s n L L', 0 <= L < n -> 0 <= L' < n -> L <> L' ->
  slot base s n L + Z.abs s <= slot base s n L' \/ slot base s n L' + Z.abs s <= slot base s n L.
Proof. intros base s n L L' H H' N. unfold slot. destruct (Z.ltb_spec s 0); assert (L < L' \/ L' < L) as [?|?] by lia; nia. Qed.
(** line [L] of a buffer whose line 0 is at [p] *)
Lemma slot_line : forall base s n L, slot base s n L = slot base s n 0 + L * s.
Proof. intros base s n L. unfold slot. destruct (Z.ltb_spec s 0); nia. Qed.

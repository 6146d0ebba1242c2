From Coq Require Import ZArith List Bool Lia.
From Verif Require Import Base.CInt Base.Lemmas Tile.Bufs.
Import ListNotations.
Open Scope Z_scope.
Open Scope outcome_scope.

(** ** frames *)
Definition at_ (l : list Z) (i : Z) : Z := nth (Z.to_nat i) l 0.
Definition cuts (l : list Z) (n total : Z) : Prop :=
  zlen l = n + 1 /\ at_ l 0 = 0 /\ at_ l n = total /\ forall i, 0 <= i < n -> at_ l i < at_ l (i + 1).
Record frame_ok (f : frame) (sbw : Z) : Prop := mkOk {
  ok_rows : 1 <= fr_rows f <= 64; ok_cols : 1 <= fr_cols f <= 64;
  ok_row_start : cuts (fr_row_start f) (fr_rows f) (fr_sbh f);
  ok_col_start : cuts (fr_col_start f) (fr_cols f) sbw;
  ok_sbh : 1 <= fr_sbh f <= 1024; ok_sbw : 1 <= sbw <= 1024;
  ok_sb128 : 0 <= fr_sb128 f <= 1; ok_step : fr_sb_step f = 16 * 2 ^ fr_sb128 f;
  ok_sb128w : 1 <= fr_sb128w f <= 512; ok_sb128h : 1 <= fr_sb128h f <= 512;
  ok_w : sbw * (fr_sb_step f * 4) <= fr_sb128w f * 128; ok_h : fr_sbh f * (fr_sb_step f * 4) <= fr_sb128h f * 128;
  ok_layout : 0 <= fr_layout f <= 3; ok_hbd : 0 <= fr_hbd f <= 1;
  ok_stride : fst (fr_stride f) <> 0 /\ Z.abs (fst (fr_stride f)) < 2 ^ 18 /\ Z.abs (snd (fr_stride f)) < 2 ^ 18;
  ok_sr_stride : fst (fr_sr_stride f) <> 0 /\ Z.abs (fst (fr_sr_stride f)) < 2 ^ 18 /\ Z.abs (snd (fr_sr_stride f)) < 2 ^ 18;
  ok_sr_w : 1 <= fr_sr_w f; ok_same_w : fr_resize f = false -> (fr_sr_w f + 127) / 128 = fr_sb128w f
}.

Lemma cuts_mono : forall l n t i j, cuts l n t -> 0 <= i -> i <= j -> j <= n -> at_ l i + (j - i) <= at_ l j.
Proof.
  intros l n t i j (_ & _ & _ & H) I IJ J. replace j with (i + Z.of_nat (Z.to_nat (j - i))) by lia.
  assert (B : Z.of_nat (Z.to_nat (j - i)) <= n - i) by lia. revert B. generalize (Z.to_nat (j - i)). intros k.
  induction k as [|k IH]; intros B; [replace (i + Z.of_nat 0) with i by lia; lia|].
  specialize (IH ltac:(lia)). specialize (H (i + Z.of_nat k) ltac:(lia)).
  replace (i + Z.of_nat (S k)) with (i + Z.of_nat k + 1) by lia. lia.
Qed.
Lemma cuts_range : forall l n t i, cuts l n t -> 0 <= i <= n -> 0 <= at_ l i <= t.
Proof.
  intros l n t i C I. pose proof (cuts_mono l n t 0 i C ltac:(lia) ltac:(lia) ltac:(lia)).
  pose proof (cuts_mono l n t i n C ltac:(lia) ltac:(lia) ltac:(lia)). destruct C as (_ & A & B & _). lia.
Qed.
Lemma cuts_rd : forall l n t i, cuts l n t -> 0 <= i <= n -> rd_at l i = Ok (at_ l i).
Proof. intros l n t i (L & _) I. unfold at_. apply rd_at_nth. lia. Qed.

(** ** start_of_tile_row *)
Lemma store_ok : forall n i, 0 <= i < n -> store (Some n) i = Ok tt.
Proof. intros. unfold store. rewrite (proj2 (Z.leb_le 0 i)), (proj2 (Z.ltb_lt i n)) by lia. reflexivity. Qed.

Lemma zeros_ok : forall n m sby stop, 0 <= sby -> stop <= m -> stop - sby <= Z.of_nat n ->
  zeros n (Some m) sby stop = Ok (repeat 0 (Z.to_nat (stop - sby))).
Proof.
  induction n as [|n IH]; intros m sby stop S0 M F; cbn [zeros]; destruct (Z.ltb_spec sby stop) as [L|L]; try lia.
  - replace (Z.to_nat (stop - sby)) with 0%nat by lia. reflexivity.
  - rewrite store_ok by lia. cbn [obind]. rewrite IH by lia. cbn [obind].
    replace (Z.to_nat (stop - sby)) with (S (Z.to_nat (stop - (sby + 1)))) by lia. reflexivity.
  - replace (Z.to_nat (stop - sby)) with 0%nat by lia. reflexivity.
Qed.

(** entry [x] is the number of the tile row that starts at [x], if one does *)
Definition row_starts (rs : list Z) (r0 rows sbh : Z) (l : list Z) : Prop :=
  let o := at_ rs r0 in
  zlen l = sbh - o /\
  (forall r, r0 <= r < rows -> at_ l (at_ rs r - o) = r) /\
  (forall x, o <= x < sbh -> (forall r, r0 <= r < rows -> at_ rs r <> x) -> at_ l (x - o) = 0).

Lemma tile_rows_ok : forall n f sbw m r, frame_ok f sbw -> fr_sbh f <= m -> 0 <= r -> r + Z.of_nat n = fr_rows f ->
  exists l, tile_rows f n (Some m) r (at_ (fr_row_start f) r) = Ok l /\ row_starts (fr_row_start f) r (fr_rows f) (fr_sbh f) l.
Proof.
  induction n as [|n IH]; intros f sbw m r OK M R E; pose proof (ok_row_start _ _ OK) as C; cbn [tile_rows].
  - exists []. split; [reflexivity|]. assert (r = fr_rows f) by lia. subst r. destruct C as (_ & _ & L & _). unfold row_starts. rewrite L.
    split; [change (zlen (@nil Z)) with 0; lia|]. split; intros; lia.
  - set (rs := fr_row_start f) in *. set (o := at_ rs r).
    pose proof (cuts_range rs _ _ r C ltac:(lia)) as R0. pose proof (cuts_range rs _ _ (r + 1) C ltac:(lia)) as R1.
    pose proof (cuts_mono rs _ _ r (r + 1) C ltac:(lia) ltac:(lia) ltac:(lia)) as R2. fold o in R0, R2.
    rewrite store_ok by lia. cbn [obind]. rewrite (cuts_rd _ _ _ _ C) by lia. cbn [obind].
    rewrite zeros_ok by lia. cbn [obind].
    assert (ZL : zlen (repeat 0 (Z.to_nat (at_ rs (r + 1) - (o + 1)))) = at_ rs (r + 1) - (o + 1)) by (unfold zlen; rewrite repeat_length; lia).
    rewrite ZL. replace (o + 1 + (at_ rs (r + 1) - (o + 1))) with (at_ rs (r + 1)) by lia.
    destruct (IH f sbw m (r + 1) OK M ltac:(lia) ltac:(lia)) as (l' & HT & A & B & D).
    fold rs in HT, A, B, D. rewrite HT. cbn [obind]. set (o' := at_ rs (r + 1)) in *.
    eexists. split; [reflexivity|]. unfold row_starts. fold o.
    assert (HI : forall x, o' <= x -> at_ (r :: repeat 0 (Z.to_nat (o' - (o + 1))) ++ l') (x - o) = at_ l' (x - o')).
    { intros x X. unfold at_. replace (Z.to_nat (x - o)) with (S (Z.to_nat (o' - (o + 1)) + Z.to_nat (x - o'))) by lia.
      cbn [nth]. rewrite app_nth2; rewrite repeat_length; [|lia]. f_equal. lia. }
    split; [|split].
    + unfold zlen in *. cbn [length]. rewrite app_length, repeat_length. lia.
    + intros k K. destruct (Z.eq_dec k r) as [->|N].
      * fold o. rewrite Z.sub_diag. reflexivity.
      * pose proof (cuts_mono rs _ _ (r + 1) k C ltac:(lia) ltac:(lia) ltac:(lia)) as Q. fold o' in Q.
        rewrite HI by lia. apply B. lia.
    + intros x X N. destruct (Z.lt_ge_cases x o') as [L|L].
      * assert (x <> o) by (intros ->; apply (N r); [lia|reflexivity]).
        unfold at_. replace (Z.to_nat (x - o)) with (S (Z.to_nat (x - o - 1))) by lia. cbn [nth].
        rewrite app_nth1 by (rewrite repeat_length; lia). apply nth_repeat.
      * rewrite HI by lia. apply D; [lia|]. intros k K. apply N. lia.
Qed.

(** ** caches *)
Definition okc (size : Z -> Z) (c : cache) : Prop := c_key c = 0 \/ c_buf c = Some (size (c_key c)).
Definition has (n : Z) (b : option Z) : Prop := b = Some n.

Lemma recache_ok : forall fail i need size c ok c', need <> 0 -> okc size c -> recache fail i need (size need) c = (ok, c') ->
  okc size c' /\ (ok = true -> has (size need) (c_buf c')) /\ (fail i = false -> ok = true).
Proof.
  intros fail i need size c ok c' N O H. unfold recache, alloc in H. destruct (Z.eqb_spec need (c_key c)) as [E|E].
  - injection H as <- <-. split; [exact O|]. split; [|auto]. intros _. destruct O as [O|O]; [lia|]. rewrite E. exact O.
  - destruct (fail i) eqn:F; injection H as <- <-.
    + split; [left; reflexivity|]. split; discriminate.
    + split; [right; reflexivity|]. split; auto. intros _. reflexivity.
Qed.

(** ** the lines of cdef *)
Definition cdef_size (y uv sbh : Z) (copy : bool) : Z := 64 + shl1 (Z.abs y * 4 * sbh) copy + shl1 (Z.abs uv * 8 * sbh) copy.
Definition cdef_line_pos (y uv sbh : Z) : list Z :=
  let p := 32 in
  let q := p + Z.abs y * sbh * 4 in
  (if y <? 0 then [p - y * (sbh * 4 - 1); p - y * (sbh * 4 - 3)] else [p + y * 0; p + y * 2]) ++
  (if uv <? 0 then [q - uv * (sbh * 8 - 1); q - uv * (sbh * 8 - 3); q - uv * (sbh * 8 - 5); q - uv * (sbh * 8 - 7)]
   else [q + uv * 0; q + uv * 2; q + uv * 4; q + uv * 6]).
Definition cdef_lpf_pos (y uv sbh : Z) : list Z :=
  let p := 32 + Z.abs y * sbh * 4 + Z.abs uv * sbh * 8 in
  let q := p + Z.abs y * sbh * 4 in
  (if y <? 0 then p - y * (sbh * 4 - 1) else p) ::
  (if uv <? 0 then [q - uv * (sbh * 4 - 1); q - uv * (sbh * 8 - 1)] else [q; q + uv * sbh * 4]).
Definition cdef_is (c : cdef_lines) (y uv sbh : Z) (copy : bool) : Prop :=
  cl_buf c = Some (cdef_size y uv sbh copy) /\ cl_line c = cdef_line_pos y uv sbh /\ (copy = true -> cl_lpf c = cdef_lpf_pos y uv sbh).
Definition cdef_inv (c : cdef_lines) : Prop :=
  cl_y c = 0 \/
  exists y uv, 0 < cl_sbh c /\ cl_y c = y * cl_sbh c * 4 /\ cl_uv c = uv * cl_sbh c * 8 /\ cdef_is c y uv (cl_sbh c) (cl_copy c).

(** ** the lines of loop restoration *)
Definition lr_size (y uv n : Z) : Z := 128 + Z.abs y * n + Z.abs uv * n * 2.
Definition lr_line_pos (y uv n : Z) : list Z :=
  let p := 64 in
  let q := p + Z.abs y * n in
  (if y <? 0 then p - y * (n - 1) else p) :: (if uv <? 0 then [q - uv * (n * 1 - 1); q - uv * (n * 2 - 1)] else [q; q + uv * n]).
Definition lr_is (c : lr_lines) (y uv n : Z) : Prop := ll_buf c = Some (lr_size y uv n) /\ ll_line c = lr_line_pos y uv n.
(** strides are positive, or the number of lines does not depend on the frame *)
Definition lr_cond (n_tc y uv : Z) : Prop := (0 <= y /\ 0 <= uv) \/ n_tc <= 1.
Definition lr_inv (n_tc : Z) (c : lr_lines) : Prop :=
  ll_y c = 0 \/
  exists y uv n, 0 < n /\ (n_tc <= 1 -> n = 12) /\ lr_cond n_tc y uv /\ ll_y c = y * n /\ ll_uv c = uv * n * 2 /\ lr_is c y uv n.

(** ** the invariant *)
Section INV.
Variables n_fc n_tc : Z.
Definition id_ (x : Z) : Z := x.
Definition cbi_sz (x : Z) : Z := x * 32 * 32 / 4.
Definition cf_sz (x : Z) : Z := x * 128 * 128 / 2.
Definition pal_sz (x : Z) : Z := x * 16 * 16.
Definition pal_idx_sz (x : Z) : Z := x * 128 * 128 / 8.
Definition edge_sz (x : Z) : Z := x * 128 * 3.
Definition re_sz (x : Z) : Z := x * 32 * 2.
Record inv (b : bufs) : Prop := mkInv {
  i_sotr : 0 <= c_key (b_sotr b) /\ (c_key (b_sotr b) = 0 \/ c_buf (b_sotr b) = Some (c_key (b_sotr b)));
  i_ts : okc id_ (b_ts b);
  i_tso : 1 < n_fc -> c_key (b_ts b) = 0 \/ b_tso b = Some (c_key (b_ts b));
  i_a : okc id_ (b_a b); i_low : okc id_ (b_low b); i_cbi : okc cbi_sz (b_cbi b); i_cf : okc cf_sz (b_cf b);
  i_pal : okc pal_sz (b_pal b); i_pal_idx : okc pal_idx_sz (b_pal_idx b);
  i_cdef : cdef_inv (b_cdef b); i_lr : lr_inv n_tc (b_lr b);
  i_mask : b_mask_sz b = 0 \/ (b_mask b = Some (b_mask_sz b) /\ b_level b = Some (b_mask_sz b * 32 * 32 + 3) /\
                               (1 < n_fc -> b_b b = Some (b_mask_sz b * 32 * 32)));
  i_lr_mask : okc id_ (b_lr_mask b); i_edge : okc edge_sz (b_edge b); i_re : okc re_sz (b_re b)
}.
Lemma inv0 : inv bufs0.
Proof. constructor; try (left; reflexivity). - split; [cbn; lia|now left]. Qed.

Definition a_need (f : frame) : Z := fr_sb128w f * fr_rows f * (if (1 <? n_fc) && (1 <? n_tc) then 2 else 1).
(** what must hold when a frame is decoded *)
Record ready (f : frame) (b : bufs) : Prop := mkReady {
  r_sotr : (exists n, c_buf (b_sotr b) = Some n /\ fr_sbh f <= n) /\
           row_starts (fr_row_start f) 0 (fr_rows f) (fr_sbh f) (b_sotr_val b);
  r_ts : has (fr_cols f * fr_rows f) (c_buf (b_ts b));
  r_tso : 1 < n_fc -> has (fr_cols f * fr_rows f) (b_tso b);
  r_a : has (a_need f) (c_buf (b_a b));
  r_low : 1 < n_fc -> has (fr_cols f * fr_sbh f) (c_buf (b_low b));
  r_cbi : 1 < n_fc -> has (cbi_sz (num_sb128 f * size_mul0 (fr_layout f))) (c_buf (b_cbi b));
  r_cf : 1 < n_fc -> has (cf_sz (num_sb128 f * size_mul0 (fr_layout f) * 2 ^ fr_hbd f)) (c_buf (b_cf b));
  r_pal : 1 < n_fc -> fr_scc f = true -> has (pal_sz (num_sb128 f * 2 ^ fr_hbd f)) (c_buf (b_pal b));
  r_pal_idx : 1 < n_fc -> fr_scc f = true -> has (pal_idx_sz (num_sb128 f * size_mul1 (fr_layout f))) (c_buf (b_pal_idx b));
  r_cdef : cdef_is (b_cdef b) (fst (fr_stride f)) (snd (fr_stride f)) (fr_sbh f) ((1 <? n_tc) && fr_resize f);
  r_lr : lr_is (b_lr b) (fst (fr_sr_stride f)) (snd (fr_sr_stride f)) (num_lines n_tc f);
  r_mask : has (num_sb128 f) (b_mask b) /\ has (num_sb128 f * 32 * 32 + 3) (b_level b) /\ (1 < n_fc -> has (num_sb128 f * 32 * 32) (b_b b));
  r_lr_mask : has ((fr_sr_w f + 127) / 128 * fr_sb128h f) (c_buf (b_lr_mask b));
  r_edge : has (edge_sz (fr_sbh f * fr_sb128w f * 2 ^ fr_hbd f)) (c_buf (b_edge b));
  r_re : has (re_sz (fr_sb128h f * fr_cols f)) (c_buf (b_re b))
}.

Section FRAME.
Variables (f : frame) (sbw : Z) (fail : Z -> bool).
Hypothesis OK : frame_ok f sbw.

(** a step: it is defined, it keeps the invariant and it establishes [P] if it
    succeeds; it succeeds if no allocation fails *)
Definition step_ok (r : outcome (bool * bufs)) (P : bufs -> Prop) : Prop :=
  exists ok b', r = Ok (ok, b') /\ inv b' /\ (ok = true -> P b') /\ ((forall i, fail i = false) -> ok = true).

Lemma andthen_ok : forall r k P Q, step_ok r P -> (forall b, inv b -> P b -> step_ok (k b) Q) -> step_ok (andthen r k) Q.
Proof.
  intros r k P Q (ok & b' & -> & I & S & F) K. unfold andthen. cbn [obind]. destruct ok.
  - destruct (K b' I (S eq_refl)) as (ok2 & b2 & H2 & I2 & S2 & F2). exists ok2, b2. auto.
  - exists false, b'. split; [reflexivity|]. split; [exact I|]. split; [discriminate|]. intros A. specialize (F A). discriminate.
Qed.

Definition P1 (b : bufs) : Prop := (exists n, c_buf (b_sotr b) = Some n /\ fr_sbh f <= n) /\ row_starts (fr_row_start f) 0 (fr_rows f) (fr_sbh f) (b_sotr_val b).
Lemma start_rows_ok : forall b, inv b -> step_ok (start_rows f fail b) P1.
Proof.
  intros b I. pose proof (ok_sbh _ _ OK) as SB. pose proof (ok_rows _ _ OK) as RW. unfold start_rows, alloc.
  assert (G : forall m, fr_sbh f <= m -> exists l, tile_rows f (Z.to_nat (fr_rows f)) (Some m) 0 0 = Ok l /\ row_starts (fr_row_start f) 0 (fr_rows f) (fr_sbh f) l).
  { intros m M. destruct (tile_rows_ok (Z.to_nat (fr_rows f)) f sbw m 0 OK M ltac:(lia) ltac:(lia)) as (l & H & R).
    destruct (ok_row_start _ _ OK) as (_ & Z0 & _). rewrite Z0 in H. eauto. }
  destruct (Z.ltb_spec (c_key (b_sotr b)) (fr_sbh f)) as [L|L].
  - destruct (fail 0) eqn:F0.
    + eexists false, _. split; [reflexivity|]. split; [|split; [discriminate|intros A; rewrite A in F0; discriminate]].
      destruct I. constructor; try assumption. cbn. split; [lia|now left].
    + cbn [c_buf]. destruct (G (fr_sbh f) ltac:(lia)) as (l & -> & R). cbn [obind].
      eexists true, _. split; [reflexivity|]. split; [|split; [|auto]].
      * destruct I. constructor; try assumption. cbn. split; [lia|now right].
      * intros _. split; [exists (fr_sbh f); split; [reflexivity|lia]|exact R].
  - destruct (i_sotr b I) as (K0 & [K1|K1]); [lia|]. rewrite K1. destruct (G _ L) as (l & -> & R). cbn [obind].
    eexists true, _. split; [reflexivity|]. split; [|split; [|auto]].
    + destruct I. constructor; try assumption.
    + intros _. split; [eexists; split; [exact K1|lia]|exact R].
Qed.

Definition P2 (b : bufs) : Prop := P1 b /\ has (fr_cols f * fr_rows f) (c_buf (b_ts b)) /\ (1 < n_fc -> has (fr_cols f * fr_rows f) (b_tso b)).
Lemma tile_states_ok : forall b, fail 2 = false -> inv b -> P1 b -> step_ok (tile_states n_fc f fail b) P2.
Proof.
  intros b F2 I P. pose proof (ok_rows _ _ OK) as RW. pose proof (ok_cols _ _ OK) as CW. unfold tile_states, alloc. rewrite F2.
  set (n := fr_cols f * fr_rows f). assert (N : 1 <= n) by (unfold n; nia).
  destruct (Z.eqb_spec n (c_key (b_ts b))) as [E|E].
  - eexists true, _. split; [reflexivity|]. split; [exact I|]. split; [|auto]. intros _. split; [exact P|].
    pose proof (i_ts b I) as T. pose proof (i_tso b I) as TS. fold n. rewrite E. split.
    + destruct T as [T|T]; [lia|exact T].
    + intros K. destruct (TS K) as [T'|T']; [lia|exact T'].
  - destruct (Z.ltb_spec 1 n_fc) as [K|K]; cbn [andb].
    + destruct (fail 1) eqn:F1; cbn [andb].
      * eexists false, _. split; [reflexivity|]. split; [|split; [discriminate|intros A; rewrite A in F1; discriminate]].
        destruct I. constructor; try assumption; cbn; [now left|intros _; now left].
      * eexists true, _. split; [reflexivity|]. split; [|split; [|auto]].
        -- destruct I. constructor; try assumption; cbn; [now right|intros _; now right].
        -- intros _. split; [exact P|]. split; [reflexivity|]. intros _. reflexivity.
    + eexists true, _. split; [reflexivity|]. split; [|split; [|auto]].
      * destruct I. constructor; try assumption; cbn; [now right|intros; lia].
      * intros _. split; [exact P|]. split; [reflexivity|]. intros; lia.
Qed.

Definition P3 (b : bufs) : Prop := P2 b /\ has (a_need f) (c_buf (b_a b)).
Lemma above_ok : forall b, inv b -> P2 b -> step_ok (above n_fc n_tc f fail b) P3.
Proof.
  intros b I P. pose proof (ok_rows _ _ OK) as RW. pose proof (ok_sb128w _ _ OK) as W. unfold above. fold (a_need f).
  assert (N : a_need f <> 0) by (unfold a_need; destruct ((1 <? n_fc) && (1 <? n_tc)); nia).
  destruct (recache fail 3 (a_need f) (a_need f) (b_a b)) as [ok c] eqn:R.
  destruct (recache_ok fail 3 (a_need f) id_ (b_a b) ok c N (i_a b I) R) as (A & B & C).
  exists ok, (set_a b c). split; [reflexivity|]. split; [destruct I; constructor; assumption|]. split; [|auto].
  intros E. split; [exact P|exact (B E)].
Qed.

Definition P4 (b : bufs) : Prop := P3 b /\ (1 < n_fc ->
  has (fr_cols f * fr_sbh f) (c_buf (b_low b)) /\
  has (cbi_sz (num_sb128 f * size_mul0 (fr_layout f))) (c_buf (b_cbi b)) /\
  has (cf_sz (num_sb128 f * size_mul0 (fr_layout f) * 2 ^ fr_hbd f)) (c_buf (b_cf b)) /\
  (fr_scc f = true -> has (pal_sz (num_sb128 f * 2 ^ fr_hbd f)) (c_buf (b_pal b)) /\
                      has (pal_idx_sz (num_sb128 f * size_mul1 (fr_layout f))) (c_buf (b_pal_idx b)))).

Lemma store_all_ok : forall n l, Forall (fun i => 0 <= i < n) l -> store_all (Some n) l = Ok tt.
Proof. induction 1 as [|i l H F IH]; [reflexivity|]. cbn [store_all]. rewrite store_ok by lia. cbn [obind]. exact IH. Qed.
Lemma tile_idxs_ok : Forall (fun i => 0 <= i < fr_cols f * fr_rows f) (tile_idxs f).
Proof. unfold tile_idxs. apply Forall_forall. intros x H. apply in_map_iff in H. destruct H as (k & <- & K). apply in_seq in K. lia. Qed.

Lemma num_pos : 1 <= num_sb128 f <= 2 ^ 18.
Proof. unfold num_sb128. pose proof (ok_sb128w _ _ OK). pose proof (ok_sb128h _ _ OK). change (2 ^ 18) with 262144. nia. Qed.
Lemma mul0_pos : 4 <= size_mul0 (fr_layout f) <= 12.
Proof. unfold size_mul0. destruct (fr_layout f =? 0), (fr_layout f =? 1), (fr_layout f =? 2); lia. Qed.
Lemma mul1_pos : 4 <= size_mul1 (fr_layout f) <= 8.
Proof. unfold size_mul1. destruct (fr_layout f =? 0), (fr_layout f =? 1), (fr_layout f =? 2); lia. Qed.

Lemma frame_thread_ok : forall b, inv b -> P3 b -> step_ok (frame_thread n_fc f fail b) P4.
Proof.
  intros b I P. unfold frame_thread. destruct (Z.ltb_spec 1 n_fc) as [K|K].
  2:{ exists true, b. split; [reflexivity|]. split; [exact I|]. split; [|auto]. intros _. split; [exact P|]. intros; lia. }
  destruct P as ((P1' & PT & PO) & PA). specialize (PO K). unfold has in PT, PO. rewrite PT, PO.
  rewrite (store_all_ok _ _ tile_idxs_ok). cbn [obind].
  pose proof num_pos as NP. pose proof mul0_pos as M0. pose proof mul1_pos as M1. pose proof (ok_hbd _ _ OK) as HB.
  pose proof (ok_cols _ _ OK) as CW. pose proof (ok_sbh _ _ OK) as SB.
  assert (PW : 1 <= 2 ^ fr_hbd f <= 2) by (assert (fr_hbd f = 0 \/ fr_hbd f = 1) as [->| ->] by lia; cbn; lia).
  rewrite !Z.shiftl_mul_pow2 by lia.
  destruct (recache fail 4 (fr_cols f * fr_sbh f) (fr_cols f * fr_sbh f) (b_low b)) as [ok1 low] eqn:R1.
  destruct (recache_ok fail 4 (fr_cols f * fr_sbh f) id_ (b_low b) ok1 low ltac:(nia) (i_low b I) R1) as (A1 & B1 & C1).
  assert (PP : P3 b) by (repeat split; try assumption; try (intros _; exact PO); apply P1').
  destruct ok1; cbn [negb].
  2:{ eexists false, _. split; [reflexivity|]. split; [destruct I; constructor; assumption|]. split; [discriminate|].
      intros F. specialize (C1 (F _)). discriminate. }
  cbn [obind].
  set (n0 := num_sb128 f * size_mul0 (fr_layout f)).
  destruct (recache fail 5 n0 (n0 * 32 * 32 / 4) (b_cbi b)) as [ok2 cbi] eqn:R2.
  destruct (recache_ok fail 5 n0 cbi_sz (b_cbi b) ok2 cbi ltac:(unfold n0; nia) (i_cbi b I) R2) as (A2 & B2 & C2).
  destruct ok2; cbn [negb].
  2:{ eexists false, _. split; [reflexivity|]. split; [destruct I; constructor; assumption|]. split; [discriminate|].
      intros F. specialize (C2 (F _)). discriminate. }
  set (n1 := n0 * 2 ^ fr_hbd f).
  destruct (recache fail 6 n1 (n1 * 128 * 128 / 2) (b_cf b)) as [ok3 cf] eqn:R3.
  destruct (recache_ok fail 6 n1 cf_sz (b_cf b) ok3 cf ltac:(unfold n1, n0; nia) (i_cf b I) R3) as (A3 & B3 & C3).
  destruct ok3; cbn [negb].
  2:{ eexists false, _. split; [reflexivity|]. split; [destruct I; constructor; assumption|]. split; [discriminate|].
      intros F. specialize (C3 (F _)). discriminate. }
  destruct (fr_scc f) eqn:SC.
  - set (n2 := num_sb128 f * 2 ^ fr_hbd f).
    destruct (recache fail 7 n2 (n2 * 16 * 16) (b_pal b)) as [ok4 pal] eqn:R4.
    destruct (recache_ok fail 7 n2 pal_sz (b_pal b) ok4 pal ltac:(unfold n2; nia) (i_pal b I) R4) as (A4 & B4 & C4).
    destruct ok4; cbn [negb].
    2:{ eexists false, _. split; [reflexivity|]. split; [destruct I; constructor; assumption|]. split; [discriminate|].
        intros F. specialize (C4 (F _)). discriminate. }
    set (n3 := num_sb128 f * size_mul1 (fr_layout f)).
    destruct (recache fail 8 n3 (n3 * 128 * 128 / 8) (b_pal_idx b)) as [ok5 pidx] eqn:R5.
    destruct (recache_ok fail 8 n3 pal_idx_sz (b_pal_idx b) ok5 pidx ltac:(unfold n3; nia) (i_pal_idx b I) R5) as (A5 & B5 & C5).
    eexists ok5, _. split; [reflexivity|]. split; [destruct I; constructor; assumption|]. split; [|intros F; apply C5, F].
    intros E. split; [exact PP|]. intros _. split; [exact (B1 eq_refl)|]. split; [exact (B2 eq_refl)|]. split; [exact (B3 eq_refl)|].
    intros _. split; [exact (B4 eq_refl)|exact (B5 E)].
  - assert (D : forall b', inv b' -> P3 b' -> b_low b' = low -> b_cbi b' = cbi -> b_cf b' = cf -> step_ok (Ok (true, b')) P4).
    { intros b' I' P' E1 E2 E3. exists true, b'. split; [reflexivity|]. split; [exact I'|]. split; [|auto]. intros _. split; [exact P'|].
      rewrite E1, E2, E3. intros _. split; [exact (B1 eq_refl)|]. split; [exact (B2 eq_refl)|]. split; [exact (B3 eq_refl)|]. intros SC1; congruence. }
    destruct (c_buf (b_pal b)); (apply D; [|exact PP|reflexivity|reflexivity|reflexivity]).
    + destruct I; constructor; try assumption; left; reflexivity.
    + destruct I; constructor; assumption.
Qed.

Definition P5 (b : bufs) : Prop := P4 b /\ cdef_is (b_cdef b) (fst (fr_stride f)) (snd (fr_stride f)) (fr_sbh f) ((1 <? n_tc) && fr_resize f).
Lemma fits_int_ok : forall x, Z.abs x < 2 ^ 31 -> fits_int x = true.
Proof. intros x H. unfold fits_int, INT_MIN, INT_MAX. change (2 ^ 31) with 2147483648 in H. apply andb_true_intro. split; apply Z.leb_le; lia. Qed.
Lemma cdef_ok : forall b, inv b -> P4 b -> step_ok (cdef n_tc f fail b) P5.
Proof.
  intros b I P. unfold cdef. pose proof (ok_stride _ _ OK) as (Y0 & Y1 & U1). destruct (fr_stride f) as [y uv] eqn:FS. cbn [fst snd] in *.
  set (sbh := fr_sbh f). set (copy := (1 <? n_tc) && fr_resize f). pose proof (ok_sbh _ _ OK) as SB. fold sbh in SB.
  match goal with |- step_ok (if ?c then _ else _) _ => destruct c eqn:C end.
  - unfold alloc. destruct (fail 9) eqn:F9.
    + eexists false, _. split; [reflexivity|]. split; [destruct I; constructor; try assumption; left; reflexivity|]. split; [discriminate|].
      intros A. rewrite A in F9. discriminate.
    + change (2 ^ 18) with 262144 in *. change 262144 with (2 ^ 18) in *.
      rewrite !fits_int_ok; [cbn [andb]|..]; try (rewrite !Z.abs_mul; change (2 ^ 31) with (2 ^ 18 * 1024 * 8); change (Z.abs 8) with 8; change (Z.abs 4) with 4; rewrite (Z.abs_eq sbh) by lia; nia).
      eexists true, _. split; [reflexivity|]. split; [|split; [|auto]].
      * destruct I; constructor; try assumption. right. cbn [b_cdef set_cdef cl_y cl_uv cl_sbh cl_copy]. exists y, uv. split; [lia|]. split; [reflexivity|]. split; [reflexivity|].
        unfold cdef_is. cbn [cl_buf cl_line cl_lpf]. split; [reflexivity|]. split; [reflexivity|]. intros ->. reflexivity.
      * intros _. split; [exact P|]. rewrite FS. cbn [fst snd]. fold sbh copy.
        unfold cdef_is. cbn [cl_buf cl_line cl_lpf b_cdef set_cdef]. split; [reflexivity|]. split; [reflexivity|]. intros ->. reflexivity.
  - exists true, b. split; [reflexivity|]. split; [exact I|]. split; [|auto]. intros _. split; [exact P|]. rewrite FS. cbn [fst snd]. fold sbh copy.
    apply orb_false_iff in C. destruct C as [C C4]. apply orb_false_iff in C. destruct C as [C C3]. apply orb_false_iff in C. destruct C as [C1 C2].
    apply negb_false_iff in C1, C2, C3, C4. apply Z.eqb_eq in C1, C2, C4. apply eqb_prop in C3.
    destruct (i_cdef b I) as [D|(y' & uv' & S0 & D1 & D2 & D3)]; [nia|]. rewrite <- C4 in D1, D2, D3. rewrite <- C3 in D3.
    assert (y = y') by nia. assert (uv = uv') by nia. subst y' uv'. exact D3.
Qed.

Definition P6 (b : bufs) : Prop := P5 b /\ lr_is (b_lr b) (fst (fr_sr_stride f)) (snd (fr_sr_stride f)) (num_lines n_tc f).
Lemma num_lines_pos : 1 <= num_lines n_tc f <= 8192 /\ (n_tc <= 1 -> num_lines n_tc f = 12).
Proof.
  unfold num_lines. pose proof (ok_sbh _ _ OK) as SB. pose proof (ok_sb128 _ _ OK) as S1. destruct (Z.ltb_spec 1 n_tc); [|lia].
  rewrite Z.shiftl_mul_pow2 by lia. assert (fr_sb128 f = 0 \/ fr_sb128 f = 1) as [->| ->] by lia; cbn; lia.
Qed.
Lemma lr_ok : forall b, lr_cond n_tc (fst (fr_sr_stride f)) (snd (fr_sr_stride f)) -> inv b -> P5 b -> step_ok (lr n_tc f fail b) P6.
Proof.
  intros b LC I P. unfold lr. pose proof (ok_sr_stride _ _ OK) as (Y0 & Y1 & U1). destruct (fr_sr_stride f) as [y uv] eqn:FS. cbn [fst snd] in *.
  set (n := num_lines n_tc f). pose proof num_lines_pos as (NP & N12). fold n in NP, N12.
  destruct (negb (y * n =? ll_y (b_lr b)) || negb (uv * n * 2 =? ll_uv (b_lr b))) eqn:C.
  - unfold alloc. destruct (fail 10) eqn:F9.
    + eexists false, _. split; [reflexivity|]. split; [destruct I; constructor; try assumption; left; reflexivity|]. split; [discriminate|].
      intros A. rewrite A in F9. discriminate.
    + rewrite !fits_int_ok; [cbn [andb]|..]; try (rewrite !Z.abs_mul; change (2 ^ 18) with 262144 in *; change (2 ^ 31) with 2147483648; change (Z.abs 2) with 2; rewrite (Z.abs_eq n) by lia; nia).
      2:{ rewrite !Z.abs_mul. change (Z.abs 2) with 2. rewrite (Z.abs_eq n) by lia. change (2 ^ 18) with 262144 in *. change (2 ^ 31) with 2147483648. pose proof (ok_sbh _ _ OK).
          unfold n, num_lines in *. pose proof (ok_sb128 _ _ OK). pose proof (ok_h _ _ OK). pose proof (ok_step _ _ OK). pose proof (ok_sb128h _ _ OK).
          destruct (Z.ltb_spec 1 n_tc); [|nia]. rewrite Z.shiftl_mul_pow2 in * by lia.
          assert (fr_sb128 f = 0 \/ fr_sb128 f = 1) as [E|E] by lia; rewrite E in *; cbn [Z.pow Z.pow_pos Pos.iter] in *; nia. }
      eexists true, _. split; [reflexivity|]. split; [|split; [|auto]].
      * destruct I; constructor; try assumption. right. exists y, uv, n. split; [lia|]. split; [exact N12|]. split; [exact LC|]. split; [reflexivity|]. split; [reflexivity|].
        split; reflexivity.
      * intros _. split; [exact P|]. rewrite FS. split; reflexivity.
  - exists true, b. split; [reflexivity|]. split; [exact I|]. split; [|auto]. intros _. split; [exact P|]. rewrite FS. cbn [fst snd]. fold n.
    apply orb_false_iff in C. rewrite !negb_false_iff in C. destruct C as [C1 C2]. apply Z.eqb_eq in C1, C2.
    destruct (i_lr b I) as [D|(y' & uv' & n' & D0 & D1 & D2 & D3 & D4 & D5 & D6)]; [nia|].
    rewrite D3 in C1. rewrite D4 in C2. assert (CU : uv * n = uv' * n') by lia.
    destruct LC as [[L1 L2]|L].
    + assert (0 <= y' /\ 0 <= uv') as [L3 L4].
      { destruct D2 as [D2|D2]; [exact D2|]. rewrite (D1 D2), (N12 D2) in *. lia. }
      unfold lr_is. rewrite D5, D6. unfold lr_size, lr_line_pos. rewrite !Z.abs_eq by lia.
      rewrite (proj2 (Z.ltb_ge y 0)), (proj2 (Z.ltb_ge uv 0)), (proj2 (Z.ltb_ge y' 0)), (proj2 (Z.ltb_ge uv' 0)) by lia.
      rewrite C1, CU. auto.
    + rewrite (D1 L), (N12 L) in *. assert (y = y') by lia. assert (uv = uv') by lia. subst. split; assumption.
Qed.

Definition P7 (b : bufs) : Prop := P6 b /\ has (num_sb128 f) (b_mask b) /\ has (num_sb128 f * 32 * 32 + 3) (b_level b) /\
  (1 < n_fc -> has (num_sb128 f * 32 * 32) (b_b b)).
Lemma masks_ok : forall b, inv b -> P6 b -> step_ok (masks n_fc f fail b) P7.
Proof.
  intros b I P. unfold masks, alloc. pose proof num_pos as NP. destruct (Z.eqb_spec (num_sb128 f) (b_mask_sz b)) as [E|E].
  - exists true, b. split; [reflexivity|]. split; [exact I|]. split; [|auto]. intros _. split; [exact P|]. rewrite E in *.
    destruct (i_mask b I) as [D|D]; [lia|exact D].
  - destruct (fail 11) eqn:F1; [|destruct (fail 12) eqn:F2].
    + eexists false, _. split; [reflexivity|]. split; [destruct I; constructor; try assumption; left; reflexivity|]. split; [discriminate|].
      intros A. rewrite A in F1. discriminate.
    + eexists false, _. split; [reflexivity|]. split; [destruct I; constructor; try assumption; left; reflexivity|]. split; [discriminate|].
      intros A. rewrite A in F2. discriminate.
    + destruct (Z.ltb_spec 1 n_fc) as [K|K].
      * destruct (fail 13) eqn:F3.
        -- eexists false, _. split; [reflexivity|]. split; [destruct I; constructor; try assumption; left; reflexivity|]. split; [discriminate|].
           intros A. rewrite A in F3. discriminate.
        -- eexists true, _. split; [reflexivity|]. split; [destruct I; constructor; try assumption; right; repeat split; reflexivity|]. split; [|auto].
           intros _. split; [exact P|]. repeat split; reflexivity.
      * eexists true, _. split; [reflexivity|]. split; [destruct I; constructor; try assumption; right; repeat split; try reflexivity; intros; lia|]. split; [|auto].
        intros _. split; [exact P|]. repeat split; try reflexivity; intros; lia.
Qed.

Lemma tail_ok : forall b, inv b -> P7 b -> step_ok (tail f fail b) (ready f).
Proof.
  intros b I P. unfold tail. pose proof num_pos as NP. pose proof (ok_hbd _ _ OK) as HB. pose proof (ok_cols _ _ OK) as CW. pose proof (ok_sbh _ _ OK) as SB.
  pose proof (ok_sb128w _ _ OK) as W. pose proof (ok_sb128h _ _ OK) as H. pose proof (ok_sr_w _ _ OK) as SW.
  assert (PW : 1 <= 2 ^ fr_hbd f <= 2) by (assert (fr_hbd f = 0 \/ fr_hbd f = 1) as [->| ->] by lia; cbn; lia).
  rewrite Z.shiftl_mul_pow2, Z.shiftr_div_pow2 by lia. change (2 ^ 7) with 128.
  assert (S1 : 1 <= (fr_sr_w f + 127) / 128) by (apply Z.div_le_lower_bound; lia).
  set (n1 := (fr_sr_w f + 127) / 128 * fr_sb128h f).
  destruct (recache fail 14 n1 n1 (b_lr_mask b)) as [ok1 c1] eqn:R1.
  destruct (recache_ok fail 14 n1 id_ (b_lr_mask b) ok1 c1 ltac:(unfold n1; nia) (i_lr_mask b I) R1) as (A1 & B1 & C1).
  destruct ok1; cbn [negb].
  2:{ eexists false, _. split; [reflexivity|]. split; [destruct I; constructor; assumption|]. split; [discriminate|].
      intros F. specialize (C1 (F _)). discriminate. }
  destruct P as (P & PM & PL & PB). unfold has in PM. rewrite PM. rewrite (proj2 (Z.leb_le _ _)) by lia. cbn [obind].
  set (n2 := fr_sbh f * fr_sb128w f * 2 ^ fr_hbd f).
  assert (N2 : 1 <= n2 <= 1048576).
  { assert (N3 : 1 <= fr_sbh f * fr_sb128w f <= 524288) by nia. unfold n2. nia. }
  rewrite fits_int_ok by (change (2 ^ 31) with 2147483648; lia).
  destruct (recache fail 15 n2 (n2 * 128 * 3) (b_edge b)) as [ok2 c2] eqn:R2.
  destruct (recache_ok fail 15 n2 edge_sz (b_edge b) ok2 c2 ltac:(lia) (i_edge b I) R2) as (A2 & B2 & C2).
  destruct ok2; cbn [negb].
  2:{ eexists false, _. split; [reflexivity|]. split; [destruct I; constructor; assumption|]. split; [discriminate|].
      intros F. specialize (C2 (F _)). discriminate. }
  set (n3 := fr_sb128h f * fr_cols f).
  destruct (recache fail 16 n3 (n3 * 32 * 2) (b_re b)) as [ok3 c3] eqn:R3.
  destruct (recache_ok fail 16 n3 re_sz (b_re b) ok3 c3 ltac:(unfold n3; nia) (i_re b I) R3) as (A3 & B3 & C3).
  eexists ok3, _. split; [reflexivity|]. split; [destruct I; constructor; assumption|]. split; [|intros F; apply C3, F].
  intros E. destruct P as (((((P1' & PT & PO) & PA) & P4') & P5') & P6').
  constructor; cbn [set_tail b_sotr b_sotr_val b_ts b_tso b_a b_low b_cbi b_cf b_pal b_pal_idx b_cdef b_lr b_mask b_level b_b b_lr_mask b_edge b_re];
    try assumption; try (intros K; apply P4' in K; apply K).
  - repeat split; assumption.
  - exact (B1 eq_refl).
  - exact (B2 eq_refl).
  - exact (B3 E).
Qed.

Lemma frame_init_ok : forall b, fail 2 = false -> lr_cond n_tc (fst (fr_sr_stride f)) (snd (fr_sr_stride f)) -> inv b ->
  step_ok (frame_init n_fc n_tc f fail b) (ready f).
Proof.
  intros b F LC I. unfold frame_init.
  eapply andthen_ok; [apply start_rows_ok, I|]. clear b I. intros b I P.
  eapply andthen_ok; [apply tile_states_ok; assumption|]. clear b I P. intros b I P.
  eapply andthen_ok; [apply above_ok; assumption|]. clear b I P. intros b I P.
  eapply andthen_ok; [apply frame_thread_ok; assumption|]. clear b I P. intros b I P.
  eapply andthen_ok; [apply cdef_ok; assumption|]. clear b I P. intros b I P.
  eapply andthen_ok; [apply lr_ok; assumption|]. clear b I P. intros b I P.
  eapply andthen_ok; [apply masks_ok; assumption|]. clear b I P. intros b I P.
  apply tail_ok; assumption.
Qed.
End FRAME.
End INV.

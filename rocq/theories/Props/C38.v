(** C38: every tile has its own part of the frame's work buffers. *)
From Coq Require Import ZArith List Bool Lia.
From Verif Require Import Base.CInt Base.Lemmas Obu.SeqModel Obu.SeqRel Obu.FrameModel Obu.FrameRel
  Tile.Bufs Tile.BufsProofs Tile.SharesProofs Tile.FrameOf.
Import ListNotations.
Open Scope Z_scope.

(** [frame_ok f sbw]: a frame of at most 65536 by 65536 pixels that is [sbw]
    superblocks wide, whose tile boundaries are a partition. *)
Section C38.
Variables (f : frame) (sbw : Z).
Hypothesis OK : frame_ok f sbw.
Let row r := at_ (fr_row_start f) r.
Let col c := at_ (fr_col_start f) c.
Let tile r c := 0 <= r < fr_rows f /\ 0 <= c < fr_cols f.
Let earlier r c r' c' : Prop := r < r' \/ (r = r' /\ c < c').
(** the luma pixels of the superblocks of a tile *)
Let pixels r c := ((row (r + 1) - row r) * (fr_sb_step f * 4)) * ((col (c + 1) - col c) * (fr_sb_step f * 4)).

(** The 32-bit offset is exact, and the ranges of the tiles are in order, disjoint
    and inside the frame. *)
Theorem C38_offset : forall r c, tile r c -> exists off, tile_start_off f r c = Ok off /\
  0 <= off /\ 0 < pixels r c /\ off + pixels r c <= fr_sb128w f * fr_sb128h f * 128 * 128 /\
  forall r' c' off', tile r' c' -> earlier r c r' c' -> tile_start_off f r' c' = Ok off' -> off + pixels r c <= off'.
Proof.
  intros r c T. exists (exact_off f r c). destruct (off_bounds f sbw OK r c T) as (A & _ & B).
  split; [apply (tile_start_off_ok f sbw OK r c T)|]. split; [exact A|]. split; [exact B|]. split; [apply (off_total f sbw OK r c T)|].
  intros r' c' off' T' E H. rewrite (tile_start_off_ok f sbw OK r' c' T') in H. injection H as <-. apply (off_order f sbw OK r c r' c' T T' E).
Qed.

(** Hence so are their parts of the buffers for block data (cbi), coefficients (cf)
    and palette indices; [cbi_sz], [cf_sz], [pal_idx_sz]: the allocated sizes (C39).
    A pixel has [size_mul0]/64 entries of cbi, [size_mul0]/2 bytes of coefficients
    (the double for high bit depth), and [size_mul1]/8 bytes of palette indices. *)
Theorem C38_parts : forall r c off, tile r c -> tile_start_off f r c = Ok off ->
  let n := pixels r c in
  let m0 := size_mul0 (fr_layout f) in
  let m1 := size_mul1 (fr_layout f) in
  (0 <= cbi_off f off /\ cbi_off f off + n * m0 / 64 <= cbi_sz (num_sb128 f * m0)) /\
  (0 <= cf_off f off /\ cf_off f off + n * m0 * 2 ^ fr_hbd f / 2 <= cf_sz (num_sb128 f * m0 * 2 ^ fr_hbd f)) /\
  (0 <= pal_idx_off f off /\ pal_idx_off f off + n * m1 / 8 <= pal_idx_sz (num_sb128 f * m1)) /\
  forall r' c' off', tile r' c' -> earlier r c r' c' -> tile_start_off f r' c' = Ok off' ->
  cbi_off f off + n * m0 / 64 <= cbi_off f off' /\
  cf_off f off + n * m0 * 2 ^ fr_hbd f / 2 <= cf_off f off' /\
  pal_idx_off f off + n * m1 / 8 <= pal_idx_off f off'.
Proof.
  intros r c off T H. rewrite (tile_start_off_ok f sbw OK r c T) in H. injection H as <-. cbv zeta.
  change (pixels r c) with (area f r c).
  rewrite (share_cbi f sbw OK r c T), (share_cf f sbw OK r c T), (share_pal f sbw OK r c T).
  destruct (off_bounds f sbw OK r c T) as (A & _ & B). pose proof (off_total f sbw OK r c T) as D.
  destruct (off_mult f sbw OK r c) as (k & K). destruct (area_mult f sbw OK r c) as (a & AE).
  pose proof (mul0_pos f 0 (fun _ => true)) as M0. pose proof (mul1_pos f 0 (fun _ => true)) as M1. pose proof (ok_hbd _ _ OK) as HB.
  assert (PW : 0 < 2 ^ fr_hbd f) by (apply Z.pow_pos_nonneg; lia).
  fold (cbi_share f (area f r c)) (cf_share f (area f r c)) (pal_idx_share f (area f r c)).
  rewrite K, AE in *. rewrite !cbi_lin, !cf_lin, !pal_lin.
  set (m0 := size_mul0 (fr_layout f)) in *. set (m1 := size_mul1 (fr_layout f)) in *. set (b := 2 ^ fr_hbd f) in *.
  assert (N : k + a <= num_sb128 f * 4) by lia. assert (K0 : 0 <= k) by lia. assert (A0 : 0 < a) by lia.
  assert (S1 : cbi_sz (num_sb128 f * m0) = 64 * (num_sb128 f * 4) * m0).
  { unfold cbi_sz. replace (num_sb128 f * m0 * 32 * 32) with (64 * (num_sb128 f * 4) * m0 * 4) by ring. apply Z.div_mul. lia. }
  assert (S2 : cf_sz (num_sb128 f * m0 * b) = 2048 * (num_sb128 f * 4) * m0 * b).
  { unfold cf_sz. replace (num_sb128 f * m0 * b * 128 * 128) with (2048 * (num_sb128 f * 4) * m0 * b * 2) by ring. apply Z.div_mul. lia. }
  assert (S3 : pal_idx_sz (num_sb128 f * m1) = 512 * (num_sb128 f * 4) * m1).
  { unfold pal_idx_sz. replace (num_sb128 f * m1 * 128 * 128) with (512 * (num_sb128 f * 4) * m1 * 8) by ring. apply Z.div_mul. lia. }
  assert (MB : 0 < m0 * b) by (apply Z.mul_pos_pos; lia).
  rewrite S1, S2, S3. split; [nia|]. split; [rewrite <- !Z.mul_assoc; generalize dependent (m0 * b); intros; nia|]. split; [nia|].
  intros r' c' off' T' E H. rewrite (tile_start_off_ok f sbw OK r' c' T') in H. injection H as <-.
  pose proof (off_order f sbw OK r c r' c' T T' E) as O.
  rewrite (share_cbi f sbw OK r' c' T'), (share_cf f sbw OK r' c' T'), (share_pal f sbw OK r' c' T').
  destruct (off_mult f sbw OK r' c') as (k' & K'). rewrite K' in *. rewrite cbi_lin, cf_lin, pal_lin. fold m0 m1 b. rewrite K, AE in O.
  assert (L : k + a <= k') by lia. split; [nia|]. split; [|nia].
  replace (2048 * k * m0 * b + 2048 * a * m0 * b) with (2048 * (k + a) * (m0 * b)) by ring.
  replace (2048 * k' * m0 * b) with (2048 * k' * (m0 * b)) by ring. apply Z.mul_le_mono_nonneg_r; lia.
Qed.

(** The same for lowest_pixel, one entry per superblock row of the tile, in a buffer
    of [cols * sbh] entries. *)
Theorem C38_lowest_pixel : exists l, lowest_pixels f = Ok l /\ zlen l = fr_rows f * fr_cols f /\
  forall r c, tile r c -> let p := at_ l (r * fr_cols f + c) in
  0 <= p /\ p + (row (r + 1) - row r) <= fr_cols f * fr_sbh f /\
  forall r' c', tile r' c' -> earlier r c r' c' -> p + (row (r + 1) - row r) <= at_ l (r' * fr_cols f + c').
Proof.
  pose proof (ok_rows _ _ OK) as R. destruct (low_rows_ok f sbw OK (Z.to_nat (fr_rows f)) 0 ltac:(lia) ltac:(lia)) as (l & H & L & A).
  exists l. assert (R0 : rs f 0 = 0) by apply (ok_row_start _ _ OK). rewrite R0, Z.mul_0_l in H. split; [exact H|]. rewrite Z2Nat.id in L by lia. split; [exact L|].
  assert (A' : forall r c, tile r c -> at_ l (r * fr_cols f + c) = low_at f r c).
  { intros r c (T1 & T2). specialize (A r c T1 T2). rewrite Z.sub_0_r in A. exact A. }
  intros r c T. cbv zeta. rewrite (A' r c T). destruct (low_total f sbw OK r c T) as (B1 & B2). split; [exact B1|]. split; [exact B2|].
  intros r' c' T' E. rewrite (A' r' c' T'). apply (low_order f sbw OK r c r' c' T T' E).
Qed.

(** The loop restoration unit that a tile starts from is inside lf.lr_mask, of
    [(sr_w + 127) / 128 * sb128h] entries with four units each. *)
Theorem C38_lr_ref : forall ss_hor d us r c, 0 <= ss_hor <= 1 -> 0 <= d -> 0 <= us -> tile r c ->
  exists o, lr_ref f ss_hor d us r c = Ok o /\
    forall i u, o = Some (i, u) -> 0 <= i < (fr_sr_w f + 127) / 128 * fr_sb128h f /\ 0 <= u < 4.
Proof. exact (lr_ref_ok f sbw OK). Qed.
End C38.

(** Every frame header that is accepted gives such a frame. *)
Theorem C38_frames : forall q h scc s1 s2, seq_wf q -> 0 <= layout (sh_color q) <= 3 -> coded_wf q h -> stride_ok s1 -> stride_ok s2 ->
  exists sbw, frame_ok (frame_of q h scc s1 s2) sbw.
Proof. exact frame_of_ok. Qed.

(** 65536 by 65536 pixels, the largest offset of 64x64 superblocks, 2 by 2 tiles. *)
Definition big : frame := mkFrame 2 2 [0; 1023; 1024] [0; 1023; 1024] 1024 16 512 512 3 1 0 true (65536, 65536) (65536, 65536) false 65536.
Example C38_example : frame_ok big 1024 /\ tile_start_off big 1 1 = Ok (65536 * 65536 - 64 * 64) /\
  tile_start_off big 0 1 = Ok (1023 * 64 * 1023 * 64) /\ lowest_pixels big = Ok [0; 1023; 2046; 2047] /\
  lr_ref big 0 8 6 1 1 = Ok (Some (511 * 512 + 511, 3)).
Proof.
  split; [|repeat split; vm_compute; reflexivity].
  constructor; try (cbn; lia); try (vm_compute; intuition discriminate); try (vm_compute; reflexivity);
  (split; [reflexivity|]; split; [reflexivity|]; split; [reflexivity|]; cbn [big fr_rows fr_cols]; intros i I; assert (i = 0 \/ i = 1) as [->| ->] by lia; vm_compute; reflexivity).
Qed.

Print Assumptions C38_offset.
Print Assumptions C38_parts.
Print Assumptions C38_lowest_pixel.
Print Assumptions C38_lr_ref.
Print Assumptions C38_frames.

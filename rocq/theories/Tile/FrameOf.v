(** The parameters of a frame context that follow from the headers:
    /repo/src/decode.c:3556-3562 dav1d_submit_frame. *)
From Coq Require Import ZArith List Bool Lia.
From Verif Require Import Base.CInt Base.Lemmas Obu.SeqModel Obu.SeqRel Obu.FrameModel Obu.FrameRel Tile.Bufs Tile.BufsProofs.
Import ListNotations.
Open Scope Z_scope.

(** [stride], [sr_stride]: of the pictures that the picture allocator made *)
Definition frame_of (q : seq_hdr) (h : frame_hdr) (scc : bool) (stride sr_stride : Z * Z) : frame :=
  let z := fsz (f_refs h) in
  let t := f_tiling h in
  let bw := Z.shiftl (Z.shiftr (width0 z + 7) 3) 1 in
  let bh := Z.shiftl (Z.shiftr (fheight z + 7) 3) 1 in
  let sb_shift := 4 + sb128 q in
  let sb_step := Z.shiftl 16 (sb128 q) in
  mkFrame (t_rows t) (t_cols t) (t_row_start_sb t) (t_col_start_sb t)
    (Z.shiftr (bh + sb_step - 1) sb_shift) sb_step (Z.shiftr (bw + 31) 5) (Z.shiftr (bh + 31) 5)
    (layout (sh_color q)) (b2z (z2b (hbd (sh_color q)))) (sb128 q) scc stride sr_stride
    (negb (width0 z =? width1 z)) (width1 z).
Definition stride_ok (s : Z * Z) : Prop := fst s <> 0 /\ Z.abs (fst s) < 2 ^ 18 /\ Z.abs (snd s) < 2 ^ 18.

Lemma increasing_at : forall l i, increasing l -> 0 <= i -> i + 1 < zlen l -> at_ l i < at_ l (i + 1).
Proof.
  intros l i H I L. unfold at_. replace (Z.to_nat (i + 1)) with (S (Z.to_nat i)) by lia.
  assert (LN : (S (Z.to_nat i) < length l)%nat) by (unfold zlen in L; lia). revert LN. generalize (Z.to_nat i). clear I L. intros n. revert n.
  induction l as [|a l IH]; intros n LN; [cbn in LN; lia|]. destruct l as [|b l]; [cbn in LN; lia|]. destruct H as [H1 H2].
  destruct n; [exact H1|]. apply (IH H2). cbn in LN |- *. lia.
Qed.
Lemma partition_cuts : forall t l n, partition_of t l -> zlen l = n + 1 -> cuts l n t.
Proof.
  intros t l n (A & B & C & D) L. unfold cuts. split; [exact L|]. split; [|split].
  - destruct l; [cbn in D; lia|]. exact A.
  - rewrite <- B. unfold at_. clear - L D. unfold zlen in L. replace (Z.to_nat n) with (length l - 1)%nat by lia.
    clear. induction l as [|a l IH]; [reflexivity|]. destruct l as [|b l]; [reflexivity|].
    change (last (a :: b :: l) 0) with (last (b :: l) 0). rewrite <- IH. cbn [length]. rewrite !Nat.sub_succ, !Nat.sub_0_r. reflexivity.
  - intros i I. apply increasing_at; [exact C|lia|lia].
Qed.

Lemma dim : forall x, 1 <= x <= 65536 ->
  ((x + 7) / 8 * 2 + 31) / 32 = (x + 127) / 128 /\ 1 <= (x + 127) / 128 <= 512.
Proof. intros x X. split; [|split; [apply Z.div_le_lower_bound; lia|apply Z.lt_succ_r, Z.div_lt_upper_bound; lia]]. Z.to_euclidean_division_equations. lia. Qed.
Lemma dim64 : forall x, 1 <= x <= 65536 -> ((x + 7) / 8 * 2 + 16 - 1) / 16 = (x + 64 - 1) / 64.
Proof. intros x X. Z.to_euclidean_division_equations. lia. Qed.
Lemma dim128 : forall x, 1 <= x <= 65536 -> ((x + 7) / 8 * 2 + 32 - 1) / 32 = (x + 128 - 1) / 128.
Proof. intros x X. Z.to_euclidean_division_equations. lia. Qed.
Lemma sbs64 : forall x, 1 <= x <= 65536 -> 1 <= (x + 64 - 1) / 64 <= 1024 /\ (x + 64 - 1) / 64 * (16 * 4) <= (x + 127) / 128 * 128.
Proof. intros x X. split; [split; [apply Z.div_le_lower_bound; lia|apply Z.lt_succ_r, Z.div_lt_upper_bound; lia]|]. Z.to_euclidean_division_equations. lia. Qed.
Lemma sbs128 : forall x, 1 <= x <= 65536 -> 1 <= (x + 128 - 1) / 128 <= 1024 /\ (x + 128 - 1) / 128 * (32 * 4) <= (x + 127) / 128 * 128.
Proof. intros x X. replace (x + 128 - 1) with (x + 127) by lia. destruct (dim x X). lia. Qed.

Lemma frame_of_ok : forall q h scc s1 s2, seq_wf q -> 0 <= layout (sh_color q) <= 3 -> coded_wf q h -> stride_ok s1 -> stride_ok s2 ->
  exists sbw, frame_ok (frame_of q h scc s1 s2) sbw.
Proof.
  intros q h scc s1 s2 Q LY H S1 S2.
  assert (SB : 0 <= sb128 q <= 1) by (unfold seq_wf in Q; tauto).
  destruct H as (_ & RW & _ & TW & _).
  assert (ZW : 1 <= width0 (fsz (f_refs h)) <= width1 (fsz (f_refs h)) /\ width1 (fsz (f_refs h)) <= 65536 /\ 1 <= fheight (fsz (f_refs h)) <= 65536).
  { unfold refs_wf in RW. unfold fsize_wf in RW. tauto. }
  destruct ZW as (W0 & W1 & HH). pose proof (proj2 W0) as HW01.
  unfold tiling_wf in TW. destruct TW as (PC & PR & LC & LR & C & R & _).
  set (w0 := width0 (fsz (f_refs h))) in *. set (w1 := width1 (fsz (f_refs h))) in *. set (hh := fheight (fsz (f_refs h))) in *.
  exists ((w0 + 64 * 2 ^ sb128 q - 1) / (64 * 2 ^ sb128 q)).
  assert (HB : 0 <= b2z (z2b (hbd (sh_color q))) <= 1) by (destruct (z2b _); cbn; lia).
  assert (BH : forall x, Z.shiftl (Z.shiftr (x + 7) 3) 1 = (x + 7) / 8 * 2) by (intros; rewrite Z.shiftr_div_pow2, Z.shiftl_mul_pow2 by lia; reflexivity).
  unfold frame_of. rewrite !BH. fold w0 w1 hh. rewrite (Z.shiftl_mul_pow2 16), !Z.shiftr_div_pow2 by lia. change (2 ^ 5) with 32.
  assert (E : sb128 q = 0 \/ sb128 q = 1) by lia.
  assert (W0' : 1 <= w0 <= 65536) by lia. clear W0. pose proof (dim w0 W0') as [DW1 DW2]. pose proof (dim hh HH) as [DH1 DH2].
  assert (SH : ((hh + 7) / 8 * 2 + 16 * 2 ^ sb128 q - 1) / 2 ^ (4 + sb128 q) = (hh + 64 * 2 ^ sb128 q - 1) / (64 * 2 ^ sb128 q)).
  { destruct E as [-> | ->]; [apply dim64|apply dim128]; exact HH. }
  assert (SS : forall x, 1 <= x <= 65536 -> 1 <= (x + 64 * 2 ^ sb128 q - 1) / (64 * 2 ^ sb128 q) <= 1024 /\
                (x + 64 * 2 ^ sb128 q - 1) / (64 * 2 ^ sb128 q) * (16 * 2 ^ sb128 q * 4) <= (x + 127) / 128 * 128).
  { intros x X. destruct E as [-> | ->]; [apply sbs64|apply sbs128]; exact X. }
  pose proof (SS w0 W0') as [SW1 SW2]. pose proof (SS hh HH) as [SH1 SH2].
  constructor; cbn [fr_rows fr_cols fr_row_start fr_col_start fr_sbh fr_sb_step fr_sb128w fr_sb128h fr_layout fr_hbd fr_sb128 fr_scc fr_stride fr_sr_stride fr_resize fr_sr_w];
    rewrite ?SH, ?DW1, ?DH1; try assumption.
  - apply partition_cuts; assumption.
  - apply partition_cuts; assumption.
  - reflexivity.
  - clear - W1 HW01 W0'. lia.
  - intros N. apply negb_false_iff, Z.eqb_eq in N. rewrite <- N. reflexivity.
Qed.

(** The masks of [dav1d_init_ii_wedge_masks] as the reconstruction reads them are those of the specification. *)
From Coq Require Import ZArith List Bool Lia.
From Verif Require Import Base.CInt Base.Lemmas Base.Loop Mc.Model Mc.MaskModel Mc.Masks Mc.MaskTables Mc.MaskInit.
From Verif Require Mc.Spec Mc.MaskSpec.
Import ListNotations.
Open Scope Z_scope.
Local Open Scope outcome_scope.

Lemma byte_ok : forall m l b col o i v, 0 <= l < 3 -> 0 <= b < N_BS -> 0 <= col < 36 ->
  mget m (inr (l * N_BS + b, col)) = Some o -> mget m (inl (o * 8 + i)) = Some v -> 0 <= o * 8 + i < SIZEOF ->
  (let! o := get_off m l b col in mask_byte m o i) = Ok v.
Proof.
  intros m l b col o i v Hl Hb Hc E1 E2 R. unfold get_off.
  replace ((0 <=? l) && (l <? 3) && (0 <=? b) && (b <? N_BS)) with true by (symmetry; rewrite !andb_true_iff; lia).
  rewrite (rd2_ok (3 * N_BS) 36 (ms_off m) (l * N_BS + b) col o); [|unfold N_BS, BS_8x8, BS_32x32 in *; lia|lia|exact E1].
  cbn [obind]. unfold mask_byte. apply rd1_ok; [exact R|exact E2].
Qed.
Lemma member_addr : forall k a, valid k -> in_member k (inl a) -> 0 <= a < SIZEOF.
Proof. intros k a V R. unfold in_member, range in R. pose proof (members_end k V). pose proof (member_facts k V). lia. Qed.
Lemma has_mask : forall bs k4 k2 k0 m l s n i v, 0 <= bs < N_BS -> valid k4 -> valid k2 -> valid k0 -> 0 <= l < 3 -> s = 0 \/ s = 1 -> 0 <= n < 16 ->
  has (FC bs k4 k2 k0) m l bs (s * 16 + n) i v -> (let! o := get_off m l bs (s * 16 + n) in mask_byte m o i) = Ok v.
Proof.
  intros bs k4 k2 k0 m l s n i v Hb V4 V2 V0 Hl Hs Hn (o & A & B & _ & D).
  apply (byte_ok m l bs (s * 16 + n) o i v Hl Hb); [lia|exact A|exact B|].
  destruct D as [D|[D|[D|(l' & c & E & _)]]]; [exact (member_addr k4 _ V4 D)|exact (member_addr k2 _ V2 D)|exact (member_addr k0 _ V0 D)|discriminate].
Qed.

(** * Wedges *)
Lemma Lum_spec : forall w h bs k4 k2 k0 cb signs n y x, call_okb (w, h, bs, k4, k2, k0, cb, signs) = true -> 0 <= n < 16 ->
  Lum (w / 8) (h / 8) signs (cd cb) (cx cb) (cy cb) n y x = MaskSpec.WedgeMasks w h false n y x.
Proof.
  intros w h bs k4 k2 k0 cb signs n y x C Hn. destruct (call_facts _ _ _ _ _ _ _ _ C) as (Ew & Eh & _ & _ & G). destruct (G n Hn) as (G1 & G2).
  unfold Lum, MaskSpec.WedgeMasks, MaskSpec.wedge_part. cbv zeta. rewrite G1, G2, <- Ew, <- Eh. unfold MM. change (MaskSpec.MASK_MASTER_SIZE / 2) with 32.
  rewrite (Z.mul_comm (cy cb n)), (Z.mul_comm (cx cb n)). set (v := MaskSpec.MasterMask _ _ _).
  destruct (MaskSpec.flipSign w h n), (cd cb n =? 4); cbn [Bool.eqb negb xorb]; lia.
Qed.
Lemma wedge_compl : forall w h n y x, MaskSpec.WedgeMasks w h true n y x = 64 - MaskSpec.WedgeMasks w h false n y x.
Proof. intros. unfold MaskSpec.WedgeMasks. destruct (MaskSpec.flipSign w h n); cbn [Bool.eqb]; lia. Qed.
Lemma compl2 : forall v, 64 - (64 - v) = v.
Proof. intros. lia. Qed.
(** of the chroma planes, the masks for both signs are kept, the second one to be used from the other side *)
Definition plane_mask (W : bool -> Z -> Z -> Z) (sx sy s : bool) (y x : Z) : Z :=
  let v := Spec.mask_at (W s) sx sy y x in if s then 64 - v else v.
Lemma chroma_spec : forall (W : bool -> Z -> Z -> Z) (s : bool) ss y x, (forall y x, W true y x = 64 - W false y x) -> 0 <= ss <= 1 ->
  chroma_val (W false) (b2z s) ss y x = plane_mask W true (ss =? 1) s y x.
Proof.
  intros W s ss y x C Hs. assert (CS : ss = 0 \/ ss = 1) by lia. unfold plane_mask, chroma_val, Spec.mask_at, Spec.Round2.
  destruct CS as [->| ->]; cbn [Z.eqb Pos.eqb]; [change (2 ^ (1 - 1)) with 1; change (2 ^ 1) with 2|change (2 ^ (2 - 1)) with 2; change (2 ^ 2) with 4];
    destruct s; cbn [b2z]; rewrite ?C; repeat match goal with |- context [W false ?a ?b] => let v := fresh "v" in set (v := W false a b); clearbody v end; lia.
Qed.
(** subsampling of the rows of [dav1d_masks.offsets]: 4:4:4, 4:2:2, 4:2:0 *)
Definition lsx (l : Z) : Z := if l =? 0 then 0 else 1.
Definition lsy (l : Z) : Z := if l =? 2 then 1 else 0.
Definition wedge_sizes : list (Z * Z * Z) :=
  [ (32, 32, BS_32x32); (32, 16, BS_32x16); (32, 8, BS_32x8); (16, 32, BS_16x32); (16, 16, BS_16x16); (16, 8, BS_16x8); (8, 32, BS_8x32); (8, 16, BS_8x16); (8, 8, BS_8x8) ].
Lemma sizes_fills : forall w h bs, In (w, h, bs) wedge_sizes -> exists k4 k2 k0 cb signs, In (w, h, bs, k4, k2, k0, cb, signs) fills.
Proof.
  intros w h bs I. assert (E : wedge_sizes = map (fun c : call => let '(w, h, bs, k4, k2, k0, cb, signs) := c in (w, h, bs)) fills) by reflexivity.
  rewrite E in I. apply in_map_iff in I. destruct I as ([[[[[[[w' h'] bs'] k4] k2] k0] cb] signs] & Q & I). injection Q as -> -> ->.
  exists k4, k2, k0, cb, signs. exact I.
Qed.
Lemma wedge_mask_ok : forall m, (forall c, In c fills -> callGood c m) -> forall w h bs l (s : bool) n y x, In (w, h, bs) wedge_sizes -> 0 <= l < 3 -> 0 <= n < 16 ->
  0 <= y < h / 2 ^ lsy l -> 0 <= x < w / 2 ^ lsx l ->
  wedge_mask m l bs (b2z s) n (y * (w / 2 ^ lsx l) + x) = Ok (if l =? 0 then MaskSpec.WedgeMasks w h false n y x
    else plane_mask (fun s => MaskSpec.WedgeMasks w h s n) (lsx l =? 1) (lsy l =? 1) s y x).
Proof.
  intros m G w h bs l s n y x I Hl Hn Hy Hx. destruct (sizes_fills _ _ _ I) as (k4 & k2 & k0 & cb & signs & I').
  specialize (G _ I'). pose proof fills_check as FK. rewrite forallb_forall in FK. pose proof (FK _ I') as C.
  destruct (call_facts _ _ _ _ _ _ _ _ C) as (Ew & Eh & (K4 & K2 & K0) & FO & _). pose proof (fo_bs _ _ _ _ _ _ _ _ _ _ FO) as Hb.
  assert (HS : b2z s = 0 \/ b2z s = 1) by (destruct s; auto). unfold callGood in G. destruct (G n (b2z s) Hn HS) as (G4 & G2 & G0).
  assert (V : forall y x, Lum (w / 8) (h / 8) signs (cd cb) (cx cb) (cy cb) n y x = MaskSpec.WedgeMasks w h false n y x) by (intros; eapply Lum_spec; eassumption).
  assert (VC : forall ss y x, 0 <= ss <= 1 -> chroma_val (Lum (w / 8) (h / 8) signs (cd cb) (cx cb) (cy cb) n) (b2z s) ss y x =
    plane_mask (fun s => MaskSpec.WedgeMasks w h s n) true (ss =? 1) s y x).
  { intros ss y' x' Hss. rewrite <- (chroma_spec (fun s => MaskSpec.WedgeMasks w h s n) s ss y' x'); [|intros; apply wedge_compl|exact Hss].
    unfold chroma_val. rewrite !V. reflexivity. }
  rewrite <- Ew, <- Eh in G4, G2, G0. unfold wedge_mask.
  assert (CL : l = 0 \/ l = 1 \/ l = 2) by lia. destruct CL as [->|[->| ->]]; cbn [lsx lsy Z.eqb Pos.eqb] in *;
    change (2 ^ 0) with 1 in *; change (2 ^ 1) with 2 in *; rewrite ?Z.div_1_r in *.
  - rewrite <- V. apply (has_mask _ k4 k2 k0); unfold valid; try lia. apply G4; assumption.
  - change false with (0 =? 1). rewrite <- VC by lia. apply (has_mask _ k4 k2 k0); unfold valid; try lia. apply G2; assumption.
  - change true with (1 =? 1) at 2. rewrite <- VC by lia. apply (has_mask _ k4 k2 k0); unfold valid; try lia. apply G0; assumption.
Qed.

(** * Inter-intra *)
Definition ii_sizes : list (Z * Z * Z) :=
  [ (32, 32, BS_32x32); (32, 16, BS_32x16); (16, 32, BS_16x32); (16, 16, BS_16x16); (16, 8, BS_16x8); (8, 16, BS_8x16); (8, 8, BS_8x8) ].
(** enum InterIntraPredMode: src/levels.h:246-252 *)
Definition mode_of (mode : Z) : MaskSpec.interintra_mode :=
  if mode =? 0 then MaskSpec.II_DC_PRED else if mode =? 1 then MaskSpec.II_V_PRED else if mode =? 2 then MaskSpec.II_H_PRED else MaskSpec.II_SMOOTH_PRED.
Lemma wt_spec : forall i, 0 <= i < 32 -> wt i = MaskSpec.tab MaskSpec.Ii_Weights_1d (4 * i).
Proof.
  assert (C : forallb (fun n => wt (Z.of_nat n) =? MaskSpec.tab MaskSpec.Ii_Weights_1d (4 * Z.of_nat n)) (seq 0 32) = true) by (vm_compute; reflexivity).
  intros i Hi. rewrite forallb_forall in C. specialize (C (Z.to_nat i)). rewrite in_seq, Z2Nat.id in C by lia. apply Z.eqb_eq, C. lia.
Qed.
Lemma dc_mask_ok : forall m, ii_good m -> forall w h bs l i, In (w, h, bs) ii_sizes -> 0 <= l < 3 -> 0 <= i < 1024 ->
  ii_mask m l bs (INTER_INTRA_BLEND 0) i = Ok 32.
Proof.
  intros m (G1 & G2 & _) w h bs l i I Hl Hi. unfold ii_mask.
  assert (IB : In bs ii_bs) by (change ii_bs with (map (fun c : Z * Z * Z => snd c) ii_sizes); apply (in_map (fun c : Z * Z * Z => snd c) _ (w, h, bs)), I).
  assert (IW : In (l * N_BS + (bs - BS_32x32), 32 + 0, mask_offset (ii_dc, 0)) (dc_writes ++ assign_writes)).
  { apply in_or_app. left. unfold dc_writes. apply in_flat_map. exists l. split; [cbn; lia|]. apply in_map_iff. exists bs. split; [reflexivity|exact IB]. }
  assert (HB : 0 <= bs - BS_32x32 < N_BS).
  { assert (C : forallb (fun b => bet 0 (b - BS_32x32) (N_BS - 1)) ii_bs = true) by reflexivity. rewrite forallb_forall in C. pose proof (bet_ok _ _ _ (C _ IB)). lia. }
  assert (S : size ii_dc = 1024) by reflexivity. assert (V : valid ii_dc) by (unfold valid, ii_dc; lia).
  assert (MO : mask_offset (ii_dc, 0) * 8 = base ii_dc).
  { rewrite mask_offset_eq; unfold addr; cbn [fst snd]; [lia|exact V|lia|]. pose proof (member_facts ii_dc V). lia. }
  apply (byte_ok m l (bs - BS_32x32) (32 + 0) (mask_offset (ii_dc, 0)) i 32 Hl HB); [lia|apply G2; exact IW| |]; rewrite MO.
  - apply G1. exact Hi.
  - pose proof (members_end ii_dc V). pose proof (member_facts ii_dc V). lia.
Qed.
(** the array of a block size and layout has the width of the block and enough rows, and its step is that of the block *)
Definition row_of (l : Z) (c : Z * (Z * Z * Z) * (Z * Z * Z) * (Z * Z * Z)) : Z * Z * Z :=
  let '(bs, r4, r2, r0) := c in if l =? 0 then r4 else if l =? 1 then r2 else r0.
Definition asn_bs (c : Z * (Z * Z * Z) * (Z * Z * Z) * (Z * Z * Z)) : Z := let '(bs, r4, r2, r0) := c in bs.
Definition asn_check (l w h bs : Z) : bool := existsb (fun c => (asn_bs c =? bs) && (let '(k, W, H) := row_of l c in
  (W =? w / 2 ^ lsx l) && (h / 2 ^ lsy l <=? H) && ((W * H) mod 16 =? 0) &&
  existsb (fun b : build => let '(k', W', H', step) := b in (k =? k') && (W =? W') && (H =? H') && (4 * step =? 128 / Z.max (h / 2 ^ lsy l) (w / 2 ^ lsx l))) ii_builds)) ii_assigns.
Lemma asn_checks : forallb (fun c => let '(w, h, bs) := c in forallb (fun l => asn_check l w h bs) [0; 1; 2]) ii_sizes = true.
Proof. vm_compute. reflexivity. Qed.
Lemma asn_find : forall w h bs l, In (w, h, bs) ii_sizes -> 0 <= l < 3 -> exists c k H step, In c ii_assigns /\ asn_bs c = bs /\ row_of l c = (k, w / 2 ^ lsx l, H) /\
  h / 2 ^ lsy l <= H /\ (w / 2 ^ lsx l * H) mod 16 = 0 /\ In (k, w / 2 ^ lsx l, H, step) ii_builds /\ 4 * step = 128 / Z.max (h / 2 ^ lsy l) (w / 2 ^ lsx l).
Proof.
  intros w h bs l I Hl. pose proof asn_checks as C. rewrite forallb_forall in C. specialize (C _ I). cbv beta iota in C. rewrite forallb_forall in C. specialize (C l ltac:(cbn; lia)).
  unfold asn_check in C. apply existsb_exists in C. destruct C as (c & Ic & C). apply andb_prop in C. destruct C as [C1 C]. destruct (row_of l c) as [[k W] H] eqn:R.
  rewrite !andb_true_iff in C. destruct C as [[[C2 C3] C4] C5]. apply existsb_exists in C5. destruct C5 as ([[[k' W'] H'] step] & Ib & C5). rewrite !andb_true_iff in C5.
  destruct C5 as [[[D1 D2] D3] D4]. apply Z.eqb_eq in C1, C2, C4, D1, D2, D3, D4. subst k' W' H' W. exists c, k, H, step. repeat split; try assumption; lia.
Qed.
Lemma asn_write : forall c p l, In c ii_assigns -> 0 <= p < 3 -> 0 <= l < 3 ->
  let '(k, W, H) := row_of l c in In (l * N_BS + (asn_bs c - BS_32x32), 32 + (p + 1), mask_offset (k, p * W * H)) (dc_writes ++ assign_writes).
Proof.
  intros c p l I Hp Hl. assert (X : forall t, In t (assign_writes1 p c) -> In t (dc_writes ++ assign_writes)).
  { intros t T. apply in_or_app. right. unfold assign_writes. apply in_flat_map. exists p. split; [cbn; lia|]. apply in_flat_map. exists c. split; [exact I|exact T]. }
  destruct c as [[[bs [[k4 w4] h4]] [[k2 w2] h2]] [[k0 w0] h0]]. clear I. revert X. generalize (dc_writes ++ assign_writes) as D. intros D X.
  unfold row_of, asn_bs. assert (CL : l = 0 \/ l = 1 \/ l = 2) by lia. destruct CL as [->|[->| ->]]; cbn [Z.eqb Pos.eqb]; apply X; cbn [assign_writes1 In]; tauto.
Qed.
Lemma prod32 : forall a b, 1 <= a -> 1 <= b -> a * b <= 32 -> a <= 32.
Proof. intros. nia. Qed.
Lemma flat1024 : forall y x w h, 0 <= y < h -> 0 <= x < w -> w <= 32 -> h <= 32 -> 0 <= y * w + x < 1024.
Proof. intros. nia. Qed.
Lemma step32 : forall y H step, 0 <= y < H -> 1 <= step -> H * step <= 32 -> 0 <= y * step < 32.
Proof. intros. nia. Qed.
Lemma ii_mask_ok : forall m, ii_good m -> forall w h bs l mode y x, In (w, h, bs) ii_sizes -> 0 <= l < 3 -> 0 <= mode < 4 ->
  0 <= y < h / 2 ^ lsy l -> 0 <= x < w / 2 ^ lsx l ->
  ii_mask m l bs (INTER_INTRA_BLEND mode) (y * (w / 2 ^ lsx l) + x) = Ok (MaskSpec.intra_variant_mask (w / 2 ^ lsx l) (h / 2 ^ lsy l) (mode_of mode) y x).
Proof.
  intros m G w h bs l mode y x I Hl Hm Hy Hx. destruct (asn_find w h bs l I Hl) as (c & k & H & step & Ic & Eb & R & LH & A16 & Ib & St).
  set (pw := w / 2 ^ lsx l) in *. set (ph := h / 2 ^ lsy l) in *.
  clearbody pw ph. unfold MaskSpec.intra_variant_mask. cbv zeta. set (sc := 128 / Z.max ph pw) in *. clearbody sc.
  assert (B16 : exists q, pw * H = 16 * q) by (exists (pw * H / 16); apply Z.div_exact; [lia|exact A16]). clear A16. destruct B16 as (q & A16).
  pose proof builds_check as BC. apply andb_prop in BC. destruct BC as [BC _]. rewrite forallb_forall in BC. specialize (BC _ Ib). pose proof BC as BC'.
  unfold build_okb in BC. rewrite !andb_true_iff in BC. destruct BC as [[[[[[C1 C2] C3] C4] C5] C6] C7]. apply bet_ok in C1.
  assert (W32 : pw <= 32) by (apply (prod32 pw step); lia). assert (H32 : H <= 32) by (apply (prod32 H step); lia).
  destruct (Z.eq_dec mode 0) as [->|NZ].
  { apply (dc_mask_ok m G w h bs l); try assumption. apply (flat1024 y x pw H); lia. }
  set (p := mode - 1). assert (Hp : 0 <= p < 3) by lia. pose proof (asn_write c p l Ic Hp Hl) as AW. rewrite R, Eb in AW.
  destruct G as (_ & G2 & G3). specialize (G2 _ _ _ AW). specialize (G3 _ Ib). cbn [bgood] in G3.
  specialize (G3 p y Hp ltac:(lia) x Hx).
  assert (V : valid k) by (unfold valid; lia).
  pose proof (pl_fits k pw H step ltac:(lia) ltac:(lia) ltac:(lia) ltac:(lia) ltac:(lia) ltac:(lia) p y x Hp ltac:(lia) Hx) as PF.
  assert (HB : 0 <= bs - BS_32x32 < N_BS).
  { assert (C : forallb (fun c : Z * Z * Z => bet 0 (snd c - BS_32x32) (N_BS - 1)) ii_sizes = true) by reflexivity. rewrite forallb_forall in C. pose proof (bet_ok _ _ _ (C _ I)) as Q. cbn [snd] in Q. lia. }
  assert (MO : mask_offset (k, p * pw * H) * 8 = base k + p * (pw * H)).
  { rewrite mask_offset_eq; unfold addr; cbn [fst snd]; [lia|exact V| |].
    - unfold pl in PF. pose proof (flat1024 y x pw H ltac:(lia) Hx W32 H32). assert (0 <= p * (pw * H)) by (apply Z.mul_nonneg_nonneg; [lia|apply Z.mul_nonneg_nonneg; lia]). rewrite <- Z.mul_assoc. lia.
    - pose proof (member_facts k V) as (_ & _ & MF & _). rewrite <- (Z.mul_assoc p), A16. clear - MF.
      rewrite (Z.div_mod (base k) 16), MF by lia. replace (16 * (base k / 16) + 0 + p * (16 * q)) with (0 + (2 * (base k / 16) + p * (2 * q)) * 8) by ring. rewrite Z.mod_add by lia. reflexivity. }
  unfold ii_mask. replace (32 + mode) with (32 + (p + 1)) by lia.
  match goal with |- _ = Ok ?v => assert (EV : ii_val p step y x = v) end.
  { unfold ii_val. rewrite <- St. assert (CP : mode = 1 \/ mode = 2 \/ mode = 3) by lia.
    assert (P0 : (p =? 0) = (mode =? 1)) by lia. assert (P1 : (p =? 1) = (mode =? 2)) by lia. rewrite P0, P1. clear P0 P1.
    unfold mode_of. destruct CP as [E|[E|E]]; rewrite E; cbn [Z.eqb Pos.eqb]; pose proof (step32 y H step ltac:(lia) ltac:(lia) ltac:(lia)); pose proof (step32 x pw step ltac:(lia) ltac:(lia) ltac:(lia)).
    - rewrite wt_spec by assumption. f_equal. ring.
    - rewrite wt_spec by assumption. f_equal. ring.
    - rewrite (Z.min_comm x y). pose proof (step32 (Z.min y x) H step ltac:(lia) ltac:(lia) ltac:(lia)). rewrite wt_spec by assumption. f_equal. ring. }
  rewrite <- EV. apply (byte_ok m l (bs - BS_32x32) (32 + (p + 1)) (mask_offset (k, p * pw * H)) (y * pw + x) _ Hl HB); [lia|exact G2| |]; rewrite MO.
  - replace (base k + p * (pw * H) + (y * pw + x)) with (base k + pl pw H p y x) by (unfold pl; lia). exact G3.
  - pose proof (members_end k V). pose proof (member_facts k V). unfold pl in PF. lia.
Qed.

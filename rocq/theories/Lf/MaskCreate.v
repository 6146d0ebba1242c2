(** The masks, levels and contexts that dav1d_create_lf_mask_intra and the chroma part of dav1d_create_lf_mask_inter
    write for a block, and the masks at tile boundaries. *)
From Coq Require Import ZArith List Bool Lia.
From Verif Require Import Base.CInt Base.Lemmas Base.Loop Lf.Model Lf.Strip Lf.Frame Lf.Sbrow Lf.Deblock Lf.MaskModel Lf.MaskBits Lf.MaskBlock.
From Verif Require Lf.MaskSpec.
Import ListNotations.
Open Scope Z_scope.
Local Open Scope outcome_scope.
Local Ltac Zify.zify_post_hook ::= idtac.

(** Facts kept away from the arithmetic *)
Definition kind (uv : bool) (pl : Z) : Prop := uv = negb (pl =? 0).
Definition sub_ok (ss hb : Z) : Prop := (ss = 0 /\ hb = 16) \/ (ss = 1 /\ hb = 8).
Definition sub (ss : Z) : Prop := ss = 0 \/ ss = 1.
Lemma edge_none_inv : forall (uv : bool) hb m x p, edge uv hb m x p = None -> forall i, 0 <= i < n_of uv -> B hb m x i p = false.
Proof.
  intros uv hb m x p E i Hi. unfold edge, sz in E. change (Z.testbit (m x ?i (p / hb)) (p mod hb)) with (B hb m x i p) in E.
  destruct (B hb m x 1 p) eqn:E1; [destruct (negb uv && _) in E; discriminate E|]. destruct (B hb m x 0 p) eqn:E0; [destruct (negb uv && _) in E; discriminate E|].
  destruct uv; cbn [negb andb] in E.
  - assert (C : i = 0 \/ i = 1) by lia. destruct C as [-> | ->]; assumption.
  - destruct (B hb m x 2 p) eqn:E2; [discriminate E|]. assert (C : i = 0 \/ i = 1 \/ i = 2) by lia. destruct C as [-> | [-> | ->]]; assumption.
Qed.
Lemma inb_mod : forall nb nb2 c0 r0 w h c r, 0 < nb -> 0 < nb2 -> c / nb = c0 / nb -> r / nb2 = r0 / nb2 -> inb (c0 mod nb) w (r0 mod nb2) h (c mod nb) (r mod nb2) = inb c0 w r0 h c r.
Proof.
  intros nb nb2 c0 r0 w h c r H1 H2 Ec Er. pose proof (Z.div_mod c nb ltac:(lia)) as A1. pose proof (Z.div_mod c0 nb ltac:(lia)) as A2. pose proof (Z.div_mod r nb2 ltac:(lia)) as A3. pose proof (Z.div_mod r0 nb2 ltac:(lia)) as A4.
  rewrite Ec in A1. rewrite Er in A3. unfold inb. set (k := nb * (c0 / nb)) in *. set (k2 := nb2 * (r0 / nb2)) in *. clearbody k k2.
  f_equal; f_equal.
  - destruct (Z.leb_spec (c0 mod nb) (c mod nb)), (Z.leb_spec c0 c); try reflexivity; lia.
  - destruct (Z.ltb_spec (c mod nb) (c0 mod nb + w)), (Z.ltb_spec c (c0 + w)); try reflexivity; lia.
  - destruct (Z.leb_spec (r0 mod nb2) (r mod nb2)), (Z.leb_spec r0 r); try reflexivity; lia.
  - destruct (Z.ltb_spec (r mod nb2) (r0 mod nb2 + h)), (Z.ltb_spec r (r0 + h)); try reflexivity; lia.
Qed.

(** * One direction of a block: position [c0], size [bs], transforms of size [st] across the edges; [r0], [ba] along them *)
Definition aligned (x b : Z) : Prop := x mod b = 0.
Definition pow_is (b l : Z) : Prop := b = 2 ^ l.
Section DirBlock.
Variables (uv : bool) (pl hb ss nb : Z) (c0 r0 st bs ba lt w h nctx : Z) (ctx : arr) (P : Z -> Z) (skip intra : bool) (m : masks).
Hypothesis Hh : hsize hb.
Hypothesis Hss : sub_ok ss hb.
Hypothesis Hnb : 0 < nb <= 32.
Hypothesis Hlt : 0 <= lt.
Hypothesis Hst : 0 < st.
Hypothesis Hdb : (bs | nb).
Hypothesis Hda : (ba | 2 * hb).
Hypothesis Hc0 : aligned c0 bs.
Hypothesis Hr0 : aligned r0 ba.
Hypothesis Hw : 0 < w <= bs.
Hypothesis Hlen : 0 < h <= ba.
Hypothesis Hn : h <= nctx.
Hypothesis Hspec : forall c prev, 0 <= prev -> c0 <= c < c0 + bs -> MaskSpec.edge pl c st bs (2 ^ (if c =? c0 then prev else lt)) skip intra =
  if c =? c0 then Some (4 * 2 ^ Z.min (Z.min (cap_of uv) lt) (Z.min (cap_of uv) prev)) else if (negb skip || intra) && multiple st (c - c0) then Some (4 * 2 ^ Z.min (cap_of uv) lt) else None.
Hypothesis Hctx : forall r, r0 <= r < r0 + h -> ctx (r - r0) = Some (Z.min (cap_of uv) (P r)) /\ 0 <= P r.
Hypothesis Hm : mask_ok uv hb m.
Hypothesis Hclear : forall c r, c0 <= c < c0 + w -> r0 <= r < r0 + h -> edge uv hb m (c mod nb) (r mod (2 * hb)) = None.
Lemma inb_true : forall x0 w p0 len x p, inb x0 w p0 len x p = true -> x0 <= x < x0 + w /\ p0 <= p < p0 + len.
Proof.
  clear. intros x0 w p0 len x p Hin. unfold inb in Hin. apply andb_true_iff in Hin. destruct Hin as [H1 H2]. apply andb_true_iff in H1, H2. destruct H1 as [H1 H3], H2 as [H2 H4]. apply Z.leb_le in H1, H2. apply Z.ltb_lt in H3, H4. lia.
Qed.
Lemma dir_block : exists m', dir uv hb ss (c0 mod nb) w st (r0 mod (2 * hb)) h (Z.min (cap_of uv) lt) nctx ctx (negb skip || intra) m = Ok m' /\ mask_ok uv hb m' /\
  forall c r, c / nb = c0 / nb -> r / (2 * hb) = r0 / (2 * hb) ->
    edge uv hb m' (c mod nb) (r mod (2 * hb)) = if inb c0 w r0 h c r
      then MaskSpec.edge pl c st bs (2 ^ (if c =? c0 then P r else lt)) skip intra else edge uv hb m (c mod nb) (r mod (2 * hb)).
Proof.
  pose proof (hsize_pos hb Hh) as Ph. assert (N2 : 0 < 2 * hb) by lia.
  assert (G1 : forall c, c0 <= c < c0 + w -> c mod nb = c0 mod nb + (c - c0)) by (intros c Hc; apply (in_sb nb bs c0 c); [lia|exact Hdb|lia|exact Hc0|lia]).
  assert (G2 : forall r, r0 <= r < r0 + h -> r mod (2 * hb) = r0 mod (2 * hb) + (r - r0)) by (intros r Hr; apply (in_sb (2 * hb) ba r0 r); [lia|exact Hda|lia|exact Hr0|lia]).
  assert (F1 : c0 mod nb + bs <= nb) by (apply (in_sb nb bs c0 c0); [lia|exact Hdb|lia|exact Hc0|lia]).
  assert (F2 : r0 mod (2 * hb) + ba <= 2 * hb) by (apply (in_sb (2 * hb) ba r0 r0); [lia|exact Hda|lia|exact Hr0|lia]).
  pose proof (Z.mod_pos_bound c0 nb ltac:(lia)) as B1. pose proof (Z.mod_pos_bound r0 (2 * hb) ltac:(lia)) as B2.
  assert (MB : forall r, 0 <= r mod (2 * hb) < 2 * hb) by (intros r; apply Z.mod_pos_bound; exact N2).
  assert (IM : forall c r, c / nb = c0 / nb -> r / (2 * hb) = r0 / (2 * hb) -> inb (c0 mod nb) w (r0 mod (2 * hb)) h (c mod nb) (r mod (2 * hb)) = inb c0 w r0 h c r) by (intros c r; apply inb_mod; lia).
  set (x0 := c0 mod nb) in *. set (y0 := r0 mod (2 * hb)) in *. clearbody x0 y0.
  destruct (dir_ok uv hb ss Hh Hss x0 w st y0 h (Z.min (cap_of uv) lt) nctx ctx (fun y => Z.min (cap_of uv) (P (r0 + y))) (negb skip || intra) m) as (m' & E & M & I1); try assumption; try lia.
  - clear - Hlt. destruct uv; lia.
  - intros y Hy. destruct (Hctx (r0 + y) ltac:(lia)) as [C1 C2]. replace (r0 + y - r0) with y in C1 by lia. split; [exact C1|clear - C2; destruct uv; lia].
  - intros x i p Hin Hi. apply edge_none_inv with (uv := uv); [|exact Hi]. apply inb_true in Hin. destruct Hin as [Q1 Q2].
    pose proof (Hclear (c0 + (x - x0)) (r0 + (p - y0)) ltac:(lia) ltac:(lia)) as K. rewrite G1, G2 in K by lia. replace (x0 + (c0 + (x - x0) - c0)) with x in K by lia. replace (y0 + (r0 + (p - y0) - r0)) with p in K by lia. exact K.
  - exists m'. split; [exact E|]. split; [exact M|]. intros c r Ec Er. rewrite I1 by apply MB. rewrite (IM c r Ec Er). clear Ec Er IM I1 E MB.
    destruct (inb c0 w r0 h c r) eqn:Ein; [|reflexivity]. apply inb_true in Ein. destruct Ein as [Q1 Q2].
    rewrite Hspec by (try (apply Hctx; exact Q2); lia). rewrite (G1 c Q1), (G2 r Q2).
    replace (x0 + (c - c0) - x0) with (c - c0) by lia. replace (r0 + (y0 + (r - r0) - y0)) with r by lia.
    replace (x0 + (c - c0) =? x0) with (c =? c0) by (destruct (Z.eqb_spec c c0), (Z.eqb_spec (x0 + (c - c0)) x0); try reflexivity; lia). reflexivity.
Qed.
End DirBlock.
Lemma dir_inv : forall uv hb ss x0 w step p0 len c nctx ctx inner m m', dir uv hb ss x0 w step p0 len c nctx ctx inner m = Ok m' ->
  exists m1, block_edge (n_of uv) (2 ^ hb) (4 - ss) x0 p0 len c nctx ctx m = Ok m1 /\ (if inner then inner_edges (n_of uv) hb x0 w step p0 len c m1 else Ok m1) = Ok m'.
Proof. intros uv hb ss x0 w step p0 len c nctx ctx inner m m' E. unfold dir in E. destruct (block_edge _ _ _ _ _ _ _ _ _ _) as [m1|]; [|discriminate E]. exists m1. split; [reflexivity|exact E]. Qed.

Lemma land31 : forall x, Z.land x 31 = x mod 32.
Proof. intros x. apply (Z.land_ones x 5). lia. Qed.
Lemma pow_divide : forall a b, 0 <= a <= b -> (2 ^ a | 2 ^ b).
Proof. intros a b H. exists (2 ^ (b - a)). rewrite <- Z.pow_add_r by lia. f_equal. lia. Qed.

(** * Luma *)
Section Luma.
Variables (nrows stride bx by_ iw ih lbw lbh bw bh lw lh na nl : Z) (lvl : Z -> Z) (m0 m1 : masks) (v : cache) (ay ly : arr) (PL PA : Z -> Z).
Hypothesis Hlw : 0 <= lw <= lbw /\ lbw <= 5.
Hypothesis Hlh : 0 <= lh <= lbh /\ lbh <= 5.
Hypothesis Hbw : pow_is bw lbw.
Hypothesis Hbh : pow_is bh lbh.
Hypothesis Hbx : 0 <= bx < iw.
Hypothesis Hby : 0 <= by_ < ih.
Hypothesis Hax : aligned bx bw.
Hypothesis Hay : aligned by_ bh.
Hypothesis Hrows : ih <= nrows.
Hypothesis Hstride : iw <= stride.
Notation w := (Z.min (iw - bx) bw). Notation h := (Z.min (ih - by_) bh).
Hypothesis Hna : w <= na.
Hypothesis Hnl : h <= nl.
Hypothesis HL : forall r, by_ <= r < by_ + h -> ly (r - by_) = Some (Z.min 2 (PL r)) /\ 0 <= PL r.
Hypothesis HA : forall c, bx <= c < bx + w -> ay (c - bx) = Some (Z.min 2 (PA c)) /\ 0 <= PA c.
Hypothesis Hm0 : mask_ok false 16 m0.
Hypothesis Hm1 : mask_ok false 16 m1.
Hypothesis Hc0 : forall c r, bx <= c < bx + w -> by_ <= r < by_ + h -> edge false 16 m0 (c mod 32) (r mod 32) = None.
Hypothesis Hc1 : forall c r, bx <= c < bx + w -> by_ <= r < by_ + h -> edge false 16 m1 (r mod 32) (c mod 32) = None.
Lemma luma_intra_ok : forall skip, exists m0' m1' v' a' l', create_luma_intra nrows stride bx by_ iw ih bw bh lw lh na nl lvl (m0, m1) v ay ly = Ok (m0', m1', v', a', l') /\
  mask_ok false 16 m0' /\ mask_ok false 16 m1' /\
  (forall c r, c / 32 = bx / 32 -> r / 32 = by_ / 32 -> edge false 16 m0' (c mod 32) (r mod 32) =
    if inb bx w by_ h c r then MaskSpec.edge 0 c (2 ^ lw) bw (2 ^ (if c =? bx then PL r else lw)) skip true else edge false 16 m0 (c mod 32) (r mod 32)) /\
  (forall c r, c / 32 = bx / 32 -> r / 32 = by_ / 32 -> edge false 16 m1' (r mod 32) (c mod 32) =
    if inb bx w by_ h c r then MaskSpec.edge 0 r (2 ^ lh) bh (2 ^ (if r =? by_ then PA c else lh)) skip true else edge false 16 m1 (r mod 32) (c mod 32)) /\
  (forall r c i, v' r c i = if inb bx w by_ h c r && ((i =? 0) || (i =? 1)) then Some (lvl i) else v r c i) /\
  (forall j, a' j = if (0 <=? j) && (j <? w) then Some (Z.min 2 lh) else ay j) /\ (forall j, l' j = if (0 <=? j) && (j <? h) then Some (Z.min 2 lw) else ly j).
Proof.
  intros skip. assert (Q1 : 0 < bw) by (rewrite Hbw; apply Z.pow_pos_nonneg; lia). assert (Q2 : 0 < bh) by (rewrite Hbh; apply Z.pow_pos_nonneg; lia).
  unfold create_luma_intra. rewrite !land31. destruct (Z.eqb_spec w 0); [lia|]. destruct (Z.eqb_spec h 0); [lia|]. cbn [negb andb].
  destruct (fill_cache_ok nrows stride by_ bx h w 0 (lvl 0) 1 (lvl 1) v) as (v' & Ev & Iv); try lia. rewrite Ev. cbn [obind].
  assert (S16 : hsize 16) by (right; reflexivity). assert (SS : sub_ok 0 16) by (left; split; reflexivity).
  assert (D1 : (bw | 32)) by (rewrite Hbw; apply (pow_divide _ 5); lia). assert (D2 : (bh | 32)) by (rewrite Hbh; apply (pow_divide _ 5); lia).
  assert (T1 : 0 < 2 ^ lw) by (apply Z.pow_pos_nonneg; lia). assert (T2 : 0 < 2 ^ lh) by (apply Z.pow_pos_nonneg; lia).
  assert (W1 : 0 < w <= bw) by lia. assert (W2 : 0 < h <= bh) by lia.
  destruct (dir_block false 0 16 0 32 bx by_ (2 ^ lw) bw bh lw w h nl ly PL skip true m0 S16 SS) as (m0' & E0 & M0 & I0); try assumption; try (clear - Hlw; lia).
  { intros c prev Hp Hc. rewrite Hbw in Hc |- *. apply (dir_spec false 0 lw lbw bx c prev skip true); [reflexivity|apply Hlw|exact Hp|rewrite <- Hbw; exact Hax|exact Hc]. }
  destruct (dir_block false 0 16 0 32 by_ bx (2 ^ lh) bh bw lh h w na ay PA skip true m1 S16 SS) as (m1' & E1 & M1 & I1); try assumption; try (clear - Hlh; lia).
  { intros c prev Hp Hc. rewrite Hbh in Hc |- *. apply (dir_spec false 0 lh lbh by_ c prev skip true); [reflexivity|apply Hlh|exact Hp|rewrite <- Hbh; exact Hay|exact Hc]. }
  { intros c r H1 H2. apply Hc1; assumption. }
  rewrite orb_true_r in E0, E1. destruct (dir_inv _ _ _ _ _ _ _ _ _ _ _ _ _ _ E0) as (k0 & A0 & B0). destruct (dir_inv _ _ _ _ _ _ _ _ _ _ _ _ _ _ E1) as (k1 & A1 & B1). cbv iota in *.
  unfold mask_edges_intra. cbn [fst snd]. change 0x10000 with (2 ^ 16). change (4 - 0) with 4 in *. change (2 * 16) with 32 in *. rewrite A0. cbn [obind]. rewrite A1. cbn [obind]. rewrite B0. cbn [obind]. rewrite B1. cbn [obind].
  rewrite !memset1_ok by (clear - W1 W2 Hna Hnl; lia). cbn [obind].
  exists m0', m1', v', (fill1 ay 0 w (Z.min 2 lh)), (fill1 ly 0 h (Z.min 2 lw)). split; [reflexivity|]. split; [exact M0|]. split; [exact M1|]. split; [exact I0|]. split; [|split; [|split]].
  - intros c r Hc Hr. rewrite (I1 r c Hr Hc). replace (inb by_ h bx w r c) with (inb bx w by_ h c r) by (unfold inb; apply andb_comm). reflexivity.
  - intros r c i. rewrite Iv. destruct (inb bx w by_ h c r); cbn [andb]; [|reflexivity]. destruct (Z.eqb_spec i 0) as [->|]; [reflexivity|]. destruct (Z.eqb_spec i 1) as [->|]; reflexivity.
  - intros j. unfold fill1. reflexivity.
  - intros j. unfold fill1. reflexivity.
Qed.
End Luma.

(** * Chroma *)
(** The exponent of the size of a block in a plane with subsampling [ss] *)
Definition cl (l ss : Z) : Z := Z.max 0 (l - ss).
Lemma half_hss : forall ss, ss = 0 \/ ss = 1 -> (ss = 0 /\ half ss = 16) \/ (ss = 1 /\ half ss = 8).
Proof. intros ss [->| ->]; [left|right]; split; reflexivity. Qed.
Lemma cl_eq : forall l ss, ss = 0 \/ ss = 1 -> 0 <= l -> Z.shiftr (2 ^ l + ss) ss = 2 ^ cl l ss.
Proof.
  intros l ss [->| ->] Hl; unfold cl.
  - rewrite Z.shiftr_0_r, Z.add_0_r, Z.sub_0_r, Z.max_r by lia. reflexivity.
  - rewrite Z.shiftr_div_pow2 by lia. change (2 ^ 1) with 2. destruct (Z.eq_dec l 0) as [->|N]; [reflexivity|]. rewrite Z.max_r by lia. replace l with (l - 1 + 1) at 1 by lia. rewrite Z.pow_add_r by lia. change (2 ^ 1) with 2.
    symmetry. apply (Z.div_unique _ 2 _ 1); lia.
Qed.
Lemma cl_nb : forall l ss, ss = 0 \/ ss = 1 -> 0 <= l <= 5 -> (2 ^ cl l ss | 2 * half ss) /\ 0 <= cl l ss.
Proof.
  intros l ss H Hl. assert (E : 2 * half ss = 2 ^ (5 - ss)) by (destruct H as [->| ->]; reflexivity). rewrite E. unfold cl. split; [apply pow_divide; destruct H as [->| ->]; lia|lia].
Qed.
Lemma cl_mod : forall l ss x, ss = 0 \/ ss = 1 -> 0 <= l -> x mod 2 ^ l = 0 -> Z.shiftr x ss mod 2 ^ cl l ss = 0.
Proof.
  intros l ss x [->| ->] Hl Hx; unfold cl.
  - rewrite Z.shiftr_0_r, Z.sub_0_r, Z.max_r by lia. exact Hx.
  - destruct (Z.eq_dec l 0) as [->|N]; [apply Z.mod_1_r|]. rewrite Z.max_r by lia. rewrite Z.shiftr_div_pow2 by lia. change (2 ^ 1) with 2. pose proof (Z.div_mod x (2 ^ l) ltac:(pose proof (Z.pow_pos_nonneg 2 l); lia)) as D. rewrite Hx, Z.add_0_r in D.
    replace (2 ^ l) with (2 * 2 ^ (l - 1)) in D at 1 by (rewrite <- (Z.pow_1_r 2) at 1; rewrite <- Z.pow_add_r by lia; f_equal; lia). rewrite D. rewrite <- Z.mul_assoc, (Z.mul_comm 2), Z.div_mul by lia. rewrite Z.mul_comm. apply Z.mod_mul. pose proof (Z.pow_pos_nonneg 2 (l - 1)). lia.
Qed.
Local Ltac Zify.zify_post_hook ::= Z.div_mod_to_equations.
Lemma mod_shift : forall ss x, ss = 0 \/ ss = 1 -> Z.shiftr (Z.land x 31) ss = Z.shiftr x ss mod (2 * half ss).
Proof.
  intros ss x H. rewrite land31. destruct H as [->| ->]; rewrite ?Z.shiftr_0_r; [reflexivity|]. change (2 * half 1) with 16. rewrite !Z.shiftr_div_pow2 by lia. change (2 ^ 1) with 2. lia.
Qed.
Lemma shift_lt : forall ss x W, ss = 0 \/ ss = 1 -> 0 <= x < W -> 0 <= Z.shiftr x ss < Z.shiftr (W + ss) ss.
Proof. intros ss x W H Hx. rewrite !Z.shiftr_div_pow2 by (destruct H as [->| ->]; lia). destruct H as [->| ->]; [change (2 ^ 0) with 1|change (2 ^ 1) with 2]; lia. Qed.
Local Ltac Zify.zify_post_hook ::= idtac.

Lemma cap_uv : forall l, 0 <= l -> b2z (negb (l =? 0)) = Z.min 1 l.
Proof. intros l Hl. destruct (Z.eqb_spec l 0); cbn [negb b2z]; lia. Qed.
Lemma min_pos : forall x W b, 0 <= x < W -> 0 < b -> 0 < Z.min (W - x) b <= b /\ x + Z.min (W - x) b <= W.
Proof. intros. lia. Qed.
Section Chroma.
Variables (pl nrows stride bx by_ iw ih lbw lbh bw bh lw lh ssh ssv na nl : Z) (lvl : Z -> Z) (m0 m1 : masks) (v : cache) (au lu : arr) (PL PA : Z -> Z).
Hypothesis Hpl : pl <> 0.
Hypothesis Hv : sub ssv.
Hypothesis Hh : sub ssh.
Hypothesis Hlbw : 0 <= lbw <= 5.
Hypothesis Hlbh : 0 <= lbh <= 5.
Hypothesis Hlw : 0 <= lw <= cl lbw ssh.
Hypothesis Hlh : 0 <= lh <= cl lbh ssv.
Hypothesis Hbw : pow_is bw (cl lbw ssh).
Hypothesis Hbh : pow_is bh (cl lbh ssv).
Hypothesis Hbx : 0 <= bx < iw.
Hypothesis Hby : 0 <= by_ < ih.
Hypothesis Hax : aligned bx (2 ^ lbw).
Hypothesis Hay : aligned by_ (2 ^ lbh).
Notation cx := (Z.shiftr bx ssh). Notation cy := (Z.shiftr by_ ssv).
Notation W := (Z.shiftr (iw + ssh) ssh). Notation H := (Z.shiftr (ih + ssv) ssv).
Hypothesis Hrows : H <= nrows.
Hypothesis Hstride : W <= stride.
Notation w := (Z.min (W - cx) bw). Notation h := (Z.min (H - cy) bh).
Notation hv := (half ssv). Notation hh := (half ssh).
Hypothesis Hna : w <= na.
Hypothesis Hnl : h <= nl.
Hypothesis HL : forall r, cy <= r < cy + h -> lu (r - cy) = Some (Z.min 1 (PL r)) /\ 0 <= PL r.
Hypothesis HA : forall c, cx <= c < cx + w -> au (c - cx) = Some (Z.min 1 (PA c)) /\ 0 <= PA c.
Hypothesis Hm0 : mask_ok true hv m0.
Hypothesis Hm1 : mask_ok true hh m1.
Hypothesis Hc0 : forall c r, cx <= c < cx + w -> cy <= r < cy + h -> edge true hv m0 (c mod (2 * hh)) (r mod (2 * hv)) = None.
Hypothesis Hc1 : forall c r, cx <= c < cx + w -> cy <= r < cy + h -> edge true hh m1 (r mod (2 * hv)) (c mod (2 * hh)) = None.
Lemma chroma_ok : forall skip intra, exists m0' m1' v' a' l', create_chroma nrows stride bx by_ iw ih (2 ^ lbw) (2 ^ lbh) (skip && negb intra) lw lh ssh ssv na nl lvl (m0, m1) v au lu = Ok (m0', m1', v', a', l') /\
  mask_ok true hv m0' /\ mask_ok true hh m1' /\
  (forall c r, c / (2 * hh) = cx / (2 * hh) -> r / (2 * hv) = cy / (2 * hv) -> edge true hv m0' (c mod (2 * hh)) (r mod (2 * hv)) =
    if inb cx w cy h c r then MaskSpec.edge pl c (2 ^ lw) bw (2 ^ (if c =? cx then PL r else lw)) skip intra else edge true hv m0 (c mod (2 * hh)) (r mod (2 * hv))) /\
  (forall c r, c / (2 * hh) = cx / (2 * hh) -> r / (2 * hv) = cy / (2 * hv) -> edge true hh m1' (r mod (2 * hv)) (c mod (2 * hh)) =
    if inb cx w cy h c r then MaskSpec.edge pl r (2 ^ lh) bh (2 ^ (if r =? cy then PA c else lh)) skip intra else edge true hh m1 (r mod (2 * hv)) (c mod (2 * hh))) /\
  (forall r c i, v' r c i = if inb cx w cy h c r && ((i =? 2) || (i =? 3)) then Some (lvl i) else v r c i) /\
  (forall j, a' j = if (0 <=? j) && (j <? w) then Some (Z.min 1 lh) else au j) /\ (forall j, l' j = if (0 <=? j) && (j <? h) then Some (Z.min 1 lw) else lu j).
Proof.
  intros skip intra. destruct (cl_nb lbw ssh Hh Hlbw) as [D1 G1]. destruct (cl_nb lbh ssv Hv Hlbh) as [D2 G2].
  rewrite <- Hbw in D1. rewrite <- Hbh in D2. assert (Q1 : 0 < bw) by (rewrite Hbw; apply Z.pow_pos_nonneg; [reflexivity|assumption]). assert (Q2 : 0 < bh) by (rewrite Hbh; apply Z.pow_pos_nonneg; [reflexivity|assumption]).
  pose proof (shift_lt ssh bx iw Hh Hbx) as R1. pose proof (shift_lt ssv by_ ih Hv Hby) as R2.
  pose proof (hsize_pos _ (half_ok ssh Hh)) as Ph. pose proof (hsize_pos _ (half_ok ssv Hv)) as Pv.
  destruct (min_pos _ _ _ R1 Q1) as [W1 V1]. destruct (min_pos _ _ _ R2 Q2) as [W2 V2]. assert (Z1 : 0 < 2 * hh <= 32) by (clear - Ph; lia). assert (Z2 : 0 < 2 * hv <= 32) by (clear - Pv; lia).
  unfold create_chroma. rewrite (cl_eq lbw ssh Hh (proj1 Hlbw)), (cl_eq lbh ssv Hv (proj1 Hlbh)), <- Hbw, <- Hbh. rewrite !mod_shift by assumption. destruct (Z.eqb_spec w 0) as [N|_]; [clear - N W1; lia|]. destruct (Z.eqb_spec h 0) as [N|_]; [clear - N W2; lia|]. cbn [orb].
  destruct (fill_cache_ok nrows stride cy cx h w 2 (lvl 2) 3 (lvl 3) v) as (v' & Ev & Iv); try (clear - R1 R2 W1 W2 V1 V2 Hrows Hstride; lia). rewrite Ev. cbn [obind].
  assert (Up : true = negb (pl =? 0)) by (destruct (Z.eqb_spec pl 0); [contradiction|reflexivity]).
  assert (T1 : 0 < 2 ^ lw) by (apply Z.pow_pos_nonneg; [reflexivity|apply Hlw]). assert (T2 : 0 < 2 ^ lh) by (apply Z.pow_pos_nonneg; [reflexivity|apply Hlh]).
  assert (A1 : aligned cx bw) by (unfold aligned; rewrite Hbw; apply cl_mod; [exact Hh|apply Hlbw|exact Hax]). assert (A2 : aligned cy bh) by (unfold aligned; rewrite Hbh; apply cl_mod; [exact Hv|apply Hlbh|exact Hay]).
  destruct (dir_block true pl hv ssv (2 * hh) cx cy (2 ^ lw) bw bh lw w h nl lu PL skip intra m0 (half_ok ssv Hv) (half_hss ssv Hv)) as (m0' & E0 & M0 & I0); try assumption; try (clear - Hlw; lia).
  { intros c prev Hp Hc. rewrite Hbw in Hc |- *. apply (dir_spec true pl lw (cl lbw ssh) cx c prev skip intra); [exact Up|exact Hlw|exact Hp|rewrite <- Hbw; exact A1|exact Hc]. }
  destruct (dir_block true pl hh ssh (2 * hv) cy cx (2 ^ lh) bh bw lh h w na au PA skip intra m1 (half_ok ssh Hh) (half_hss ssh Hh)) as (m1' & E1 & M1 & I1); try assumption; try (clear - Hlh; lia).
  { intros c prev Hp Hc. rewrite Hbh in Hc |- *. apply (dir_spec true pl lh (cl lbh ssv) cy c prev skip intra); [exact Up|exact Hlh|exact Hp|rewrite <- Hbh; exact A2|exact Hc]. }
  { intros c r H1 H2. apply Hc1; assumption. }
  clear A1 A2.
  destruct (dir_inv _ _ _ _ _ _ _ _ _ _ _ _ _ _ E0) as (k0 & A0 & B0). destruct (dir_inv _ _ _ _ _ _ _ _ _ _ _ _ _ _ E1) as (k1 & A1 & B1). cbv iota in A0, A1, B0, B1.
  unfold mask_edges_chroma. cbn [fst snd]. rewrite !half_shift by assumption.
  assert (Sh : forall k, 0 <= k -> Z.shiftl 1 k = 2 ^ k) by (intros k Hk; rewrite Z.shiftl_mul_pow2, Z.mul_1_l by exact Hk; reflexivity). rewrite !Sh by (clear - Ph Pv; lia).
  rewrite !cap_uv by (clear - Hlw Hlh; lia).
  rewrite A0. cbn [obind]. rewrite A1. cbn [obind]. replace (negb (skip && negb intra)) with (negb skip || intra) by (destruct skip, intra; reflexivity).
  assert (Bi : (if negb skip || intra then let! m0 := inner_edges 2 hv (cx mod (2 * hh)) w (2 ^ lw) (cy mod (2 * hv)) h (Z.min 1 lw) k0 in
      let! m1 := inner_edges 2 hh (cy mod (2 * hv)) h (2 ^ lh) (cx mod (2 * hh)) w (Z.min 1 lh) k1 in Ok (m0, m1) else Ok (k0, k1)) = Ok (m0', m1')).
  { destruct (negb skip || intra); [rewrite B0; cbn [obind]; rewrite B1; reflexivity|]. injection B0 as <-. injection B1 as <-. reflexivity. }
  rewrite Bi. cbn [obind fst snd]. rewrite !memset1_ok by (clear - W1 W2 Hna Hnl; lia). cbn [obind].
  exists m0', m1', v', (fill1 au 0 w (Z.min 1 lh)), (fill1 lu 0 h (Z.min 1 lw)). split; [reflexivity|]. split; [exact M0|]. split; [exact M1|]. split; [exact I0|]. split; [|split; [|split]].
  - intros c r Hc Hr. rewrite (I1 r c Hr Hc). replace (inb cy h cx w r c) with (inb cx w cy h c r) by (unfold inb; apply andb_comm). reflexivity.
  - intros r c i. rewrite Iv. destruct (inb cx w cy h c r); cbn [andb]; [|reflexivity]. destruct (Z.eqb_spec i 2) as [->|]; [reflexivity|]. destruct (Z.eqb_spec i 3) as [->|]; reflexivity.
  - intros j. unfold fill1. reflexivity.
  - intros j. unfold fill1. reflexivity.
Qed.
End Chroma.

(** The masks of a block, and at tile boundaries. *)
From Coq Require Import ZArith List Bool Lia.
From Verif Require Import Base.CInt Base.Lemmas Base.Loop Lf.Model Lf.Strip Lf.Frame Lf.Sbrow Lf.MaskModel Lf.MaskBits.
From Verif Require Lf.MaskSpec.
Import ListNotations.
Open Scope Z_scope.
Local Open Scope outcome_scope.
Local Ltac Zify.zify_post_hook ::= idtac.

Notation n_of uv := (if (uv : bool) then 2 else 3).
Notation cap_of uv := (if (uv : bool) then 1 else 2).

Lemma edge_one : forall (uv : bool) hb m x p j, 0 <= j < n_of uv -> (forall i, 0 <= i < n_of uv -> B hb m x i p = (i =? j)) -> edge uv hb m x p = Some (4 * 2 ^ j).
Proof.
  intros uv hb m x p j Hj E. unfold edge, sz. change (Z.testbit (m x ?i (p / hb)) (p mod hb)) with (B hb m x i p). rewrite (E 1), (E 0) by (destruct uv; lia).
  destruct uv; cbn [negb andb].
  - assert (C : j = 0 \/ j = 1) by lia. destruct C as [-> | ->]; reflexivity.
  - rewrite (E 2) by lia. assert (C : j = 0 \/ j = 1 \/ j = 2) by lia. destruct C as [-> | [-> | ->]]; reflexivity.
Qed.
Lemma edge_none : forall (uv : bool) hb m x p, (forall i, 0 <= i < n_of uv -> B hb m x i p = false) -> edge uv hb m x p = None.
Proof. intros uv hb m x p E. unfold edge. apply sz_none. exact E. Qed.
Lemma edge_same : forall (uv : bool) hb m m' x p, (forall i, 0 <= i < n_of uv -> B hb m' x i p = B hb m x i p) -> edge uv hb m' x p = edge uv hb m x p.
Proof. intros uv hb m m' x p E. unfold edge. apply sz_ext. exact E. Qed.

(** * One direction: the first column of the block, then the columns of its transforms *)
Section Dir.
Variables (uv : bool) (hb ss : Z).
Hypothesis Hh : hsize hb.
Hypothesis Hss : (ss = 0 /\ hb = 16) \/ (ss = 1 /\ hb = 8).
Notation n := (n_of uv).
Definition dir (x0 w step p0 len c nctx : Z) (ctx : arr) (inner : bool) (m : masks) : outcome masks :=
  let! m := block_edge n (2 ^ hb) (4 - ss) x0 p0 len c nctx ctx m in
  if inner then inner_edges n hb x0 w step p0 len c m else Ok m.
Definition inb (x0 w p0 len x p : Z) : bool := ((x0 <=? x) && (x <? x0 + w)) && ((p0 <=? p) && (p <? p0 + len)).
Lemma dir_ok : forall x0 w step p0 len c nctx ctx cv inner m, mask_ok uv hb m -> 0 <= x0 -> 0 < w -> x0 + w <= 32 -> 0 < step -> 0 <= p0 -> 0 < len -> p0 + len <= 2 * hb -> len <= nctx -> 0 <= c < n ->
  (forall y, 0 <= y < len -> ctx y = Some (cv y) /\ 0 <= cv y) ->
  (forall x i p, inb x0 w p0 len x p = true -> 0 <= i < n -> B hb m x i p = false) ->
  exists m', dir x0 w step p0 len c nctx ctx inner m = Ok m' /\ mask_ok uv hb m' /\ forall x p, 0 <= p < 2 * hb ->
    edge uv hb m' x p = if inb x0 w p0 len x p then
        if x =? x0 then Some (4 * 2 ^ Z.min c (cv (p - p0))) else if inner && multiple step (x - x0) then Some (4 * 2 ^ c) else None
      else edge uv hb m x p.
Proof.
  intros x0 w step p0 len c nctx ctx cv inner m M Hx0 Hw Hxw Hst Hp0 Hlen Hfit Hn Hc Hcv Hclr. unfold dir.
  destruct (block_edge_ok uv hb Hh ss Hss x0 p0 len c nctx ctx cv m M ltac:(lia) Hp0 ltac:(lia) Hfit Hn Hc Hcv) as (m1 & E1 & M1 & I1). rewrite E1. cbn [obind].
  assert (K : exists m', (if inner then inner_edges n hb x0 w step p0 len c m1 else Ok m1) = Ok m' /\ mask_ok uv hb m' /\ forall x i p, 0 <= p < 2 * hb ->
    B hb m' x i p = B hb m1 x i p || (inner && (((x0 <? x) && (x <? x0 + w) && multiple step (x - x0)) && ((p0 <=? p) && (p <? p0 + len)) && (i =? c)))).
  { destruct inner; cbn [andb]; [apply (inner_ok uv hb Hh ss Hss); assumption || lia|]. exists m1. split; [reflexivity|]. split; [exact M1|]. intros. rewrite orb_false_r. reflexivity. }
  destruct K as (m2 & E2 & M2 & I2). exists m2. split; [exact E2|]. split; [exact M2|]. intros x p Hp. unfold inb.
  destruct ((p0 <=? p) && (p <? p0 + len)) eqn:Ep.
  2:{ rewrite andb_false_r. apply edge_same. intros i Hi. rewrite I2, I1 by exact Hp. rewrite Ep, !andb_false_r, !orb_false_r. reflexivity. }
  rewrite andb_true_r. destruct ((x0 <=? x) && (x <? x0 + w)) eqn:Ex.
  - destruct (Z.eqb_spec x x0) as [->|N].
    + assert (0 <= p - p0 < len) as Hr by lia. destruct (Hcv (p - p0) Hr) as [_ C0]. apply edge_one; [lia|]. intros i Hi. rewrite I2, I1 by exact Hp. rewrite Ep, Z.ltb_irrefl, Z.eqb_refl. rewrite Hclr by (try exact Hi; unfold inb; rewrite Ex, Ep; reflexivity). cbn [andb orb]. rewrite andb_false_r, orb_false_r. reflexivity.
    + assert (L : (x0 <? x) && (x <? x0 + w) = true) by lia. assert (Neq : (x =? x0) = false) by (apply Z.eqb_neq; exact N). destruct (inner && multiple step (x - x0)) eqn:Em.
      * apply andb_true_iff in Em. destruct Em as [-> Em]. apply edge_one; [exact Hc|]. intros i Hi. rewrite I2, I1 by exact Hp. rewrite Ep, L, Em, Neq. rewrite Hclr by (try exact Hi; unfold inb; rewrite Ex, Ep; reflexivity). reflexivity.
      * apply edge_none. intros i Hi. rewrite I2, I1 by exact Hp. rewrite Ep, L, Neq. rewrite Hclr by (try exact Hi; unfold inb; rewrite Ex, Ep; reflexivity). cbn [andb orb]. rewrite andb_true_r, andb_assoc, Em. reflexivity.
  - apply edge_same. intros i Hi. rewrite I2, I1 by exact Hp. assert (F1 : (x =? x0) = false) by lia. assert (F2 : (x0 <? x) && (x <? x0 + w) = false) by lia. rewrite F1, F2. cbn [andb]. rewrite andb_false_r, !orb_false_r. reflexivity.
Qed.
End Dir.

(** * Positions *)
Lemma in_sb : forall nb bs c0 c, 0 < bs -> (bs | nb) -> 0 < nb -> c0 mod bs = 0 -> c0 <= c < c0 + bs ->
  c mod nb = c0 mod nb + (c - c0) /\ c0 mod nb + bs <= nb /\ c / nb = c0 / nb.
Proof.
  intros nb bs c0 c Hb [k Hk] Hn H0 Hc. pose proof (Z.div_mod c0 bs ltac:(lia)) as D. rewrite H0 in D. set (q := c0 / bs) in *.
  assert (Hk0 : 0 < k) by (apply (Z.mul_pos_cancel_r k bs Hb); lia).
  assert (E : c0 mod nb = bs * (q mod k)) by (rewrite D, Hk, (Z.mul_comm k), Z.add_0_r; rewrite Z.mul_mod_distr_l by lia; reflexivity).
  pose proof (Z.mod_pos_bound q k Hk0) as Q. assert (F : c0 mod nb + bs <= nb) by (rewrite E, Hk, (Z.mul_comm k); assert (bs * (q mod k) + bs = bs * (q mod k + 1)) as -> by lia; apply Z.mul_le_mono_nonneg_l; lia).
  pose proof (Z.div_mod c0 nb ltac:(lia)) as D2. pose proof (Z.mod_pos_bound c0 nb Hn) as Q2.
  split; [|split; [exact F|]].
  - symmetry. apply (Z.mod_unique c nb (c0 / nb)); lia.
  - symmetry. apply (Z.div_unique c nb (c0 / nb) (c0 mod nb + (c - c0))); lia.
Qed.
Lemma mod_sub : forall bs c0 c, 0 < bs -> c0 mod bs = 0 -> c mod bs = (c - c0) mod bs.
Proof. intros bs c0 c Hb H0. replace c with (c - c0 + (c0 / bs) * bs) at 1 by (pose proof (Z.div_mod c0 bs ltac:(lia)); lia). apply Z.mod_add. lia. Qed.
Lemma filter_size_ok : forall (uv : bool) pl a b, uv = negb (pl =? 0) -> 0 <= a -> 0 <= b ->
  4 * 2 ^ Z.min (Z.min (cap_of uv) a) (Z.min (cap_of uv) b) = MaskSpec.filter_size pl (4 * 2 ^ a) (4 * 2 ^ b).
Proof.
  intros uv pl a b Hu Ha Hb. unfold MaskSpec.filter_size.
  assert (E : forall k, 0 <= k -> 4 * 2 ^ Z.min (Z.min k a) (Z.min k b) = Z.min (4 * 2 ^ k) (Z.min (4 * 2 ^ a) (4 * 2 ^ b))).
  { intros k Hk. assert (P : forall u v, 0 <= u -> 0 <= v -> 4 * 2 ^ Z.min u v = Z.min (4 * 2 ^ u) (4 * 2 ^ v)).
    { intros u v Hu0 Hv0. destruct (Z.le_ge_cases u v) as [L|L]; pose proof (Z.pow_le_mono_r 2 _ _ ltac:(lia) L); [rewrite Z.min_l by exact L|rewrite Z.min_r by exact L]; lia. }
    rewrite P, !P by lia. lia. }
  rewrite Hu. destruct (pl =? 0); cbn [negb]; rewrite E by lia; reflexivity.
Qed.
Lemma dir_spec : forall (uv : bool) pl lt lb c0 c prev (skip intra : bool), uv = negb (pl =? 0) -> 0 <= lt <= lb -> 0 <= prev -> c0 mod 2 ^ lb = 0 -> c0 <= c < c0 + 2 ^ lb ->
  MaskSpec.edge pl c (2 ^ lt) (2 ^ lb) (2 ^ (if c =? c0 then prev else lt)) skip intra =
  if c =? c0 then Some (4 * 2 ^ Z.min (Z.min (cap_of uv) lt) (Z.min (cap_of uv) prev)) else if (negb skip || intra) && multiple (2 ^ lt) (c - c0) then Some (4 * 2 ^ Z.min (cap_of uv) lt) else None.
Proof.
  intros uv pl lt lb c0 c prev skip intra Hu Ht Hp H0 Hc. assert (P1 : 0 < 2 ^ lt) by (apply Z.pow_pos_nonneg; lia). assert (P2 : 0 < 2 ^ lb) by (apply Z.pow_pos_nonneg; lia).
  assert (H1 : c0 mod 2 ^ lt = 0).
  { apply Z.mod_divide; [lia|]. apply (Z.divide_trans _ (2 ^ lb)); [exists (2 ^ (lb - lt)); rewrite <- Z.pow_add_r by lia; f_equal; lia|]. apply Z.mod_divide; [lia|exact H0]. }
  unfold MaskSpec.edge, multiple. rewrite (mod_sub (2 ^ lt) c0 c P1 H1), (mod_sub (2 ^ lb) c0 c P2 H0), (Z.mod_small (c - c0) (2 ^ lb)) by lia.
  destruct (Z.eqb_spec c c0) as [->|N].
  - rewrite Z.sub_diag, Z.mod_0_l by lia. cbn [Z.eqb andb orb]. rewrite (filter_size_ok uv pl lt prev Hu) by lia. reflexivity.
  - destruct (Z.eqb_spec (c - c0) 0); [lia|]. cbn [orb]. rewrite <- (filter_size_ok uv pl lt lt Hu) by lia. rewrite Z.min_id. rewrite (andb_comm (negb skip || intra)). reflexivity.
Qed.

(** * Levels *)
Lemma fill_cache_ok : forall nrows stride r0 c0 h w i0 b0 i1 b1 v, 0 <= r0 -> 0 <= c0 -> 0 <= h -> 0 <= w -> r0 + h <= nrows -> c0 + w <= stride -> i0 <> i1 ->
  exists v', fill_cache nrows stride r0 c0 h w i0 b0 i1 b1 v = Ok v' /\ forall r c i, v' r c i =
    if inb c0 w r0 h c r && ((i =? i0) || (i =? i1)) then Some (if i =? i0 then b0 else b1) else v r c i.
Proof.
  intros nrows stride r0 c0 h w i0 b0 i1 b1 v Hr Hc Hh Hw Hr1 Hc1 Hi. unfold fill_cache.
  assert (SC : forall v r c i b, 0 <= r < nrows -> 0 <= c < stride -> set_cache nrows stride v r c i b = Ok (fun r' c' i' => if (r' =? r) && (c' =? c) && (i' =? i) then Some b else v r' c' i')).
  { intros v1 r c i b H1 H2. unfold set_cache. destruct (Z.leb_spec 0 r), (Z.ltb_spec r nrows), (Z.leb_spec 0 c), (Z.ltb_spec c stride); try lia. reflexivity. }
  edestruct (for_inv _ (fun y (v' : cache) => forall r c i, v' r c i = if inb c0 w r0 y c r && ((i =? i0) || (i =? i1)) then Some (if i =? i0 then b0 else b1) else v r c i)) as (v' & E & I1); [exact Hh| | |exists v'; split; [exact E|exact I1]].
  - intros r c i. assert (F : inb c0 w r0 0 c r = false) by (unfold inb; destruct (Z.leb_spec r0 r), (Z.ltb_spec r (r0 + 0)); rewrite ?andb_false_r; try reflexivity; lia). rewrite F. reflexivity.
  - intros y v1 Hy I1.
    edestruct (for_inv _ (fun x (v' : cache) => forall r c i, v' r c i = if (inb c0 w r0 y c r || inb c0 x (r0 + y) 1 c r) && ((i =? i0) || (i =? i1)) then Some (if i =? i0 then b0 else b1) else v r c i)) as (v2 & E2 & I2); [exact Hw| | |exists v2; split; [exact E2|]].
    + intros r c i. assert (F : inb c0 0 (r0 + y) 1 c r = false) by (unfold inb; destruct (Z.leb_spec c0 c), (Z.ltb_spec c (c0 + 0)); try reflexivity; lia). rewrite F, orb_false_r. apply I1.
    + intros x v2 Hx I2. cbv beta. rewrite !SC by lia. cbn [obind]. rewrite SC by lia. eexists. split; [reflexivity|]. intros r c i. cbv beta. rewrite I2.
      assert (F : inb c0 (x + 1) (r0 + y) 1 c r = inb c0 x (r0 + y) 1 c r || ((r =? r0 + y) && (c =? c0 + x))) by (unfold inb; clear - Hx; lia). rewrite F, orb_assoc.
      destruct ((r =? r0 + y) && (c =? c0 + x)); cbn [andb]; [|rewrite orb_false_r; reflexivity]. rewrite orb_true_r. cbn [andb].
      destruct (Z.eqb_spec i i1) as [->|N1]; [rewrite orb_true_r; destruct (Z.eqb_spec i1 i0); [congruence|reflexivity]|]. rewrite orb_false_r. destruct (Z.eqb_spec i i0); [reflexivity|]. rewrite andb_false_r. reflexivity.
    + intros r c i. rewrite I2. assert (F : inb c0 w r0 (y + 1) c r = inb c0 w r0 y c r || inb c0 w (r0 + y) 1 c r) by (unfold inb; clear - Hy; lia). rewrite F. reflexivity.
Qed.

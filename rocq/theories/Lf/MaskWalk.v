(** The masks of one direction of the luma of an inter block. *)
From Coq Require Import ZArith List Bool Lia.
From Verif Require Import Base.CInt Base.Lemmas Base.Loop Lf.Model Lf.Strip Lf.Frame Lf.Sbrow Lf.MaskModel Lf.MaskBits Lf.MaskBlock Lf.MaskTile Lf.MaskInterSpec Lf.MaskInterModel Lf.MaskDecomp.
Import ListNotations.
Open Scope Z_scope.
Local Open Scope outcome_scope.
Local Ltac Zify.zify_post_hook ::= idtac.

Notation BB := (B 16).
Lemma h16 : hsize 16. Proof. right. reflexivity. Qed.
Lemma s16 : sub_ok 0 16. Proof. left. split; reflexivity. Qed.
Definition isstart (T : Z -> Z) (z : Z) : bool := multiple (2 ^ T z) z.
Lemma isstart_div : forall T z, 0 <= T z -> isstart T z = true <-> (2 ^ T z | z).
Proof. intros T z H. unfold isstart, multiple. pose proof (pow_pos (T z) H). rewrite Z.eqb_eq. apply Z.mod_divide. lia. Qed.
Definition cap2 (a b : Z) : Z := Z.min (Z.min 2 a) (Z.min 2 b).

Section Line.
Variables (x0 w : Z) (T : Z -> Z) (tx st : Z -> outcome Z).
Hypothesis Hx0 : 0 <= x0.
Hypothesis Hfit : x0 + w <= 32.
Hypothesis T0 : forall z, 0 <= T z.
Hypothesis T1 : forall z d, (2 ^ T z | z) -> 0 <= d < 2 ^ T z -> T (z + d) = T z.
Hypothesis T2 : forall z, (2 ^ T z | z) -> (2 ^ T (z + 2 ^ T z) | z + 2 ^ T z).
Hypothesis Htx : forall z, 0 <= z < w -> tx z = Ok (Z.min 2 (T z)).
Hypothesis Hst : forall z, 0 <= z < w -> (2 ^ T z | z) -> st z = Ok (2 ^ T z).
Lemma between_starts : forall z d, (2 ^ T z | z) -> 0 < d < 2 ^ T z -> isstart T (z + d) = false.
Proof.
  clear Hx0 Hfit Htx Hst x0 w tx st. intros z d H Hd. destruct (isstart T (z + d)) eqn:E; [|reflexivity]. apply isstart_div in E; [|apply T0]. rewrite (T1 z d H) in E by lia. pose proof (only_start (2 ^ T z) z (z + d) ltac:(lia) H E ltac:(lia)). lia.
Qed.
Definition inner_at (x p x' i q : Z) : bool := (q =? p) && ((x0 + x <=? x') && (x' <? x0 + w)) && isstart T (x' - x0) && (i =? cap2 (T (x' - x0)) (T (x' - x0 - 1))).
Lemma walk_ok : forall k x p m, mask_ok false 16 m -> 0 <= p < 32 -> 0 < x -> w - x <= Z.of_nat k -> (2 ^ T x | x) ->
  exists m', walk k x0 w (p / 16) (2 ^ (p mod 16)) tx st x (Z.min 2 (T (x - 1))) m = Ok m' /\ mask_ok false 16 m' /\
    forall x' i q, 0 <= q < 32 -> BB m' x' i q = BB m x' i q || inner_at x p x' i q.
Proof.
  induction k as [|k IH]; intros x p m M Hp Hx Hk Hs; cbn [walk].
  - destruct (Z.ltb_spec x w); [lia|]. exists m. split; [reflexivity|]. split; [exact M|]. intros x' i q Hq. unfold inner_at. destruct (Z.leb_spec (x0 + x) x'), (Z.ltb_spec x' (x0 + w)); try (exfalso; lia); cbn [andb]; rewrite !andb_false_r, orb_false_r; reflexivity.
  - destruct (Z.ltb_spec x w) as [L|L].
    2:{ exists m. split; [reflexivity|]. split; [exact M|]. intros x' i q Hq. unfold inner_at. destruct (Z.leb_spec (x0 + x) x'), (Z.ltb_spec x' (x0 + w)); try (exfalso; lia); cbn [andb]; rewrite !andb_false_r, orb_false_r; reflexivity. }
    rewrite Htx by lia. cbn [obind]. fold (cap2 (T x) (T (x - 1))). pose proof (pow_pos (T x) (T0 x)) as P.
    assert (C : 0 <= cap2 (T x) (T (x - 1)) < 3) by (unfold cap2; pose proof (T0 x); pose proof (T0 (x - 1)); lia).
    destruct (set_ok false 16 h16 m (x0 + x) (cap2 (T x) (T (x - 1))) p M ltac:(lia) C Hp) as (m1 & E1 & M1 & I1). rewrite E1. cbn [obind]. rewrite Hst by (try exact Hs; lia). cbn [obind].
    assert (Ep : T (x + 2 ^ T x - 1) = T x) by (replace (x + 2 ^ T x - 1) with (x + (2 ^ T x - 1)) by lia; apply T1; [exact Hs|lia]).
    destruct (IH (x + 2 ^ T x) p m1 M1 Hp ltac:(lia) ltac:(lia) (T2 x Hs)) as (m2 & E2 & M2 & I2). rewrite Ep in E2. exists m2. split; [exact E2|]. split; [exact M2|].
    intros x' i q Hq. rewrite I2, I1 by lia. rewrite <- orb_assoc. f_equal. unfold inner_at. destruct (q =? p); cbn [andb]; [|rewrite !andb_false_r; reflexivity]. rewrite andb_true_r.
    destruct (Z.eqb_spec x' (x0 + x)) as [->|N]; cbn [andb].
    + replace (x0 + x - x0) with x by lia. assert (S : isstart T x = true) by (apply isstart_div; [apply T0|exact Hs]). rewrite S. destruct (Z.leb_spec (x0 + (x + 2 ^ T x)) (x0 + x)), (Z.leb_spec (x0 + x) (x0 + x)), (Z.ltb_spec (x0 + x) (x0 + w)); try (exfalso; lia); cbn [andb]. rewrite orb_false_r. reflexivity.
    + destruct (Z.leb_spec (x0 + (x + 2 ^ T x)) x') as [G|G]; [destruct (Z.leb_spec (x0 + x) x'); [reflexivity|lia]|]. cbn [andb orb].
      destruct (Z.leb_spec (x0 + x) x'); [|reflexivity]. replace (x' - x0) with (x + (x' - x0 - x)) by lia. rewrite (between_starts x (x' - x0 - x) Hs) by lia. rewrite !andb_false_r. reflexivity.
Qed.
End Line.

(** * All lines of a direction *)
Section Block.
Variables (x0 w p0 len nctx : Z) (T : Z -> Z -> Z) (tx st : Z -> Z -> outcome Z) (ctx : arr) (cv : Z -> Z).
Hypothesis Hx0 : 0 <= x0.
Hypothesis Hw : 0 < w.
Hypothesis Hfit : x0 + w <= 32.
Hypothesis Hp0 : 0 <= p0.
Hypothesis Hlen : 0 < len.
Hypothesis Hfit2 : p0 + len <= 32.
Hypothesis Hn : len <= nctx.
Hypothesis T0 : forall y z, 0 <= T y z.
Hypothesis T1 : forall y z d, (2 ^ T y z | z) -> 0 <= d < 2 ^ T y z -> T y (z + d) = T y z.
Hypothesis T2 : forall y z, (2 ^ T y z | z) -> (2 ^ T y (z + 2 ^ T y z) | z + 2 ^ T y z).
Hypothesis Htx : forall y z, 0 <= y < len -> 0 <= z < w -> tx y z = Ok (Z.min 2 (T y z)).
Hypothesis Hst : forall y z, 0 <= y < len -> 0 <= z < w -> (2 ^ T y z | z) -> st y z = Ok (2 ^ T y z).
Hypothesis Hcv : forall y, 0 <= y < len -> ctx y = Some (Z.min 2 (cv y)) /\ 0 <= cv y.
Definition first_at (j x' i q : Z) : bool := ((p0 <=? q) && (q <? p0 + j)) && (x' =? x0) && (i =? cap2 (T (q - p0) 0) (cv (q - p0))).
Lemma first_ok : forall m, mask_ok false 16 m -> exists m', first_edge x0 p0 len nctx (fun y => tx y 0) ctx m = Ok m' /\ mask_ok false 16 m' /\
  forall x' i q, 0 <= q < 32 -> BB m' x' i q = BB m x' i q || first_at len x' i q.
Proof.
  intros m M. unfold first_edge.
  edestruct (for_inv _ (fun j (m' : masks) => mask_ok false 16 m' /\ forall x' i q, 0 <= q < 32 -> BB m' x' i q = BB m x' i q || first_at j x' i q)) as (m' & E & I1); [apply Z.lt_le_incl, Hlen| | |exists m'; split; [exact E|exact I1]].
  - split; [exact M|]. intros x' i q Hq. unfold first_at. destruct (Z.leb_spec p0 q), (Z.ltb_spec q (p0 + 0)); try (exfalso; lia); cbn [andb]; rewrite orb_false_r; reflexivity.
  - intros j m1 Hj [M1 I1]. destruct (split_mask 16 h16 0 s16 (p0 + j) ltac:(lia)) as [S1 S2]. cbv zeta in S1, S2. change (2 ^ 16) with 0x10000 in S1. change (4 - 0) with 4 in S2. rewrite S1, S2, Htx by lia. cbn [obind]. destruct (Hcv j Hj) as [C1 C2].
    rewrite (rd1_ok nctx ctx j _ ltac:(lia) C1). cbn [obind]. fold (cap2 (T j 0) (cv j)).
    assert (C : 0 <= cap2 (T j 0) (cv j) < 3) by (unfold cap2; pose proof (T0 j 0); lia).
    destruct (set_ok false 16 h16 m1 x0 (cap2 (T j 0) (cv j)) (p0 + j) M1 ltac:(lia) C ltac:(lia)) as (m2 & E2 & M2 & I2). exists m2. split; [exact E2|]. split; [exact M2|].
    intros x' i q Hq. rewrite I2, I1 by lia. rewrite <- orb_assoc. f_equal. unfold first_at. destruct (x' =? x0); cbn [andb]; [|rewrite !andb_false_r; reflexivity]. rewrite !andb_true_r.
    destruct (Z.eqb_spec q (p0 + j)) as [->|N].
    + replace (p0 + j - p0) with j by lia. destruct (Z.leb_spec p0 (p0 + j)), (Z.ltb_spec (p0 + j) (p0 + j)), (Z.ltb_spec (p0 + j) (p0 + (j + 1))); try (exfalso; lia). cbn [andb orb]. rewrite andb_true_r. reflexivity.
    + rewrite andb_false_r, orb_false_r. destruct (Z.leb_spec p0 q), (Z.ltb_spec q (p0 + j)), (Z.ltb_spec q (p0 + (j + 1))); try lia; reflexivity.
Qed.
Definition rest_at (j x' i q : Z) : bool := ((p0 <=? q) && (q <? p0 + j)) && ((x0 <? x') && (x' <? x0 + w)) && isstart (T (q - p0)) (x' - x0) && (i =? cap2 (T (q - p0) (x' - x0)) (T (q - p0) (x' - x0 - 1))).
Lemma rest_ok : forall m, mask_ok false 16 m -> exists m', inner_walk x0 w p0 len tx st m = Ok m' /\ mask_ok false 16 m' /\
  forall x' i q, 0 <= q < 32 -> BB m' x' i q = BB m x' i q || rest_at len x' i q.
Proof.
  intros m M. unfold inner_walk.
  edestruct (for_inv _ (fun j (m' : masks) => mask_ok false 16 m' /\ forall x' i q, 0 <= q < 32 -> BB m' x' i q = BB m x' i q || rest_at j x' i q)) as (m' & E & I1); [apply Z.lt_le_incl, Hlen| | |exists m'; split; [exact E|exact I1]].
  - split; [exact M|]. intros x' i q Hq. unfold rest_at. destruct (Z.leb_spec p0 q), (Z.ltb_spec q (p0 + 0)); try (exfalso; lia); cbn [andb]; rewrite orb_false_r; reflexivity.
  - intros j m1 Hj [M1 I1]. destruct (split_mask 16 h16 0 s16 (p0 + j) ltac:(lia)) as [S1 S2]. cbv zeta in S1, S2. change (2 ^ 16) with 0x10000 in S1. change (4 - 0) with 4 in S2. rewrite S1, S2, Htx by lia. cbn [obind].
    assert (D0 : (2 ^ T j 0 | 0)) by apply Z.divide_0_r. rewrite (Hst j 0 Hj ltac:(lia) D0). cbn [obind]. pose proof (pow_pos _ (T0 j 0)) as P.
    pose proof (T1 j 0 (2 ^ T j 0 - 1) D0 ltac:(lia)) as Ep. rewrite Z.add_0_l in Ep.
    pose proof (T2 j 0 D0) as Dn. rewrite Z.add_0_l in Dn.
    destruct (walk_ok x0 w (T j) (tx j) (st j) Hx0 Hfit (T0 j) (T1 j) (T2 j) (fun z => Htx j z Hj) (fun z => Hst j z Hj) 32 (2 ^ T j 0) (p0 + j) m1 M1 ltac:(lia) P ltac:(cbn; lia) Dn) as (m2 & E2 & M2 & I2).
    rewrite Ep in E2. exists m2. split; [exact E2|]. split; [exact M2|]. intros x' i q Hq. rewrite I2, I1 by lia. rewrite <- orb_assoc. f_equal. unfold rest_at, inner_at.
    destruct (Z.eqb_spec q (p0 + j)) as [->|N]; cbn [andb].
    + replace (p0 + j - p0) with j by lia. destruct (Z.leb_spec p0 (p0 + j)), (Z.ltb_spec (p0 + j) (p0 + j)), (Z.ltb_spec (p0 + j) (p0 + (j + 1))); try (exfalso; lia). cbn [andb orb].
      destruct (Z.leb_spec (x0 + 2 ^ T j 0) x') as [G|G]; [destruct (Z.ltb_spec x0 x'); [reflexivity|lia]|]. cbn [andb]. destruct (Z.ltb_spec x0 x'); [|reflexivity]. cbn [andb].
      replace (x' - x0) with (0 + (x' - x0)) by lia. rewrite (between_starts (T j) (T0 j) (T1 j) (T2 j) 0 (x' - x0) D0) by lia. rewrite andb_false_r. reflexivity.
    + rewrite orb_false_r. destruct (Z.leb_spec p0 q), (Z.ltb_spec q (p0 + j)), (Z.ltb_spec q (p0 + (j + 1))); try lia; reflexivity.
Qed.
Lemma inter_dir_ok : forall inner m, mask_ok false 16 m -> (forall x' i q, inb x0 w p0 len x' q = true -> 0 <= i < 3 -> BB m x' i q = false) ->
  exists k m', first_edge x0 p0 len nctx (fun y => tx y 0) ctx m = Ok k /\ (if inner : bool then inner_walk x0 w p0 len tx st k else Ok k) = Ok m' /\ mask_ok false 16 m' /\
  forall x' q, 0 <= q < 32 -> edge false 16 m' x' q = if inb x0 w p0 len x' q then
      if x' =? x0 then Some (4 * 2 ^ cap2 (T (q - p0) 0) (cv (q - p0))) else if inner && isstart (T (q - p0)) (x' - x0) then Some (4 * 2 ^ cap2 (T (q - p0) (x' - x0)) (T (q - p0) (x' - x0 - 1))) else None
    else edge false 16 m x' q.
Proof.
  intros inner m M Hc. destruct (first_ok m M) as (k & E1 & M1 & I1). exists k.
  assert (Ex : exists m', (if inner then inner_walk x0 w p0 len tx st k else Ok k) = Ok m' /\ mask_ok false 16 m' /\ forall x' i q, 0 <= q < 32 -> BB m' x' i q = BB k x' i q || (inner && rest_at len x' i q)).
  { destruct inner; [destruct (rest_ok k M1) as (m' & E2 & M2 & I2); exists m'; split; [exact E2|]; split; [exact M2|]; exact I2|]. exists k. split; [reflexivity|]. split; [exact M1|]. intros x' i q Hq. rewrite orb_false_r. reflexivity. }
  destruct Ex as (m' & E2 & M2 & I2). exists m'. split; [exact E1|]. split; [exact E2|]. split; [exact M2|]. intros x' q Hq.
  assert (I : forall i, BB m' x' i q = BB m x' i q || first_at len x' i q || (inner && rest_at len x' i q)) by (intros i; rewrite I2, I1 by exact Hq; reflexivity). unfold first_at, rest_at in I.
  destruct (inb x0 w p0 len x' q) eqn:Ein.
  - assert (C0 : forall i, 0 <= i < 3 -> BB m x' i q = false) by (intros i Hi; apply Hc; assumption). apply andb_true_iff in Ein. destruct Ein as [Ex Eq]. rewrite Eq in I. apply andb_true_iff in Ex. destruct Ex as [Ex1 Ex2]. rewrite Ex2 in I. cbn [andb] in I. apply Z.leb_le in Ex1. apply andb_true_iff in Eq. destruct Eq as [Eq1 Eq2]. apply Z.leb_le in Eq1. apply Z.ltb_lt in Eq2.
    assert (CC : forall a b, 0 <= a -> 0 <= b -> 0 <= cap2 a b < 3) by (intros a b Ha Hb; unfold cap2; lia).
    destruct (Z.eqb_spec x' x0) as [->|N].
    + apply edge_one; [apply CC; [apply T0|apply Hcv; lia]|]. intros i Hi. rewrite I, C0 by exact Hi. rewrite Z.ltb_irrefl. cbn [andb orb]. rewrite andb_false_r, orb_false_r. reflexivity.
    + destruct (Z.ltb_spec x0 x'); [|lia]. cbn [andb] in I. destruct (inner && isstart (T (q - p0)) (x' - x0)) eqn:Es.
      * apply andb_true_iff in Es. destruct Es as [-> Es]. rewrite Es in I. apply edge_one; [apply CC; apply T0|]. intros i Hi. rewrite I, C0 by exact Hi. reflexivity.
      * apply edge_none. intros i Hi. rewrite I, C0 by exact Hi. cbn [orb]. rewrite andb_assoc, Es. reflexivity.
  - apply edge_same. intros i Hi. rewrite I. unfold inb in Ein. apply andb_false_iff in Ein. destruct Ein as [Ein|Ein].
    + destruct (Z.leb_spec x0 x'), (Z.ltb_spec x' (x0 + w)); try discriminate Ein; cbn [andb]; destruct (Z.eqb_spec x' x0), (Z.ltb_spec x0 x'); try (exfalso; lia); cbn [andb]; rewrite ?andb_false_r; cbn [andb]; rewrite ?andb_false_r, ?orb_false_r; reflexivity.
    + rewrite Ein. cbn [andb]. rewrite andb_false_r, !orb_false_r. reflexivity.
Qed.
End Block.

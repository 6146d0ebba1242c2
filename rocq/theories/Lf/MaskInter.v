(** The masks, levels and contexts that the luma part of dav1d_create_lf_mask_inter writes for a block. *)
From Coq Require Import ZArith List Bool Lia Znumtheory.
From Verif Require Import Base.CInt Base.Lemmas Base.Loop Lf.Model Lf.Strip Lf.Frame Lf.Sbrow Lf.Deblock Lf.MaskModel Lf.MaskBits Lf.MaskBlock Lf.MaskCreate Lf.MaskTile Lf.MaskInterSpec Lf.MaskInterModel Lf.MaskDecomp Lf.MaskWalk.
From Verif Require Lf.MaskSpec.
Import ListNotations.
Open Scope Z_scope.
Local Open Scope outcome_scope.
Local Ltac Zify.zify_post_hook ::= idtac.

(** * The tree *)
Definition swap (s : Z * Z) : Z * Z := (snd s, fst s).
Lemma tx_swap : forall n split depth lw lh i j r c, tx_size n split depth lw lh i j r c = swap (tx_size n (fun d a b => split d b a) depth lh lw j i c r).
Proof.
  induction n as [|n IH]; intros; cbn [tx_size]; [reflexivity|]. rewrite (andb_comm (lh =? 0)). destruct ((lw =? 0) && (lh =? 0)); [reflexivity|]. destruct (split depth i j); [|reflexivity]. cbv zeta. rewrite IH. reflexivity.
Qed.
Lemma block_swap : forall split lw lh r c, block_tx split lw lh r c = swap (block_tx (fun d a b => split d b a) lh lw c r).
Proof. intros. unfold block_tx. apply tx_swap. Qed.
Lemma tx_next : forall n split depth lw lh i j r c, 0 <= lw -> 0 <= lh -> let a := fst (tx_size n split depth lw lh i j r c) in (2 ^ a | c) ->
  (2 ^ fst (tx_size n split depth lw lh i j r (c + 2 ^ a)) | c + 2 ^ a).
Proof.
  induction n as [|n IH]; intros split depth lw lh i j r c H1 H2 a Hc; unfold a in *; clear a; cbn [tx_size] in *; [cbn [fst] in *; apply Z.divide_add_r; [exact Hc|apply Z.divide_refl]|].
  destruct ((lw =? 0) && (lh =? 0)) eqn:E0; [cbn [fst] in *; apply Z.divide_add_r; [exact Hc|apply Z.divide_refl]|]. destruct (split depth i j); [|cbn [fst] in *; apply Z.divide_add_r; [exact Hc|apply Z.divide_refl]].
  destruct (split_bound lw lh H1 H2 E0) as [B1 B2]. cbv zeta in *. set (sw := split_w lw lh) in *. set (sh := split_h lw lh) in *. pose proof (pow_pos sw ltac:(lia)) as Ps.
  match type of Hc with (2 ^ fst ?t | _) => assert (Q : 0 <= fst t <= sw) by (apply tx_bound; lia); set (a := fst t) in * end. pose proof (pow_pos a ltac:(lia)) as Pa. pose proof (pow_div a sw ltac:(lia)) as Da.
  assert (Dm : (2 ^ a | c - c / 2 ^ sw * 2 ^ sw)) by (apply Z.divide_sub_r; [exact Hc|apply Z.divide_mul_r; exact Da]).
  pose proof (Z.mod_pos_bound c (2 ^ sw) Ps) as Bm. rewrite <- (sub_mod (2 ^ sw) c Ps) in Bm. pose proof (fit _ _ _ Pa Da Dm (proj2 Bm)) as F.
  destruct (Z.eq_dec (c - c / 2 ^ sw * 2 ^ sw + 2 ^ a) (2 ^ sw)) as [E|N].
  - match goal with |- (2 ^ fst ?t | _) => assert (Q2 : 0 <= fst t <= sw) by (apply tx_bound; lia); set (a' := fst t) in * end.
    replace (c + 2 ^ a) with ((c / 2 ^ sw + 1) * 2 ^ sw) by lia. apply Z.divide_mul_r. apply pow_div. exact Q2.
  - rewrite (div_same (2 ^ sw) c (2 ^ a) (c / 2 ^ sw) Ps eq_refl) by (try rewrite <- (sub_mod (2 ^ sw) c Ps); lia).
    replace (c + 2 ^ a - c / 2 ^ sw * 2 ^ sw) with (c - c / 2 ^ sw * 2 ^ sw + 2 ^ a) by lia.
    pose proof (IH split (depth + 1) sw sh (2 * i + r / 2 ^ sh) (2 * j + c / 2 ^ sw) (r - r / 2 ^ sh * 2 ^ sh) (c - c / 2 ^ sw * 2 ^ sw) ltac:(lia) ltac:(lia) Dm) as K. cbv zeta in K. fold a in K.
    match type of K with (2 ^ fst ?t | _) => assert (Q2 : 0 <= fst t <= sw) by (apply tx_bound; lia); set (a' := fst t) in * end.
    replace (c + 2 ^ a) with (c - c / 2 ^ sw * 2 ^ sw + 2 ^ a + c / 2 ^ sw * 2 ^ sw) by lia. apply Z.divide_add_r; [exact K|]. apply Z.divide_mul_r. apply pow_div. exact Q2.
Qed.
Section Tx.
Variables (split : Z -> Z -> Z -> bool) (lw lh : Z).
Hypothesis Hlw : 0 <= lw.
Hypothesis Hlh : 0 <= lh.
Notation bt := (block_tx split lw lh).
Lemma bt_bound : forall r c, 0 <= fst (bt r c) <= lw /\ 0 <= snd (bt r c) <= lh.
Proof. intros r c. apply tx_bound; assumption. Qed.
Lemma bt_col : forall r c d, (2 ^ fst (bt r c) | c) -> 0 <= d < 2 ^ fst (bt r c) -> bt r (c + d) = bt r c.
Proof.
  intros r c d Hc Hd. pose proof (proj1 (bt_bound r c)) as Q. unfold block_tx in *. pose proof (pow_pos lw Hlw) as Ps. set (a := fst (tx_size _ _ _ _ _ _ _ _ _)) in *. pose proof (pow_pos a ltac:(lia)) as Pa. pose proof (pow_div a lw ltac:(lia)) as Da.
  assert (Dm : (2 ^ a | c mod 2 ^ lw)) by (rewrite <- sub_mod by exact Ps; apply Z.divide_sub_r; [exact Hc|apply Z.divide_mul_r; exact Da]).
  pose proof (Z.mod_pos_bound c (2 ^ lw) Ps) as Bm. pose proof (fit _ _ _ Pa Da Dm (proj2 Bm)) as F.
  assert (X : (c + d) / 2 ^ lw = c / 2 ^ lw) by (apply div_same; try reflexivity; lia). assert (Y : (c + d) mod 2 ^ lw = c mod 2 ^ lw + d) by (rewrite <- !sub_mod by exact Ps; rewrite X; lia). rewrite X, Y.
  apply tx_col; assumption.
Qed.
Lemma bt_next : forall r c, (2 ^ fst (bt r c) | c) -> (2 ^ fst (bt r (c + 2 ^ fst (bt r c))) | c + 2 ^ fst (bt r c)).
Proof.
  intros r c Hc. pose proof (proj1 (bt_bound r c)) as Q. pose proof (pow_pos lw Hlw) as Ps. set (a := fst (bt r c)) in *. pose proof (proj1 (bt_bound r (c + 2 ^ a))) as Q2. pose proof (pow_pos a ltac:(lia)) as Pa. pose proof (pow_div a lw ltac:(lia)) as Da.
  assert (Dm : (2 ^ a | c mod 2 ^ lw)) by (rewrite <- sub_mod by exact Ps; apply Z.divide_sub_r; [exact Hc|apply Z.divide_mul_r; exact Da]).
  pose proof (Z.mod_pos_bound c (2 ^ lw) Ps) as Bm. pose proof (fit _ _ _ Pa Da Dm (proj2 Bm)) as F. pose proof (sub_mod (2 ^ lw) c Ps) as Sm.
  destruct (Z.eq_dec (c mod 2 ^ lw + 2 ^ a) (2 ^ lw)) as [E|N].
  - set (a' := fst (bt r (c + 2 ^ a))) in *. clearbody a'. replace (c + 2 ^ a) with ((c / 2 ^ lw + 1) * 2 ^ lw) by lia. apply Z.divide_mul_r. apply pow_div. exact Q2.
  - assert (X : (c + 2 ^ a) / 2 ^ lw = c / 2 ^ lw) by (apply div_same; try reflexivity; lia). assert (Y : (c + 2 ^ a) mod 2 ^ lw = c mod 2 ^ lw + 2 ^ a) by (rewrite <- (sub_mod (2 ^ lw) (c + 2 ^ a) Ps), X; lia).
    pose proof (tx_next 2 split 0 lw lh (r / 2 ^ lh) (c / 2 ^ lw) (r mod 2 ^ lh) (c mod 2 ^ lw) Hlw Hlh Dm) as K. cbv zeta in K. change (fst (tx_size 2 split 0 lw lh (r / 2 ^ lh) (c / 2 ^ lw) (r mod 2 ^ lh) (c mod 2 ^ lw))) with a in K.
    rewrite <- X, <- Y in K at 1. change (tx_size 2 split 0 lw lh (r / 2 ^ lh) ((c + 2 ^ a) / 2 ^ lw) (r mod 2 ^ lh) ((c + 2 ^ a) mod 2 ^ lw)) with (bt r (c + 2 ^ a)) in K.
    set (a' := fst (bt r (c + 2 ^ a))) in *. clearbody a'. replace (c + 2 ^ a) with (c mod 2 ^ lw + 2 ^ a + c / 2 ^ lw * 2 ^ lw) by lia. apply Z.divide_add_r; [exact K|]. apply Z.divide_mul_r. apply pow_div. exact Q2.
Qed.
End Tx.

(** * The block *)
Lemma ceil_in : forall w W b, 0 < W -> (W | b) -> w <= b -> (w + W - 1) / W * W <= b.
Proof. intros w W b HW [q ->] H. apply Z.mul_le_mono_nonneg_r; [lia|]. apply Z.lt_succ_r. apply Z.div_lt_upper_bound; [exact HW|]. lia. Qed.
Lemma filled_none : forall t oy ox h w f, h <= 0 \/ w <= 0 -> filled t t oy ox h w f.
Proof. intros t oy ox h w f H. split; intros r c Q; [exfalso; destruct Q as [[Q1 Q2] [Q3 Q4]]; lia|]. repeat split. Qed.
Section Grid.
Variables (tx_masks : Z -> Z) (w4 h4 lw lh : Z).
Notation split := (fun d i j => Z.testbit (tx_masks d) (i * 4 + j)).
Notation W := (2 ^ lw). Notation H := (2 ^ lh).
Notation nx := ((w4 + W - 1) / W). Notation ny := ((h4 + H - 1) / H).
Hypothesis Hlw : 0 <= lw.
Hypothesis Hlh : 0 <= lh.
Hypothesis Hw : 0 < w4.
Hypothesis Hh : 0 < h4.
Hypothesis Hnx : nx * W <= 32.
Hypothesis Hny : ny * H <= 32.
Hypothesis Hnum : lw = 0 /\ lh = 0 \/ nx <= 2 /\ ny <= 2.
Lemma decomp_block_ok : forall t, exists t', decomp_block tx_masks w4 h4 lw lh t = Ok t' /\ forall r c, 0 <= r < h4 -> 0 <= c < w4 -> cell t' r c (block_tx split lw lh r c).
Proof.
  intros t. pose proof (pow_pos lw Hlw) as PW. pose proof (pow_pos lh Hlh) as PH. pose proof (ceil_le w4 W PW) as C1. pose proof (ceil_le h4 H PH) as C2.
  assert (N1 : 0 <= nx) by (apply Z.div_pos; lia). assert (N2 : 0 <= ny) by (apply Z.div_pos; lia). unfold decomp_block.
  edestruct (for_inv _ (fun k (t' : txa) => filled t t' 0 0 (k * H) (nx * W) (block_tx split lw lh))) as (t' & E & F); [exact N2| | |exists t'; split; [exact E|]; intros r c Hr Hc; apply F; split; lia].
  - apply filled_none. left. lia.
  - intros y t1 Hy F1. 
    assert (Sy : y * H + H <= 32) by (assert ((y + 1) * H <= ny * H) by (apply Z.mul_le_mono_nonneg_r; lia); lia). assert (Sy0 : 0 <= y * H) by (apply Z.mul_nonneg_nonneg; lia).
    edestruct (for_inv _ (fun k (t' : txa) => filled t1 t' (y * H) 0 H (k * W) (block_tx split lw lh))) as (t2 & E2 & F2); [exact N1| | |exists t2; split; [exact E2|]].
    + apply filled_none. right. lia.
    + intros x t2 Hx F2. assert (Sx : x * W + W <= 32) by (assert ((x + 1) * W <= nx * W) by (apply Z.mul_le_mono_nonneg_r; lia); lia). assert (Sx0 : 0 <= x * W) by (apply Z.mul_nonneg_nonneg; lia).
      assert (Lm : lw = 0 /\ lh = 0 \/ lim 2 y /\ lim 2 x) by (destruct Hnum as [N|[Nx Ny]]; [left; exact N|right]; unfold lim; change (2 ^ Z.of_nat 2) with 4; clear - Nx Ny Hx Hy; lia).
      destruct (decomp_ok tx_masks 2 0 lw lh (y * H) (x * W) y x t2) as (t3 & E3 & F3); try assumption; try reflexivity; try lia; try apply Z.divide_factor_r. exists t3. split; [exact E3|].
      replace ((x + 1) * W) with (x * W + W) by lia. apply (filled_h t1 t2); try lia; [exact F2|]. eapply filled_ext; [|rewrite Z.add_0_l; exact F3]. intros r c [Q1 Q2]. rewrite Z.add_0_l in Q2. cbv beta. unfold block_tx.
      assert (X1 : r / H = y) by (symmetry; apply (Z.div_unique _ H _ (r - y * H)); lia). assert (X2 : c / W = x) by (symmetry; apply (Z.div_unique _ W _ (c - x * W)); lia).
      pose proof (sub_mod H r PH) as M1. pose proof (sub_mod W c PW) as M2. rewrite X1 in M1. rewrite X2 in M2. rewrite X1, X2, <- M1, <- M2. reflexivity.
    + replace ((y + 1) * H) with (y * H + H) by lia. apply (filled_v t t1); try lia; [exact F1|]. rewrite Z.add_0_l. exact F2.
Qed.
End Grid.

Lemma inter_spec : forall c0 c lb a prev (skip : bool), 0 <= a <= lb -> 0 <= prev -> c0 mod 2 ^ lb = 0 -> c0 <= c < c0 + 2 ^ lb ->
  MaskSpec.edge 0 c (2 ^ a) (2 ^ lb) (2 ^ prev) skip false = if c =? c0 then Some (4 * 2 ^ cap2 a prev) else if negb skip && multiple (2 ^ a) (c - c0) then Some (4 * 2 ^ cap2 a prev) else None.
Proof.
  intros c0 c lb a prev skip Ha Hp H0 Hc. pose proof (pow_pos a ltac:(lia)) as P1. pose proof (pow_pos lb ltac:(lia)) as P2.
  assert (H1 : c0 mod 2 ^ a = 0) by (apply Z.mod_divide; [lia|]; apply (Z.divide_trans _ (2 ^ lb)); [apply pow_div; lia|apply Z.mod_divide; [lia|exact H0]]).
  unfold MaskSpec.edge, multiple. rewrite (mod_sub (2 ^ a) c0 c P1 H1), (mod_sub (2 ^ lb) c0 c P2 H0), (Z.mod_small (c - c0) (2 ^ lb)) by lia.
  rewrite <- (filter_size_ok false 0 a prev eq_refl) by lia. fold (cap2 a prev). destruct (Z.eqb_spec c c0) as [->|N].
  - rewrite Z.sub_diag, Z.mod_0_l by lia. reflexivity.
  - destruct (Z.eqb_spec (c - c0) 0); [lia|]. cbn [orb]. rewrite orb_false_r, andb_comm. reflexivity.
Qed.

(** * One direction *)
Section InterDir.
Variables (c0 r0 bs ba lb w h nctx : Z) (T : Z -> Z -> Z) (tx st : Z -> Z -> outcome Z) (ctx : arr) (P : Z -> Z) (skip : bool) (m : masks).
Hypothesis Hbs : pow_is bs lb.
Hypothesis Hdb : (bs | 32).
Hypothesis Hda : (ba | 32).
Hypothesis Hc0 : aligned c0 bs.
Hypothesis Hr0 : aligned r0 ba.
Hypothesis Hw : 0 < w <= bs.
Hypothesis Hlen : 0 < h <= ba.
Hypothesis Hn : h <= nctx.
Hypothesis T0 : forall y z, 0 <= T y z <= lb.
Hypothesis T1 : forall y z d, (2 ^ T y z | z) -> 0 <= d < 2 ^ T y z -> T y (z + d) = T y z.
Hypothesis T2 : forall y z, (2 ^ T y z | z) -> (2 ^ T y (z + 2 ^ T y z) | z + 2 ^ T y z).
Hypothesis Htx : forall y z, 0 <= y < h -> 0 <= z < w -> tx y z = Ok (Z.min 2 (T y z)).
Hypothesis Hst : forall y z, 0 <= y < h -> 0 <= z < w -> (2 ^ T y z | z) -> st y z = Ok (2 ^ T y z).
Hypothesis Hctx : forall r, r0 <= r < r0 + h -> ctx (r - r0) = Some (Z.min 2 (P r)) /\ 0 <= P r.
Hypothesis Hm : mask_ok false 16 m.
Hypothesis Hclear : forall c r, c0 <= c < c0 + w -> r0 <= r < r0 + h -> edge false 16 m (c mod 32) (r mod 32) = None.
Lemma inter_block : exists k m', first_edge (c0 mod 32) (r0 mod 32) h nctx (fun y => tx y 0) ctx m = Ok k /\ (if negb skip then inner_walk (c0 mod 32) w (r0 mod 32) h tx st k else Ok k) = Ok m' /\ mask_ok false 16 m' /\
  forall c r, c / 32 = c0 / 32 -> r / 32 = r0 / 32 ->
    edge false 16 m' (c mod 32) (r mod 32) = if inb c0 w r0 h c r
      then MaskSpec.edge 0 c (2 ^ T (r - r0) (c - c0)) bs (2 ^ (if c =? c0 then P r else T (r - r0) (c - c0 - 1))) skip false else edge false 16 m (c mod 32) (r mod 32).
Proof.
  assert (G1 : forall c, c0 <= c < c0 + w -> c mod 32 = c0 mod 32 + (c - c0)) by (intros c Hc; apply (in_sb 32 bs c0 c); [lia|exact Hdb|lia|exact Hc0|lia]).
  assert (G2 : forall r, r0 <= r < r0 + h -> r mod 32 = r0 mod 32 + (r - r0)) by (intros r Hr; apply (in_sb 32 ba r0 r); [lia|exact Hda|lia|exact Hr0|lia]).
  assert (F1 : c0 mod 32 + bs <= 32) by (apply (in_sb 32 bs c0 c0); [lia|exact Hdb|lia|exact Hc0|lia]).
  assert (F2 : r0 mod 32 + ba <= 32) by (apply (in_sb 32 ba r0 r0); [lia|exact Hda|lia|exact Hr0|lia]).
  pose proof (Z.mod_pos_bound c0 32 ltac:(lia)) as B1. pose proof (Z.mod_pos_bound r0 32 ltac:(lia)) as B2.
  assert (MB : forall r, 0 <= r mod 32 < 32) by (intros r; apply Z.mod_pos_bound; lia).
  assert (IM : forall c r, c / 32 = c0 / 32 -> r / 32 = r0 / 32 -> inb (c0 mod 32) w (r0 mod 32) h (c mod 32) (r mod 32) = inb c0 w r0 h c r) by (intros c r; apply inb_mod; lia).
  set (x0 := c0 mod 32) in *. set (y0 := r0 mod 32) in *. clearbody x0 y0.
  destruct (inter_dir_ok x0 w y0 h nctx T tx st ctx (fun y => P (r0 + y)) ltac:(lia) ltac:(lia) ltac:(lia) ltac:(lia) ltac:(lia) ltac:(lia) Hn (fun y z => proj1 (T0 y z)) T1 T2 Htx Hst) with (inner := negb skip) (m := m) as (k & m' & E1 & E2 & M & I1).
  - intros y Hy. destruct (Hctx (r0 + y) ltac:(lia)) as [C1 C2]. replace (r0 + y - r0) with y in C1 by lia. split; [exact C1|exact C2].
  - exact Hm.
  - intros x i p Hin Hi. apply edge_none_inv with (uv := false); [|exact Hi]. apply inb_true in Hin. destruct Hin as [Q1 Q2].
    pose proof (Hclear (c0 + (x - x0)) (r0 + (p - y0)) ltac:(lia) ltac:(lia)) as K. rewrite G1, G2 in K by lia. replace (x0 + (c0 + (x - x0) - c0)) with x in K by lia. replace (y0 + (r0 + (p - y0) - r0)) with p in K by lia. exact K.
  - exists k, m'. split; [exact E1|]. split; [exact E2|]. split; [exact M|]. intros c r Ec Er. rewrite I1 by apply MB. rewrite (IM c r Ec Er). clear Ec Er IM I1 E1 E2 MB.
    destruct (inb c0 w r0 h c r) eqn:Ein; [|reflexivity]. apply inb_true in Ein. destruct Ein as [Q1 Q2].
    assert (S : MaskSpec.edge 0 c (2 ^ T (r - r0) (c - c0)) bs (2 ^ (if c =? c0 then P r else T (r - r0) (c - c0 - 1))) skip false = if c =? c0 then Some (4 * 2 ^ cap2 (T (r - r0) (c - c0)) (P r)) else if negb skip && multiple (2 ^ T (r - r0) (c - c0)) (c - c0) then Some (4 * 2 ^ cap2 (T (r - r0) (c - c0)) (T (r - r0) (c - c0 - 1))) else None).
    { unfold pow_is in Hbs. unfold aligned in Hc0. rewrite Hbs in Hc0 |- *. rewrite (inter_spec c0 c lb); [|apply T0|destruct (c =? c0); [apply Hctx; exact Q2|apply T0]|exact Hc0|rewrite <- Hbs; clear - Q1 Hw; lia]. destruct (c =? c0); reflexivity. }
    rewrite S. rewrite (G1 c Q1), (G2 r Q2). replace (x0 + (c - c0) - x0) with (c - c0) by lia. replace (y0 + (r - r0) - y0) with (r - r0) by lia. replace (r0 + (r - r0)) with r by lia.
    replace (x0 + (c - c0) =? x0) with (c =? c0) by (destruct (Z.eqb_spec c c0), (Z.eqb_spec (x0 + (c - c0)) x0); try reflexivity; lia).
    destruct (Z.eqb_spec c c0) as [->|]; [rewrite Z.sub_diag|]; reflexivity.
Qed.
End InterDir.
Lemma store_ok : forall n (g : Z -> outcome Z) (gv : Z -> Z) len a, 0 <= len <= n -> (forall y, 0 <= y < len -> g y = Ok (gv y)) ->
  exists a', for_ 0 len (fun y a => let! v := g y in wr1 n a y v) a = Ok a' /\ forall j, a' j = if (0 <=? j) && (j <? len) then Some (gv j) else a j.
Proof.
  intros n g gv len a Hl Hg. edestruct (for_inv _ (fun k (a' : arr) => forall j, a' j = if (0 <=? j) && (j <? k) then Some (gv j) else a j) (fun y a => let! v := g y in wr1 n a y v) 0 len a (proj1 Hl)) as (a' & E & I1); [| |exists a'; split; [exact E|exact I1]].
  - intros j. destruct (Z.leb_spec 0 j), (Z.ltb_spec j 0); try (exfalso; lia); reflexivity.
  - intros k a1 Hk I1. rewrite (Hg k Hk). cbn [obind]. rewrite wr1_ok by lia. eexists. split; [reflexivity|]. intros j. unfold set1. rewrite I1. destruct (Z.eqb_spec j k) as [->|]; destruct (Z.leb_spec 0 k), (Z.ltb_spec k (k + 1)); try (exfalso; lia); cbn [andb]; try reflexivity.
    destruct (Z.leb_spec 0 j), (Z.ltb_spec j k), (Z.ltb_spec j (k + 1)); try (exfalso; lia); reflexivity.
Qed.
Lemma rd_grid_ok : forall g r c v, 0 <= r < 32 -> 0 <= c < 32 -> g r c = Some v -> rd_grid g r c = Ok v.
Proof. intros g r c v Hr Hc E. unfold rd_grid. destruct (Z.leb_spec 0 r), (Z.ltb_spec r 32), (Z.leb_spec 0 c), (Z.ltb_spec c 32); try (exfalso; lia). cbn [andb]. rewrite E. reflexivity. Qed.

Lemma num_le : forall w lw lb, 0 <= lw -> lb <= lw + 1 -> w <= 2 ^ lb -> (w + 2 ^ lw - 1) / 2 ^ lw <= 2.
Proof.
  intros w lw lb H0 H1 H2. pose proof (pow_pos lw H0) as P. assert (Q : 2 ^ lb <= 2 * 2 ^ lw) by (rewrite <- Z.pow_succ_r by exact H0; apply Z.pow_le_mono_r; lia).
  apply Z.lt_succ_r. apply Z.div_lt_upper_bound; [exact P|]. clear - P Q H2. lia.
Qed.
Section LumaInter.
Variables (nrows stride bx by_ iw ih lbw lbh bw bh lw lh na nl : Z) (tx_masks lvl : Z -> Z) (m0 m1 : masks) (v : cache) (ay ly : arr) (PL PA : Z -> Z).
Hypothesis Hlw : 0 <= lw <= lbw /\ lbw <= 5.
Hypothesis Hlh : 0 <= lh <= lbh /\ lbh <= 5.
Hypothesis Hmax : lw = 0 /\ lh = 0 \/ lbw <= lw + 1 /\ lbh <= lh + 1.
Hypothesis Hbw : pow_is bw lbw.
Hypothesis Hbh : pow_is bh lbh.
Hypothesis Hbx : 0 <= bx < iw.
Hypothesis Hby : 0 <= by_ < ih.
Hypothesis Hax : aligned bx bw.
Hypothesis Hay : aligned by_ bh.
Hypothesis Hrows : ih <= nrows.
Hypothesis Hstride : iw <= stride.
Notation w := (Z.min (iw - bx) bw). Notation h := (Z.min (ih - by_) bh).
Hypothesis Hna : w <= na.
Hypothesis Hnl : h <= nl.
Hypothesis HL : forall r, by_ <= r < by_ + h -> ly (r - by_) = Some (Z.min 2 (PL r)) /\ 0 <= PL r.
Hypothesis HA : forall c, bx <= c < bx + w -> ay (c - bx) = Some (Z.min 2 (PA c)) /\ 0 <= PA c.
Hypothesis Hm0 : mask_ok false 16 m0.
Hypothesis Hm1 : mask_ok false 16 m1.
Hypothesis Hc0 : forall c r, bx <= c < bx + w -> by_ <= r < by_ + h -> edge false 16 m0 (c mod 32) (r mod 32) = None.
Hypothesis Hc1 : forall c r, bx <= c < bx + w -> by_ <= r < by_ + h -> edge false 16 m1 (r mod 32) (c mod 32) = None.
Notation split := (fun d i j => Z.testbit (tx_masks d) (i * 4 + j)).
Notation Tw := (fun r c => fst (block_tx split lw lh (r - by_) (c - bx))). Notation Th := (fun r c => snd (block_tx split lw lh (r - by_) (c - bx))).
Lemma luma_inter_ok : forall skip, exists m0' m1' v' a' l', create_luma_inter nrows stride bx by_ iw ih bw bh skip lw lh tx_masks na nl lvl (m0, m1) v ay ly = Ok (m0', m1', v', a', l') /\
  mask_ok false 16 m0' /\ mask_ok false 16 m1' /\
  (forall c r, c / 32 = bx / 32 -> r / 32 = by_ / 32 -> edge false 16 m0' (c mod 32) (r mod 32) =
    if inb bx w by_ h c r then MaskSpec.edge 0 c (2 ^ Tw r c) bw (2 ^ (if c =? bx then PL r else Tw r (c - 1))) skip false else edge false 16 m0 (c mod 32) (r mod 32)) /\
  (forall c r, c / 32 = bx / 32 -> r / 32 = by_ / 32 -> edge false 16 m1' (r mod 32) (c mod 32) =
    if inb bx w by_ h c r then MaskSpec.edge 0 r (2 ^ Th r c) bh (2 ^ (if r =? by_ then PA c else Th (r - 1) c)) skip false else edge false 16 m1 (r mod 32) (c mod 32)) /\
  (forall r c i, v' r c i = if inb bx w by_ h c r && ((i =? 0) || (i =? 1)) then Some (lvl i) else v r c i) /\
  (forall j, a' j = if (0 <=? j) && (j <? w) then Some (Z.min 2 (Th (by_ + h - 1) (bx + j))) else ay j) /\ (forall j, l' j = if (0 <=? j) && (j <? h) then Some (Z.min 2 (Tw (by_ + j) (bx + w - 1))) else ly j).
Proof.
  intros skip. pose proof (pow_pos lbw ltac:(lia)) as Q1. pose proof (pow_pos lbh ltac:(lia)) as Q2. rewrite <- Hbw in Q1. rewrite <- Hbh in Q2.
  destruct (min_pos _ _ _ Hbx Q1) as [W1 V1]. destruct (min_pos _ _ _ Hby Q2) as [W2 V2].
  assert (D1 : (bw | 32)) by (rewrite Hbw; apply (pow_divide _ 5); lia). assert (D2 : (bh | 32)) by (rewrite Hbh; apply (pow_divide _ 5); lia).
  assert (L1 : bw <= 32) by (apply Z.divide_pos_le; [lia|exact D1]). assert (L2 : bh <= 32) by (apply Z.divide_pos_le; [lia|exact D2]).
  pose proof (pow_pos lw ltac:(lia)) as PW. pose proof (pow_pos lh ltac:(lia)) as PH.
  assert (X1 : (w + 2 ^ lw - 1) / 2 ^ lw * 2 ^ lw <= 32) by (apply Z.le_trans with bw; [apply ceil_in; [exact PW|rewrite Hbw; apply pow_div; apply Hlw|apply W1]|exact L1]).
  assert (X2 : (h + 2 ^ lh - 1) / 2 ^ lh * 2 ^ lh <= 32) by (apply Z.le_trans with bh; [apply ceil_in; [exact PH|rewrite Hbh; apply pow_div; apply Hlh|apply W2]|exact L2]).
  assert (X3 : lw = 0 /\ lh = 0 \/ (w + 2 ^ lw - 1) / 2 ^ lw <= 2 /\ (h + 2 ^ lh - 1) / 2 ^ lh <= 2).
  { destruct Hmax as [N|[N1 N2]]; [left; exact N|right]. split; [apply (num_le _ lw lbw); [apply Hlw|exact N1|rewrite <- Hbw; apply W1]|apply (num_le _ lh lbh); [apply Hlh|exact N2|rewrite <- Hbh; apply W2]]. }
  unfold create_luma_inter. rewrite !land31. destruct (Z.eqb_spec w 0) as [N|_]; [clear - N W1; lia|]. destruct (Z.eqb_spec h 0) as [N|_]; [clear - N W2; lia|]. cbn [negb andb].
  destruct (fill_cache_ok nrows stride by_ bx h w 0 (lvl 0) 1 (lvl 1) v) as (v' & Ev & Iv); try (clear - Hbx Hby W1 W2 V1 V2 Hrows Hstride; lia). rewrite Ev. cbn [obind].
  unfold mask_edges_inter. cbv zeta. destruct (decomp_block_ok tx_masks w h lw lh (proj1 (proj1 Hlw)) (proj1 (proj1 Hlh)) (proj1 W1) (proj1 W2) X1 X2 X3 (Txa (fun _ _ => None) (fun _ _ => None) (fun _ _ => None) (fun _ _ => None))) as (t & Et & It). rewrite Et. cbn [obind fst snd]. clear Et X1 X2 X3 Ev.
  set (ww := w) in *. set (hh := h) in *. clearbody ww hh.
  assert (B0 : forall y z, 0 <= fst (block_tx split lw lh y z) <= lbw) by (intros y z; pose proof (bt_bound split lw lh ltac:(lia) ltac:(lia) y z); lia).
  assert (B1 : forall y z, 0 <= snd (block_tx split lw lh y z) <= lbh) by (intros y z; pose proof (bt_bound split lw lh ltac:(lia) ltac:(lia) y z); lia).
  assert (S1 : forall y z d, (2 ^ snd (block_tx split lw lh z y) | z) -> 0 <= d < 2 ^ snd (block_tx split lw lh z y) -> snd (block_tx split lw lh (z + d) y) = snd (block_tx split lw lh z y)).
  { intros y z d. rewrite !(block_swap split lw lh). cbn [swap fst snd]. intros H1 H2. f_equal. apply bt_col; try assumption; lia. }
  assert (S2 : forall y z, (2 ^ snd (block_tx split lw lh z y) | z) -> (2 ^ snd (block_tx split lw lh (z + 2 ^ snd (block_tx split lw lh z y)) y) | z + 2 ^ snd (block_tx split lw lh z y))).
  { intros y z. rewrite !(block_swap split lw lh). cbn [swap fst snd]. intros H1. apply bt_next; try assumption; lia. }
  destruct (inter_block bx by_ bw bh lbw ww hh nl (fun y x => fst (block_tx split lw lh y x)) (fun y x => rd_grid (tx0 t) y x) (fun y x => rd_grid (st0 t) y x) ly PL skip m0) as (k0 & m0' & E0 & F0 & M0 & I0); try assumption.
  { intros y z d H1 H2. f_equal. apply bt_col; try assumption; lia. }
  { intros y z H1. apply bt_next; try assumption; lia. }
  { intros y z Hy Hz. apply rd_grid_ok; [clear - Hy W2 L2; lia|clear - Hz W1 L1; lia|]. apply (It y z Hy Hz). }
  { intros y z Hy Hz D. apply rd_grid_ok; [clear - Hy W2 L2; lia|clear - Hz W1 L1; lia|]. apply (It y z Hy Hz). exact D. }
  destruct (inter_block by_ bx bh bw lbh hh ww na (fun x y => snd (block_tx split lw lh y x)) (fun x y => rd_grid (tx1 t) y x) (fun x y => rd_grid (st1 t) y x) ay PA skip m1) as (k1 & m1' & E1 & F1 & M1 & I1); try assumption.
  { intros y z. apply B1. }
  { intros y z Hy Hz. apply rd_grid_ok; [clear - Hz W2 L2; lia|clear - Hy W1 L1; lia|]. apply (It z y Hz Hy). }
  { intros y z Hy Hz D. apply rd_grid_ok; [clear - Hz W2 L2; lia|clear - Hy W1 L1; lia|]. apply (It z y Hz Hy). exact D. }
  { intros c r H1 H2. apply Hc1; assumption. }
  rewrite E0. cbn [obind]. rewrite E1. cbn [obind].
  assert (Bi : (if negb skip then let! m0 := inner_walk (bx mod 32) ww (by_ mod 32) hh (fun y x => rd_grid (tx0 t) y x) (fun y x => rd_grid (st0 t) y x) k0 in
      let! m1 := inner_walk (by_ mod 32) hh (bx mod 32) ww (fun x y => rd_grid (tx1 t) y x) (fun x y => rd_grid (st1 t) y x) k1 in Ok (m0, m1) else Ok (k0, k1)) = Ok (m0', m1')).
  { destruct (negb skip); [rewrite F0; cbn [obind]; rewrite F1; reflexivity|]. injection F0 as <-. injection F1 as <-. reflexivity. }
  rewrite Bi. cbn [obind fst snd].
  destruct (store_ok nl (fun y => rd_grid (tx0 t) y (ww - 1)) (fun y => Z.min 2 (fst (block_tx split lw lh y (ww - 1)))) hh ly) as (l' & El & Il); [clear - W2 Hnl; lia|intros y Hy; apply rd_grid_ok; [clear - Hy W2 L2; lia|clear - W1 L1; lia|]; apply (It y (ww - 1) Hy); clear - W1; lia|]. rewrite El. cbn [obind].
  destruct (store_ok na (fun x => rd_grid (tx1 t) (hh - 1) x) (fun x => Z.min 2 (snd (block_tx split lw lh (hh - 1) x))) ww ay) as (a' & Ea & Ia); [clear - W1 Hna; lia|intros y Hy; apply rd_grid_ok; [clear - W2 L2; lia|clear - Hy W1 L1; lia|]; apply (It (hh - 1) y); [clear - W2; lia|exact Hy]|]. rewrite Ea. cbn [obind].
  exists m0', m1', v', a', l'. split; [reflexivity|]. split; [exact M0|]. split; [exact M1|]. split; [|split; [|split; [|split]]].
  - intros c r Hc Hr. rewrite (I0 c r Hc Hr). replace (c - bx - 1) with (c - 1 - bx) by (clear; lia). reflexivity.
  - intros c r Hc Hr. rewrite (I1 r c Hr Hc). replace (inb by_ hh bx ww r c) with (inb bx ww by_ hh c r) by (unfold inb; apply andb_comm). replace (r - by_ - 1) with (r - 1 - by_) by (clear; lia). reflexivity.
  - intros r c i. rewrite Iv. destruct (inb bx ww by_ hh c r); cbn [andb]; [|reflexivity]. destruct (Z.eqb_spec i 0) as [->|]; [reflexivity|]. destruct (Z.eqb_spec i 1) as [->|]; reflexivity.
  - intros j. rewrite Ia. replace (by_ + hh - 1 - by_) with (hh - 1) by (clear; lia). replace (bx + j - bx) with j by (clear; lia). reflexivity.
  - intros j. rewrite Il. replace (bx + ww - 1 - bx) with (ww - 1) by (clear; lia). replace (by_ + j - by_) with j by (clear; lia). reflexivity.
Qed.
End LumaInter.

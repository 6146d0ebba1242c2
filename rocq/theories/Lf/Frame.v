(** The edges of a superblock row. *)
From Coq Require Import ZArith List Bool Lia.
From Verif Require Import Base.CInt Base.Lemmas Base.Loop Mc.Kernel Lf.Model Lf.Line Lf.Edge Lf.Strip.
From Verif Require Lf.Spec.
Import ListNotations.
Open Scope Z_scope.
Local Open Scope outcome_scope.

(** * Iterated functions *)
Lemma zfor_ext : forall S (f g : Z -> S -> S) lo hi s, (forall i s, lo <= i < hi -> f i s = g i s) -> zfor lo hi f s = zfor lo hi g s.
Proof.
  intros S f g lo hi s E. unfold zfor. assert (G : forall n i s, lo <= i -> i + Z.of_nat n <= Z.max lo hi -> ziter n i f s = ziter n i g s).
  { induction n as [|n IH]; intros i s1 H1 H2; [reflexivity|]. cbn [ziter]. rewrite E by lia. apply IH; lia. }
  apply G; lia.
Qed.
Lemma zfor_app : forall S (f : Z -> S -> S) a b c s, a <= b -> b <= c -> zfor a c f s = zfor b c f (zfor a b f s).
Proof.
  intros S f a b c s H1 H2. replace c with (b + Z.of_nat (Z.to_nat (c - b))) by lia. generalize (Z.to_nat (c - b)). intros n. clear H2 c. induction n as [|n IH].
  - replace (b + Z.of_nat 0) with b by lia. rewrite (zfor_nil _ f b b) by lia. reflexivity.
  - replace (b + Z.of_nat (Datatypes.S n)) with (b + Z.of_nat n + 1) by lia. rewrite !zfor_last by lia. rewrite IH. reflexivity.
Qed.
Lemma zfor_shift : forall S (f : Z -> S -> S) k lo hi s, zfor (k + lo) (k + hi) f s = zfor lo hi (fun i => f (k + i)) s.
Proof.
  intros S f k lo hi s. unfold zfor. replace (k + hi - (k + lo)) with (hi - lo) by lia. generalize (Z.to_nat (hi - lo)). intros n. revert lo s. induction n as [|n IH]; intros lo s; [reflexivity|].
  cbn [ziter]. replace (k + lo + 1) with (k + (lo + 1)) by lia. apply IH.
Qed.
Lemma zfor_id : forall S (f : Z -> S -> S) lo hi s, (forall i s, lo <= i < hi -> f i s = s) -> zfor lo hi f s = s.
Proof.
  intros S f lo hi s E. rewrite (zfor_ext _ f (fun _ s => s)) by exact E. unfold zfor. generalize (Z.to_nat (hi - lo)). intros n. generalize lo. induction n as [|n IH]; intros i; [reflexivity|]. cbn [ziter]. apply IH.
Qed.
(** Blocks of [nb] up to [total] *)
Lemma zfor_blocks : forall S (f : Z -> S -> S) nb total n s, 0 < nb -> 0 <= total -> 0 <= n ->
  zfor 0 n (fun X s => zfor 0 (Z.min nb (total - nb * X)) (fun x => f (nb * X + x)) s) s = zfor 0 (Z.min total (nb * n)) f s.
Proof.
  intros S f nb total n s Hn Ht H. replace n with (Z.of_nat (Z.to_nat n)) by lia. generalize (Z.to_nat n). clear n H. intros n. induction n as [|n IH].
  - replace (Z.min total (nb * Z.of_nat 0)) with 0 by lia. reflexivity.
  - replace (Z.of_nat (Datatypes.S n)) with (Z.of_nat n + 1) by lia. rewrite zfor_last by lia. rewrite IH. clear IH. set (m := Z.of_nat n). assert (Hm : 0 <= m) by (unfold m; lia).
    destruct (Z.le_gt_cases total (nb * m)) as [L|L].
    + replace (Z.min total (nb * (m + 1))) with total by nia. replace (Z.min total (nb * m)) with total by lia. apply zfor_nil. lia.
    + replace (Z.min total (nb * m)) with (nb * m) by lia. rewrite (zfor_app _ f 0 (nb * m) (Z.min total (nb * (m + 1)))) by nia.
      replace (Z.min total (nb * (m + 1))) with (nb * m + Z.min nb (total - nb * m)) by lia. replace (nb * m) with (nb * m + 0) at 3 by lia. rewrite zfor_shift. reflexivity.
Qed.

(** * Masks *)
(** The size of the edge of unit [kk] in column (or row) [x] of a superblock, whose masks have halves of [hb] bits *)
Definition edge (uv : bool) (hb : Z) (mask : masks) (x kk : Z) : option Z := sz uv (fun i => mask x i (kk / hb)) (kk mod hb).
Definition mask_ok (uv : bool) (hb : Z) (mask : masks) : Prop := forall x i s, 0 <= x < 32 -> 0 <= i < (if uv then 2 else 3) -> 0 <= s < 2 -> 0 <= mask x i s < 2 ^ hb.

Lemma sz_ext : forall (uv : bool) m m' k k', (forall i, 0 <= i < (if uv then 2 else 3) -> Z.testbit (m i) k = Z.testbit (m' i) k') -> sz uv m k = sz uv m' k'.
Proof.
  intros uv m m' k k' E. unfold sz. rewrite (E 0), (E 1) by (destruct uv; lia). destruct uv; cbn [negb andb]; [reflexivity|]. rewrite (E 2) by lia. reflexivity.
Qed.
Lemma sz_none : forall (uv : bool) m k, (forall i, 0 <= i < (if uv then 2 else 3) -> Z.testbit (m i) k = false) -> sz uv m k = None.
Proof.
  intros uv m k E. unfold sz. rewrite (E 0), (E 1) by (destruct uv; lia). destruct uv; cbn [negb andb]; [reflexivity|]. rewrite (E 2) by lia. reflexivity.
Qed.
Lemma high_bit : forall v n k, 0 <= v < 2 ^ n -> 0 <= n <= k -> Z.testbit v k = false.
Proof.
  intros v n k H1 H2. destruct (Z.eq_dec v 0) as [->|N]; [apply Z.bits_0|]. apply Z.bits_above_log2; [lia|]. assert (Z.log2 v < n) by (apply Z.log2_lt_pow2; lia). lia.
Qed.
Lemma both_bits : forall a b hb k, hb = 8 \/ hb = 16 -> 0 <= a < 2 ^ hb -> 0 <= b < 2 ^ hb -> 0 <= k ->
  Z.testbit (Z.lor a (shl32 b hb)) k = if k <? hb then Z.testbit a k else Z.testbit b (k - hb).
Proof.
  intros a b hb k Hh Ha Hb Hk. unfold shl32, u32. rewrite Z.shiftl_mul_pow2 by lia. rewrite Z.mod_small by (destruct Hh as [-> | ->]; [change (2 ^ 8) with 256 in *|change (2 ^ 16) with 65536 in *]; change (2 ^ 32) with 4294967296; lia).
  rewrite Z.lor_spec, <- Z.shiftl_mul_pow2 by lia. rewrite Z.shiftl_spec by lia. destruct (Z.ltb_spec k hb).
  - rewrite (Z.testbit_neg_r b) by lia. apply orb_false_r.
  - rewrite (high_bit a hb k) by lia. reflexivity.
Qed.
Definition Mcol (hb start en : Z) (mask : masks) (x i : Z) : Z :=
  if start =? 0 then if hb <? en then Z.lor (mask x i 0) (shl32 (mask x i 1) hb) else mask x i 0 else mask x i 1.
Definition Mrow (hb : Z) (mask : masks) (y i : Z) : Z := Z.lor (mask y i 0) (shl32 (mask y i 1) hb).

Lemma div_lo : forall hb k, 0 <= k < hb -> k / hb = 0 /\ k mod hb = k.
Proof. intros hb k H. split; [apply Z.div_small|apply Z.mod_small]; lia. Qed.
Lemma div_hi : forall hb k, hb <= k < 2 * hb -> k / hb = 1 /\ k mod hb = k - hb.
Proof. intros hb k H. split; [symmetry; apply (Z.div_unique k hb 1 (k - hb)); lia|symmetry; apply (Z.mod_unique k hb 1 (k - hb)); lia]. Qed.

Lemma row_sz : forall uv hb mask y k, hb = 8 \/ hb = 16 -> mask_ok uv hb mask -> 0 <= y < 32 -> 0 <= k < 32 ->
  sz uv (Mrow hb mask y) k = if k <? 2 * hb then edge uv hb mask y k else None.
Proof.
  intros uv hb mask y k Hh MO Hy Hk. destruct (Z.ltb_spec k (2 * hb)).
  - unfold edge. apply sz_ext. intros i Hi. pose proof (MO y i 0 Hy Hi ltac:(lia)). pose proof (MO y i 1 Hy Hi ltac:(lia)). unfold Mrow. rewrite both_bits by (try assumption; lia).
    destruct (Z.ltb_spec k hb); [destruct (div_lo hb k ltac:(lia)) as [-> ->]|destruct (div_hi hb k ltac:(lia)) as [-> ->]]; reflexivity.
  - apply sz_none. intros i Hi. pose proof (MO y i 0 Hy Hi ltac:(lia)). pose proof (MO y i 1 Hy Hi ltac:(lia)). unfold Mrow. rewrite both_bits by (try assumption; lia).
    destruct (Z.ltb_spec k hb); [lia|]. apply (high_bit _ hb); [assumption|lia].
Qed.
Lemma col_sz : forall uv hb start en mask x k, hb = 8 \/ hb = 16 -> mask_ok uv hb mask -> 0 <= x < 32 -> 0 <= k < 32 -> start = 0 \/ start = hb -> start < en <= 2 * hb ->
  (forall kk, en <= kk < (if en <=? hb then hb else 2 * hb) -> edge uv hb mask x kk = None) ->
  sz uv (Mcol hb start en mask x) k = if k <? en - start then edge uv hb mask x (start + k) else None.
Proof.
  intros uv hb start en mask x k Hh MO Hx Hk HS HE Hn'.
  assert (Hn : forall kk, en <= kk < 2 * hb -> (hb < en \/ kk < hb) -> edge uv hb mask x kk = None) by (intros kk K1 K2; apply Hn'; destruct (Z.leb_spec en hb); lia). clear Hn'.
  assert (First : start = 0 -> k < hb -> sz uv (Mcol hb start en mask x) k = edge uv hb mask x (start + k)).
  { intros E L. rewrite E. change (0 + k) with k. unfold edge. destruct (div_lo hb k ltac:(lia)) as [E1 E2]. apply sz_ext. intros i Hi. rewrite E1, E2. unfold Mcol. change (0 =? 0) with true. cbv iota. destruct (Z.ltb_spec hb en); [|reflexivity].
    rewrite both_bits by (try apply MO; try assumption; lia). destruct (Z.ltb_spec k hb); [reflexivity|lia]. }
  assert (Second : start = 0 -> hb <= k -> k < 2 * hb -> hb < en -> sz uv (Mcol hb start en mask x) k = edge uv hb mask x (start + k)).
  { intros E L L2 L3. rewrite E. change (0 + k) with k. unfold edge. destruct (div_hi hb k ltac:(lia)) as [E1 E2]. apply sz_ext. intros i Hi. rewrite E1, E2. unfold Mcol. change (0 =? 0) with true. cbv iota. destruct (Z.ltb_spec hb en); [|lia].
    rewrite both_bits by (try apply MO; try assumption; lia). destruct (Z.ltb_spec k hb); [lia|reflexivity]. }
  assert (Third : start = hb -> k < hb -> sz uv (Mcol hb start en mask x) k = edge uv hb mask x (start + k)).
  { intros E L. unfold edge. destruct (div_hi hb (start + k) ltac:(lia)) as [E1 E2]. apply sz_ext. intros i Hi. rewrite E1, E2. unfold Mcol. destruct (Z.eqb_spec start 0); [lia|]. replace (start + k - hb) with k by lia. reflexivity. }
  assert (High : (start = 0 /\ 2 * hb <= k) \/ (start = 0 /\ hb <= k /\ en <= hb) \/ (start = hb /\ hb <= k) -> sz uv (Mcol hb start en mask x) k = None).
  { intros Q. apply sz_none. intros i Hi. pose proof (MO x i 0 Hx Hi ltac:(lia)). pose proof (MO x i 1 Hx Hi ltac:(lia)). unfold Mcol. destruct (Z.eqb_spec start 0).
    - destruct (Z.ltb_spec hb en); [|apply (high_bit _ hb); [assumption|lia]]. rewrite both_bits by (try assumption; lia). destruct (Z.ltb_spec k hb); [lia|]. apply (high_bit _ hb); [assumption|lia].
    - apply (high_bit _ hb); [assumption|lia]. }
  destruct (Z.ltb_spec k (en - start)) as [L|L].
  - destruct HS as [E|E]; [|apply Third; lia]. destruct (Z.lt_ge_cases k hb); [apply First; lia|apply Second; lia].
  - destruct HS as [E|E].
    + destruct (Z.lt_ge_cases k hb); [rewrite First by lia; apply Hn; lia|]. destruct (Z.le_gt_cases en hb); [apply High; lia|].
      destruct (Z.le_gt_cases (2 * hb) k); [apply High; lia|]. rewrite Second by lia. apply Hn; lia.
    + destruct (Z.lt_ge_cases k hb); [rewrite Third by lia; apply Hn; lia|apply High; lia].
Qed.

(** * Planes *)
Section Planes.
Variables (bd rows cols : Z) (t : lut) (lev : levels).
Definition strip_h (pl i : Z) (m : Z -> Z) (r c : Z) (d : plane) : outcome plane :=
  for_ 0 32 (fun k d => match sz (negb (pl =? 0)) m k with Some fs => filter_unit bd rows cols t true (lev (r + k) c i) (lev (r + k) (c - 1) i) (width pl fs) (yof true (4 * r + 4 * k) (4 * c)) (xof true (4 * r + 4 * k) (4 * c)) d | None => Ok d end) d.
Definition strip_v (pl i : Z) (m : Z -> Z) (r c : Z) (d : plane) : outcome plane :=
  for_ 0 32 (fun k d => match sz (negb (pl =? 0)) m k with Some fs => filter_unit bd rows cols t false (lev r (c + k) i) (lev (r - 1) (c + k) i) (width pl fs) (yof false (4 * c + 4 * k) (4 * r)) (xof false (4 * c + 4 * k) (4 * r)) d | None => Ok d end) d.
Lemma rdm_ok : forall n m x i s, 0 <= x < 32 -> 0 <= i < n -> 0 <= s < 2 -> rdm n m x i s = Ok (m x i s).
Proof. intros n m x i s H1 H2 H3. unfold rdm. destruct (Z.leb_spec 0 x), (Z.ltb_spec x 32), (Z.leb_spec 0 i), (Z.ltb_spec i n), (Z.leb_spec 0 s), (Z.ltb_spec s 2); try lia. reflexivity. Qed.
Ltac unitwise := unfold strip_h, strip_v; apply for_ext; intros k d2 Hk; destruct (sz _ _ k); [|reflexivity].

Lemma cols_y_eq : forall hl r c mask w s e d, w <= 32 ->
  filter_plane_cols_y bd rows cols t hl lev r c mask (4 * r) (4 * c) w s e d =
  for_ 0 w (fun x d => if negb hl && (x =? 0) then Ok d else strip_h 0 0 (Mcol 16 s e mask x) r (c + x) d) d.
Proof.
  intros hl r c mask w s e d Hw. unfold filter_plane_cols_y. apply for_ext. intros x d1 Hx. destruct (negb hl && (x =? 0)); [reflexivity|].
  rewrite !rdm_ok by lia. cbn [obind]. replace (if s =? 0 then _ else _) with (@Ok (Z * Z * Z) (Mcol 16 s e mask x 0, Mcol 16 s e mask x 1, Mcol 16 s e mask x 2)) by (unfold Mcol; destruct (s =? 0); [destruct (16 <? e)|]; reflexivity).
  cbn [obind fst snd]. rewrite (h_y bd rows cols t 0 _ (Mcol 16 s e mask x)) by reflexivity. unitwise. replace (c + x + 0) with (c + x) by lia. replace (c + x + -1) with (c + x - 1) by lia. replace (4 * c + x * 4) with (4 * (c + x)) by lia. reflexivity.
Qed.
Lemma cols_uv_eq : forall i pl hl r c mask w s e ss d, pl <> 0 -> w <= 32 ->
  filter_plane_cols_uv bd rows cols i t hl lev r c mask (4 * r) (4 * c) w s e ss d =
  for_ 0 w (fun x d => if negb hl && (x =? 0) then Ok d else strip_h pl i (Mcol (Z.shiftr 16 ss) s e mask x) r (c + x) d) d.
Proof.
  intros i pl hl r c mask w s e ss d Hp Hw. unfold filter_plane_cols_uv. apply for_ext. intros x d1 Hx. destruct (negb hl && (x =? 0)); [reflexivity|].
  rewrite !rdm_ok by lia. cbn [obind]. replace (if s =? 0 then _ else _) with (@Ok (Z * Z) (Mcol (Z.shiftr 16 ss) s e mask x 0, Mcol (Z.shiftr 16 ss) s e mask x 1)) by (unfold Mcol; destruct (s =? 0); [destruct (Z.shiftr 16 ss <? e)|]; reflexivity).
  cbn [obind fst snd]. rewrite (h_uv bd rows cols t pl _ (Mcol (Z.shiftr 16 ss) s e mask x)) by exact Hp. unitwise. replace (c + x + 0) with (c + x) by lia. replace (c + x + -1) with (c + x - 1) by lia. replace (4 * c + x * 4) with (4 * (c + x)) by lia. reflexivity.
Qed.
Lemma rows_y_eq : forall ht r c mask s e d, 0 <= s -> e <= 32 ->
  filter_plane_rows_y bd rows cols t ht lev r c mask (4 * r) (4 * c) s e d =
  for_ s e (fun y d => if negb ht && (y =? 0) then Ok d else strip_v 0 1 (Mrow 16 mask y) (r + (y - s)) c d) d.
Proof.
  intros ht r c mask s e d Hs He. unfold filter_plane_rows_y. apply for_ext. intros y d1 Hy. destruct (negb ht && (y =? 0)); [reflexivity|].
  rewrite !rdm_ok by lia. cbn [obind]. change (Z.lor (mask y ?i 0) (shl32 (mask y ?i 1) 16)) with (Mrow 16 mask y i). rewrite (v_y bd rows cols t 0 _ (Mrow 16 mask y)) by reflexivity. unitwise.
  replace (r + (y - s) + 0) with (r + (y - s)) by lia. replace (r + (y - s) + -1) with (r + (y - s) - 1) by lia. replace (4 * r + 4 * (y - s)) with (4 * (r + (y - s))) by lia. reflexivity.
Qed.
Lemma rows_uv_eq : forall i pl ht r c mask s e ss d, pl <> 0 -> 0 <= s -> e <= 32 ->
  filter_plane_rows_uv bd rows cols i t ht lev r c mask (4 * r) (4 * c) s e ss d =
  for_ s e (fun y d => if negb ht && (y =? 0) then Ok d else strip_v pl i (Mrow (Z.shiftr 16 ss) mask y) (r + (y - s)) c d) d.
Proof.
  intros i pl ht r c mask s e ss d Hp Hs He. unfold filter_plane_rows_uv. apply for_ext. intros y d1 Hy. destruct (negb ht && (y =? 0)); [reflexivity|].
  rewrite !rdm_ok by lia. cbn [obind]. fold (Mrow (Z.shiftr 16 ss) mask y 0). fold (Mrow (Z.shiftr 16 ss) mask y 1). rewrite (v_uv bd rows cols t pl _ (Mrow (Z.shiftr 16 ss) mask y)) by exact Hp. unitwise.
  replace (r + (y - s) + 0) with (r + (y - s)) by lia. replace (r + (y - s) + -1) with (r + (y - s) - 1) by lia. replace (4 * r + 4 * (y - s)) with (4 * (r + (y - s))) by lia. reflexivity.
Qed.
End Planes.

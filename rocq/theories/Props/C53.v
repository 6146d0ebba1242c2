(** C53: the masks of the loop filter. The masks that src/lf_mask.c builds for a block, corrected at tile boundaries by
    src/lf_apply_tmpl.c, hold exactly the edges and filter sizes of the AV1 specification (7.14.2, 7.14.3). *)
From Coq Require Import ZArith List Bool Lia.
From Verif Require Import Base.CInt Base.Loop Lf.Model Lf.Frame Lf.Sbrow Lf.Deblock Lf.MaskModel Lf.MaskBlock Lf.MaskCreate Lf.MaskTile Lf.MaskInterModel Lf.MaskInter Lf.MaskTilesModel Lf.MaskTiles.
From Verif Require Lf.MaskSpec Lf.MaskInterSpec.
Import ListNotations.
Open Scope Z_scope.
Local Open Scope outcome_scope.

(** Positions and sizes are in units of four samples of the plane. [edge uv hb m x p] is the size of the edge that
    the masks [m] hold at position [p] of the line [x] across the edges, of a 128x128 block; it is what C52 filters.
    [inb x w y h c r] says that column [c], row [r] is inside of the block at [x], [y] of size [w] x [h]. *)
Theorem C53_inside : forall x w y h c r, inb x w y h c r = true <-> x <= c < x + w /\ y <= r < y + h.
Proof.
  intros x w y h c r. split; [apply inb_true|]. intros [H1 H2]. unfold inb. destruct (Z.leb_spec x c), (Z.ltb_spec c (x + w)), (Z.leb_spec y r), (Z.ltb_spec r (y + h)); try reflexivity; lia.
Qed.

(** * Luma of an intra block *)
(** A block at [bx], [by_] of 2^lbw x 2^lbh units in a picture of [iw] x [ih], with transforms of 2^lw x 2^lh units.
    [PL r] and [PA c] are the logarithms of the sizes of the transforms before it in row [r] and column [c]. The masks,
    levels and contexts outside of the block do not change. *)
Theorem C53_luma_intra : forall nrows stride bx by_ iw ih lbw lbh lw lh na nl lvl m0 m1 v ay ly PL PA skip,
  let w := Z.min (iw - bx) (2 ^ lbw) in let h := Z.min (ih - by_) (2 ^ lbh) in
  0 <= lw <= lbw /\ lbw <= 5 -> 0 <= lh <= lbh /\ lbh <= 5 -> 0 <= bx < iw -> 0 <= by_ < ih -> bx mod 2 ^ lbw = 0 -> by_ mod 2 ^ lbh = 0 ->
  ih <= nrows -> iw <= stride -> w <= na -> h <= nl ->
  (forall r, by_ <= r < by_ + h -> ly (r - by_) = Some (Z.min 2 (PL r)) /\ 0 <= PL r) ->
  (forall c, bx <= c < bx + w -> ay (c - bx) = Some (Z.min 2 (PA c)) /\ 0 <= PA c) ->
  mask_ok false 16 m0 -> mask_ok false 16 m1 ->
  (forall c r, bx <= c < bx + w -> by_ <= r < by_ + h -> edge false 16 m0 (c mod 32) (r mod 32) = None) ->
  (forall c r, bx <= c < bx + w -> by_ <= r < by_ + h -> edge false 16 m1 (r mod 32) (c mod 32) = None) ->
  exists m0' m1' v' a' l', create_luma_intra nrows stride bx by_ iw ih (2 ^ lbw) (2 ^ lbh) lw lh na nl lvl (m0, m1) v ay ly = Ok (m0', m1', v', a', l') /\
    mask_ok false 16 m0' /\ mask_ok false 16 m1' /\
    (forall c r, c / 32 = bx / 32 -> r / 32 = by_ / 32 -> edge false 16 m0' (c mod 32) (r mod 32) =
      if inb bx w by_ h c r then MaskSpec.edge 0 c (2 ^ lw) (2 ^ lbw) (2 ^ (if c =? bx then PL r else lw)) skip true else edge false 16 m0 (c mod 32) (r mod 32)) /\
    (forall c r, c / 32 = bx / 32 -> r / 32 = by_ / 32 -> edge false 16 m1' (r mod 32) (c mod 32) =
      if inb bx w by_ h c r then MaskSpec.edge 0 r (2 ^ lh) (2 ^ lbh) (2 ^ (if r =? by_ then PA c else lh)) skip true else edge false 16 m1 (r mod 32) (c mod 32)) /\
    (forall r c i, v' r c i = if inb bx w by_ h c r && ((i =? 0) || (i =? 1)) then Some (lvl i) else v r c i) /\
    (forall j, a' j = if (0 <=? j) && (j <? w) then Some (Z.min 2 lh) else ay j) /\ (forall j, l' j = if (0 <=? j) && (j <? h) then Some (Z.min 2 lw) else ly j).
Proof. intros. apply luma_intra_ok with (lbw := lbw) (lbh := lbh); try assumption; reflexivity. Qed.

(** * Luma of an inter block *)
(** The block is split into transforms of 2^lw x 2^lh units, of 4x4 samples or at most two in a row or column, and each of these by up to two levels of splits, which
    [tx_masks] tells. [block_tx] are the logarithms of the size of the transform at a row and column of the block. *)
Theorem C53_luma_inter : forall nrows stride bx by_ iw ih lbw lbh lw lh na nl tx_masks lvl m0 m1 v ay ly PL PA skip,
  let w := Z.min (iw - bx) (2 ^ lbw) in let h := Z.min (ih - by_) (2 ^ lbh) in
  let tx r c := MaskInterSpec.block_tx (fun depth i j => Z.testbit (tx_masks depth) (i * 4 + j)) lw lh (r - by_) (c - bx) in
  0 <= lw <= lbw /\ lbw <= 5 -> 0 <= lh <= lbh /\ lbh <= 5 ->
  lw = 0 /\ lh = 0 \/ lbw <= lw + 1 /\ lbh <= lh + 1 -> 0 <= bx < iw -> 0 <= by_ < ih -> bx mod 2 ^ lbw = 0 -> by_ mod 2 ^ lbh = 0 ->
  ih <= nrows -> iw <= stride -> w <= na -> h <= nl ->
  (forall r, by_ <= r < by_ + h -> ly (r - by_) = Some (Z.min 2 (PL r)) /\ 0 <= PL r) ->
  (forall c, bx <= c < bx + w -> ay (c - bx) = Some (Z.min 2 (PA c)) /\ 0 <= PA c) ->
  mask_ok false 16 m0 -> mask_ok false 16 m1 ->
  (forall c r, bx <= c < bx + w -> by_ <= r < by_ + h -> edge false 16 m0 (c mod 32) (r mod 32) = None) ->
  (forall c r, bx <= c < bx + w -> by_ <= r < by_ + h -> edge false 16 m1 (r mod 32) (c mod 32) = None) ->
  exists m0' m1' v' a' l', create_luma_inter nrows stride bx by_ iw ih (2 ^ lbw) (2 ^ lbh) skip lw lh tx_masks na nl lvl (m0, m1) v ay ly = Ok (m0', m1', v', a', l') /\
    mask_ok false 16 m0' /\ mask_ok false 16 m1' /\
    (forall c r, c / 32 = bx / 32 -> r / 32 = by_ / 32 -> edge false 16 m0' (c mod 32) (r mod 32) =
      if inb bx w by_ h c r then MaskSpec.edge 0 c (2 ^ fst (tx r c)) (2 ^ lbw) (2 ^ (if c =? bx then PL r else fst (tx r (c - 1)))) skip false else edge false 16 m0 (c mod 32) (r mod 32)) /\
    (forall c r, c / 32 = bx / 32 -> r / 32 = by_ / 32 -> edge false 16 m1' (r mod 32) (c mod 32) =
      if inb bx w by_ h c r then MaskSpec.edge 0 r (2 ^ snd (tx r c)) (2 ^ lbh) (2 ^ (if r =? by_ then PA c else snd (tx (r - 1) c))) skip false else edge false 16 m1 (r mod 32) (c mod 32)) /\
    (forall r c i, v' r c i = if inb bx w by_ h c r && ((i =? 0) || (i =? 1)) then Some (lvl i) else v r c i) /\
    (forall j, a' j = if (0 <=? j) && (j <? w) then Some (Z.min 2 (snd (tx (by_ + h - 1) (bx + j)))) else ay j) /\
    (forall j, l' j = if (0 <=? j) && (j <? h) then Some (Z.min 2 (fst (tx (by_ + j) (bx + w - 1)))) else ly j).
Proof. intros. apply luma_inter_ok with (lbw := lbw) (lbh := lbh); try assumption; reflexivity. Qed.

(** * Chroma of a block, intra or inter *)
(** The block has 2^lbw x 2^lbh luma units, so 2^(lbw - ssh) x 2^(lbh - ssv) chroma units, at least one. *)
Theorem C53_chroma : forall pl nrows stride bx by_ iw ih lbw lbh lw lh ssh ssv na nl lvl m0 m1 v au lu PL PA (skip intra : bool),
  let bw := 2 ^ Z.max 0 (lbw - ssh) in let bh := 2 ^ Z.max 0 (lbh - ssv) in
  let cx := Z.shiftr bx ssh in let cy := Z.shiftr by_ ssv in let W := Z.shiftr (iw + ssh) ssh in let H := Z.shiftr (ih + ssv) ssv in
  let w := Z.min (W - cx) bw in let h := Z.min (H - cy) bh in let hh := half ssh in let hv := half ssv in
  pl <> 0 -> ssv = 0 \/ ssv = 1 -> ssh = 0 \/ ssh = 1 -> 0 <= lbw <= 5 -> 0 <= lbh <= 5 -> 0 <= lw <= Z.max 0 (lbw - ssh) -> 0 <= lh <= Z.max 0 (lbh - ssv) ->
  0 <= bx < iw -> 0 <= by_ < ih -> bx mod 2 ^ lbw = 0 -> by_ mod 2 ^ lbh = 0 -> H <= nrows -> W <= stride -> w <= na -> h <= nl ->
  (forall r, cy <= r < cy + h -> lu (r - cy) = Some (Z.min 1 (PL r)) /\ 0 <= PL r) ->
  (forall c, cx <= c < cx + w -> au (c - cx) = Some (Z.min 1 (PA c)) /\ 0 <= PA c) ->
  mask_ok true hv m0 -> mask_ok true hh m1 ->
  (forall c r, cx <= c < cx + w -> cy <= r < cy + h -> edge true hv m0 (c mod (2 * hh)) (r mod (2 * hv)) = None) ->
  (forall c r, cx <= c < cx + w -> cy <= r < cy + h -> edge true hh m1 (r mod (2 * hv)) (c mod (2 * hh)) = None) ->
  exists m0' m1' v' a' l', create_chroma nrows stride bx by_ iw ih (2 ^ lbw) (2 ^ lbh) (skip && negb intra) lw lh ssh ssv na nl lvl (m0, m1) v au lu = Ok (m0', m1', v', a', l') /\
    mask_ok true hv m0' /\ mask_ok true hh m1' /\
    (forall c r, c / (2 * hh) = cx / (2 * hh) -> r / (2 * hv) = cy / (2 * hv) -> edge true hv m0' (c mod (2 * hh)) (r mod (2 * hv)) =
      if inb cx w cy h c r then MaskSpec.edge pl c (2 ^ lw) bw (2 ^ (if c =? cx then PL r else lw)) skip intra else edge true hv m0 (c mod (2 * hh)) (r mod (2 * hv))) /\
    (forall c r, c / (2 * hh) = cx / (2 * hh) -> r / (2 * hv) = cy / (2 * hv) -> edge true hh m1' (r mod (2 * hv)) (c mod (2 * hh)) =
      if inb cx w cy h c r then MaskSpec.edge pl r (2 ^ lh) bh (2 ^ (if r =? cy then PA c else lh)) skip intra else edge true hh m1 (r mod (2 * hv)) (c mod (2 * hh))) /\
    (forall r c i, v' r c i = if inb cx w cy h c r && ((i =? 2) || (i =? 3)) then Some (lvl i) else v r c i) /\
    (forall j, a' j = if (0 <=? j) && (j <? w) then Some (Z.min 1 lh) else au j) /\ (forall j, l' j = if (0 <=? j) && (j <? h) then Some (Z.min 1 lw) else lu j).
Proof. intros. apply chroma_ok with (lbw := lbw) (lbh := lbh); try assumption; reflexivity. Qed.

(** * Tile boundaries *)
(** At the start of a tile the contexts are 2 for luma, 1 for chroma, whatever is on the other side. [prev] is the
    logarithm of the size of the transform there, [lt] of the one inside of the tile. *)
Theorem C53_tile_luma : forall x lo hi nlpf lpf (lt prev : Z -> Z) m, mask_ok false 16 m -> 0 <= x < 32 -> 0 <= lo -> lo <= hi -> hi <= 32 -> hi - lo <= nlpf ->
  (forall p, lo <= p < hi -> lpf (p - lo) = Some (Z.min 2 (prev p)) /\ 0 <= prev p) ->
  (forall p, lo <= p < hi -> 0 <= lt p /\ edge false 16 m x p = Some (MaskSpec.filter_size 0 (4 * 2 ^ lt p) (4 * 2 ^ 2))) ->
  exists m', fix_line_luma x lo hi nlpf lpf m = Ok m' /\ mask_ok false 16 m' /\
    forall x' q, 0 <= q < 32 -> edge false 16 m' x' q = if (x' =? x) && ((lo <=? q) && (q <? hi)) then Some (MaskSpec.filter_size 0 (4 * 2 ^ lt q) (4 * 2 ^ prev q)) else edge false 16 m x' q.
Proof. intros x lo hi nlpf lpf lt prev m. exact (fix_line_spec false 16 0 (or_intror eq_refl) (or_introl (conj eq_refl eq_refl)) (fun _ => eq_refl) 0 x lo hi nlpf lpf lt prev m eq_refl). Qed.
Theorem C53_tile_chroma : forall ss pl x lo hi nlpf lpf (lt prev : Z -> Z) m, ss = 0 \/ ss = 1 -> pl <> 0 -> mask_ok true (half ss) m -> 0 <= x < 32 -> 0 <= lo -> lo <= hi -> hi <= 2 * half ss -> hi - lo <= nlpf ->
  (forall p, lo <= p < hi -> lpf (p - lo) = Some (Z.min 1 (prev p)) /\ 0 <= prev p) ->
  (forall p, lo <= p < hi -> 0 <= lt p /\ edge true (half ss) m x p = Some (MaskSpec.filter_size pl (4 * 2 ^ lt p) (4 * 2 ^ 1))) ->
  exists m', fix_line_chroma ss x lo hi nlpf lpf m = Ok m' /\ mask_ok true (half ss) m' /\
    forall x' q, 0 <= q < 2 * half ss -> edge true (half ss) m' x' q = if (x' =? x) && ((lo <=? q) && (q <? hi)) then Some (MaskSpec.filter_size pl (4 * 2 ^ lt q) (4 * 2 ^ prev q)) else edge true (half ss) m x' q.
Proof.
  intros ss pl x lo hi nlpf lpf lt prev m Hs Hp. apply (fix_line_spec true (half ss) ss (half_ok ss Hs) (half_hss ss Hs)); [discriminate|]. destruct (Z.eqb_spec pl 0); [contradiction|reflexivity].
Qed.

(** Together: the first column of a block at the start of a tile is stored with 16 samples before it, and the correction
    makes it the edge of the specification for the transforms [prev] that are there. *)
Theorem C53_tile_block : forall bx y0 h lb nlpf lpf (T prev : Z -> Z) skip intra m, bx mod 2 ^ lb = 0 -> 0 <= y0 -> 0 <= h -> y0 + h <= 32 -> h <= nlpf -> mask_ok false 16 m ->
  (forall j, 0 <= j < h -> 0 <= T j <= lb /\ lpf j = Some (Z.min 2 (prev j)) /\ 0 <= prev j) ->
  (forall j, 0 <= j < h -> edge false 16 m (bx mod 32) (y0 + j) = MaskSpec.edge 0 bx (2 ^ T j) (2 ^ lb) (2 ^ 2) skip intra) ->
  exists m', fix_line_luma (bx mod 32) y0 (y0 + h) nlpf lpf m = Ok m' /\ forall j, 0 <= j < h -> edge false 16 m' (bx mod 32) (y0 + j) = MaskSpec.edge 0 bx (2 ^ T j) (2 ^ lb) (2 ^ prev j) skip intra.
Proof.
  intros bx y0 h lb nlpf lpf T prev skip intra m Hb Hy Hh Hfit Hn Hm HT He.
  assert (S : forall a q, 0 <= a <= lb -> MaskSpec.edge 0 bx (2 ^ a) (2 ^ lb) q skip intra = Some (MaskSpec.filter_size 0 (4 * 2 ^ a) (4 * q))).
  { intros a q Ha. assert (Ea : bx mod 2 ^ a = 0).
    { apply Z.mod_divide; [apply Z.pow_nonzero; lia|]. apply (Z.divide_trans _ (2 ^ lb)); [exists (2 ^ (lb - a)); rewrite <- Z.pow_add_r by lia; f_equal; lia|apply Z.mod_divide; [apply Z.pow_nonzero; lia|exact Hb]]. }
    unfold MaskSpec.edge. rewrite Ea, Hb. reflexivity. }
  destruct (C53_tile_luma (bx mod 32) y0 (y0 + h) nlpf lpf (fun p => T (p - y0)) (fun p => prev (p - y0)) m) as (m' & E & _ & I); try assumption.
  { apply Z.mod_pos_bound. lia. } { lia. } { clear - Hn. lia. }
  { intros p Hp. destruct (HT (p - y0) ltac:(clear - Hp; lia)) as (_ & Q1 & Q2). split; assumption. }
  { intros p Hp. assert (Hj : 0 <= p - y0 < h) by (clear - Hp; lia). destruct (HT _ Hj) as (Q & _). split; [apply Q|]. rewrite <- (S _ _ Q), <- (He _ Hj). f_equal. clear; lia. }
  exists m'. split; [exact E|]. intros j Hj. rewrite I by (clear - Hj Hy Hfit; lia). rewrite Z.eqb_refl. replace ((y0 <=? y0 + j) && (y0 + j <? y0 + h)) with true by (clear - Hj; lia). cbn [andb].
  rewrite (S _ _ (proj1 (HT j Hj))). replace (y0 + j - y0) with j by (clear; lia). reflexivity.
Qed.

(** The boundaries of the tile columns in a superblock row. Plane [pl], in a superblock row from luma row [y0] on; the
    superblocks have [sz] units. [cs t] is the superblock where tile column [t] starts, [n] the number of tile columns;
    [X t], [x t] are the 128x128 block and the column in it. [ms] are the masks of each 128x128 block. *)
Definition line_fix (pl ss : Z) : fixer := if pl =? 0 then fix_line_luma else fix_line_chroma ss.
Theorem C53_tile_cols : forall pl nsb bw bh h4 is sby ssh ssv nlpf n col_start lpf (cs : Z -> Z) (lt prev : Z -> Z -> Z) ms,
  let sz := 32 / 2 ^ is in let y0 := sby * sz in let lo := y0 mod 32 / 2 ^ ssv in let hi := (y0 mod 32 + Z.min (h4 - y0) sz + ssv) / 2 ^ ssv in
  let pos t := y0 / 2 ^ ssv + (t - 1) * ((bh + 31) / 32 * 32 / 2 ^ ssv) in
  let X t := cs t * sz / 32 in let x t := cs t * sz mod 32 / 2 ^ ssh in
  let uv := negb (pl =? 0) in let hb := half ssv in let cap := if uv then 1 else 2 in
  (pl = 0 -> ssh = 0 /\ ssv = 0) -> is = 0 \/ is = 1 -> ssh = 0 \/ ssh = 1 -> ssv = 0 \/ ssv = 1 -> y0 < h4 -> 1 <= n <= 64 ->
  (forall t, 1 <= t <= n -> col_start t = Some (cs t) /\ 0 <= cs t) -> (forall a b, 1 <= a -> a < b -> b < n -> cs a < cs b) ->
  (forall t, 1 <= t < n -> cs t * sz < bw) -> bw <= cs n * sz -> bw <= 32 * nsb -> (forall t, 1 <= t < n -> pos t + (hi - lo) <= nlpf) ->
  (forall t p, 1 <= t < n -> lo <= p < hi -> lpf (pos t + (p - lo)) = Some (Z.min cap (prev t p)) /\ 0 <= prev t p) ->
  (forall X, 0 <= X < nsb -> mask_ok uv hb (ms X)) ->
  (forall t p, 1 <= t < n -> lo <= p < hi -> 0 <= lt t p /\ edge uv hb (ms (X t)) (x t) p = Some (MaskSpec.filter_size pl (4 * 2 ^ lt t p) (4 * 2 ^ cap))) ->
  exists ms', tile_cols (line_fix pl ssv) nsb bw bh h4 is sby ssh ssv nlpf col_start lpf ms = Ok ms' /\ (forall X, 0 <= X < nsb -> mask_ok uv hb (ms' X)) /\
    (forall t p, 1 <= t < n -> lo <= p < hi -> edge uv hb (ms' (X t)) (x t) p = Some (MaskSpec.filter_size pl (4 * 2 ^ lt t p) (4 * 2 ^ prev t p))) /\
    (forall X' x' q, 0 <= q < 2 * hb -> (forall t, 1 <= t < n -> ~ (X' = X t /\ x' = x t /\ lo <= q < hi)) -> edge uv hb (ms' X') x' q = edge uv hb (ms X') x' q).
Proof.
  intros pl nsb bw bh h4 is sby ssh ssv nlpf n col_start lpf cs lt prev ms sz y0 lo hi pos X x uv hb cap Hpl His Hssh Hssv Hy Hn Hcs Hinc Hin Hend Hsb Hlpf Hprev Hm Hold.
  apply (tile_cols_ok (line_fix pl ssv) uv pl) with (n := n) (cs := cs) (lt := lt) (prev := prev); try assumption.
  unfold line_fix, uv. destruct (Z.eqb_spec pl 0) as [->|N]; [destruct (Hpl eq_refl) as [_ ->]; exact luma_line|apply chroma_line; assumption].
Qed.
(** The boundary of a tile row, at row [y] of the 128x128 blocks; [c] is a column of the plane, which has [W] columns. *)
Theorem C53_tile_rows : forall pl nsb w4 is sby ssh ssv nctx (ctx : Z -> arr) (lt prev : Z -> Z) ms,
  let y := sby * (32 / 2 ^ is) mod 32 / 2 ^ ssv in let N := 2 * half ssh in let W := (w4 + ssh) / 2 ^ ssh in
  let uv := negb (pl =? 0) in let hb := half ssh in let cap := if uv then 1 else 2 in
  (pl = 0 -> ssh = 0 /\ ssv = 0) -> is = 0 \/ is = 1 -> ssh = 0 \/ ssh = 1 -> ssv = 0 \/ ssv = 1 -> 0 < w4 < 2 ^ 31 -> 0 <= nsb /\ 32 * (nsb - 1) < w4 <= 32 * nsb -> N <= nctx ->
  (forall c, 0 <= c < W -> ctx (c / N) (c mod N) = Some (Z.min cap (prev c)) /\ 0 <= prev c) ->
  (forall X, 0 <= X < nsb -> mask_ok uv hb (ms X)) ->
  (forall c, 0 <= c < W -> 0 <= lt c /\ edge uv hb (ms (c / N)) y (c mod N) = Some (MaskSpec.filter_size pl (4 * 2 ^ lt c) (4 * 2 ^ cap))) ->
  exists ms', tile_rows (line_fix pl ssh) nsb w4 is sby ssh ssv nctx ctx ms = Ok ms' /\ (forall X, 0 <= X < nsb -> mask_ok uv hb (ms' X)) /\
    (forall r c, 0 <= c < N * nsb -> edge uv hb (ms' (c / N)) r (c mod N) =
      if (r =? y) && (c <? W) then Some (MaskSpec.filter_size pl (4 * 2 ^ lt c) (4 * 2 ^ prev c)) else edge uv hb (ms (c / N)) r (c mod N)).
Proof.
  intros pl nsb w4 is sby ssh ssv nctx ctx lt prev ms y N W uv hb cap Hpl His Hssh Hssv Hw Hsb Hctx Hprev Hm Hold.
  apply (tile_rows_ok (line_fix pl ssh) uv pl) with (lt := lt) (prev := prev); try assumption.
  unfold line_fix, uv. destruct (Z.eqb_spec pl 0) as [->|Np]; [destruct (Hpl eq_refl) as [-> _]; exact luma_line|apply chroma_line; assumption].
Qed.

(** * The hypotheses can be met, and a computed case *)
Definition none : masks := fun _ _ _ => 0.
Definition ctx2 : arr := fun _ => Some 2.
(** A 16x8 block at (16, 8) of a picture of 28x20 samples, with 8x4 transforms, after transforms of 16 samples *)
Example C53_meets : exists m0' m1' v' a' l', create_luma_intra 5 7 4 2 7 5 (2 ^ 2) (2 ^ 1) 1 0 32 32 (fun i => 10 + i) (none, none) (fun _ _ _ => None) ctx2 ctx2 = Ok (m0', m1', v', a', l') /\
  edge false 16 m0' 4 2 = Some 8 /\ edge false 16 m0' 5 2 = None /\ edge false 16 m0' 6 3 = Some 8 /\ edge false 16 m0' 7 3 = None /\ edge false 16 m1' 3 6 = Some 4.
Proof.
  assert (Z0 : forall hb x p, edge false hb none x p = None) by (intros hb x p; unfold edge, Strip.sz, none; rewrite !Z.bits_0; reflexivity).
  destruct (C53_luma_intra 5 7 4 2 7 5 2 1 1 0 32 32 (fun i => 10 + i) none none (fun _ _ _ => None) ctx2 ctx2 (fun _ => 2) (fun _ => 2) false) as (m0' & m1' & v' & a' & l' & E & _ & _ & I0 & I1 & _); try (intros; apply Z0); try (intros x y z _ _ _; change (2 ^ 16) with 65536; unfold none; lia); try (intros; split; [reflexivity|lia]); try (vm_compute; clear; intuition discriminate); try reflexivity; try lia.
  exists m0', m1', v', a', l'. split; [exact E|]. specialize (I0 4 2 eq_refl eq_refl) as J0. specialize (I0 5 2 eq_refl eq_refl) as J1. specialize (I0 6 3 eq_refl eq_refl) as J2. specialize (I0 7 3 eq_refl eq_refl) as J3. specialize (I1 6 3 eq_refl eq_refl) as J4.
  change (4 mod 32) with 4 in *. change (2 mod 32) with 2 in *. change (5 mod 32) with 5 in *. change (6 mod 32) with 6 in *. change (3 mod 32) with 3 in *. change (7 mod 32) with 7 in *.
  rewrite J0, J1, J2, J3, J4. cbn [inb andb]. vm_compute. repeat split; discriminate || reflexivity.
Qed.
Example C53_computed : (let! r := create_chroma 16 16 8 4 40 40 4 4 false 0 0 1 1 32 32 (fun i => 10 + i) (none, none) (fun _ _ _ => None) ctx2 ctx2 in
  let '(m0, m1, v, a, l) := r in Ok [edge true 8 m0 4 2; edge true 8 m0 5 3; edge true 8 m0 6 2; edge true 8 m1 2 4; edge true 8 m1 3 5; v 2 4 2; v 3 5 3; a 1; a 2]) =
  Ok [Some 4; Some 4; None; Some 4; Some 4; Some 12; Some 13; Some 0; Some 2].
Proof. vm_compute. reflexivity. Qed.
Example C53_tile_computed : (let! m := fix_line_luma 8 0 4 4 (fun i => Some (Z.min 2 i)) (fun x i s => if (x =? 8) && (i =? 2) && (s =? 0) then 15 else 0) in
  Ok (map (edge false 16 m 8) [0; 1; 2; 3; 4])) = Ok [Some 4; Some 8; Some 16; Some 16; None].
Proof. vm_compute. reflexivity. Qed.
(** A 16x16 inter block at (16, 16): the 16x16 transform is split into 8x8, the second of these into 4x4 *)
Example C53_inter_computed : (let! r := create_luma_inter 16 16 4 4 16 16 4 4 false 2 2 (fun d => if d =? 0 then 1 else 2) 32 32 (fun i => 10 + i) (none, none) (fun _ _ _ => None) ctx2 ctx2 in
  let '(m0, m1, v, a, l) := r in Ok (map (fun x => edge false 16 m0 x 4) [4; 5; 6; 7; 8], map (fun x => edge false 16 m0 x 6) [4; 5; 6; 7; 8], map (fun y => edge false 16 m1 y 7) [4; 5; 6; 7; 8], [l 0; l 1; l 2; l 3; a 0; a 3])) =
  Ok ([Some 8; None; Some 4; Some 4; None], [Some 8; None; Some 8; None; None], [Some 4; Some 4; Some 4; None; None], [Some 0; Some 0; Some 1; Some 1; Some 1; Some 1]).
Proof. vm_compute. reflexivity. Qed.
Example C53_inter_meets : exists m0' m1' v' a' l', create_luma_inter 16 16 4 4 16 16 (2 ^ 2) (2 ^ 2) false 2 2 (fun d => if d =? 0 then 1 else 2) 32 32 (fun i => 10 + i) (none, none) (fun _ _ _ => None) ctx2 ctx2 = Ok (m0', m1', v', a', l') /\
  edge false 16 m0' 7 5 = Some 4 /\ edge false 16 m1' 5 7 = Some 4.
Proof.
  assert (Z0 : forall hb x p, edge false hb none x p = None) by (intros hb x p; unfold edge, Strip.sz, none; rewrite !Z.bits_0; reflexivity).
  destruct (C53_luma_inter 16 16 4 4 16 16 2 2 2 2 32 32 (fun d => if d =? 0 then 1 else 2) (fun i => 10 + i) none none (fun _ _ _ => None) ctx2 ctx2 (fun _ => 2) (fun _ => 2) false) as (m0' & m1' & v' & a' & l' & E & _ & _ & I0 & I1 & _); try (intros; apply Z0); try (intros x y z _ _ _; change (2 ^ 16) with 65536; unfold none; lia); try (intros; split; [reflexivity|lia]); try (vm_compute; clear; intuition discriminate); try reflexivity; try lia.
  exists m0', m1', v', a', l'. split; [exact E|]. specialize (I0 7 5 eq_refl eq_refl) as J0. specialize (I1 7 5 eq_refl eq_refl) as J1. change (7 mod 32) with 7 in *. change (5 mod 32) with 5 in *.
  rewrite J0, J1. vm_compute. split; reflexivity.
Qed.

(** Two tile columns, the second from superblock 1 of 64x64 on: column 16 of the first 128x128 block. Then a tile row. *)
Definition sets (m : Z -> Z -> Z -> bool) : Z -> masks := fun X x i s => if m X x i && (s =? 0) then 15 else 0.
Example C53_tiles_computed :
  (let! ms := tile_cols (line_fix 0 0) 1 32 4 4 1 0 0 0 32 (fun i => nth_error [0; 1; 2] (Z.to_nat i)) (fun i => Some (Z.min 2 i)) (sets (fun X x i => (X =? 0) && (x =? 16) && (i =? 2))) in
   let! ms2 := tile_rows (line_fix 1 1) 2 36 0 1 1 1 32 (fun _ _ => Some 0) (sets (fun X x i => (x =? 0) && (i =? 1))) in
   Ok (map (edge false 16 (ms 0) 16) [0; 1; 2; 3; 4], map (edge true 8 (ms2 1) 0) [0; 1; 2; 3])) = Ok ([Some 4; Some 8; Some 16; Some 16; None], [Some 4; Some 4; Some 8; Some 8]).
Proof. vm_compute. reflexivity. Qed.
Example C53_tiles_meet : exists ms, tile_cols (line_fix 0 0) 1 32 4 4 1 0 0 0 32 (fun i => nth_error [0; 1; 2] (Z.to_nat i)) (fun _ => Some 1) (sets (fun X x i => (X =? 0) && (x =? 16) && (i =? 2))) = Ok ms /\
  (forall p, 0 <= p < 4 -> edge false 16 (ms 0) 16 p = Some 8) /\ forall q, 0 <= q < 32 -> edge false 16 (ms 0) 15 q = None.
Proof.
  assert (T1 : forall t : Z, 1 <= t < 2 -> t = 1) by (intros; lia).
  destruct (C53_tile_cols 0 1 32 4 4 1 0 0 0 32 2 (fun i => nth_error [0; 1; 2] (Z.to_nat i)) (fun _ => Some 1) (fun t => t) (fun _ _ => 4) (fun _ _ => 1) (sets (fun X x i => (X =? 0) && (x =? 16) && (i =? 2)))) as (ms & E & _ & I & J).
  { intros _. split; reflexivity. } { right. reflexivity. } { left. reflexivity. } { left. reflexivity. } { reflexivity. } { lia. }
  { intros t Ht. assert (C : t = 1 \/ t = 2) by lia. destruct C as [->| ->]; (split; [reflexivity|lia]). }
  { intros; lia. }
  { intros t Ht. rewrite (T1 t Ht). reflexivity. }
  { vm_compute. discriminate. } { vm_compute. discriminate. }
  { intros t Ht. rewrite (T1 t Ht). vm_compute. discriminate. }
  { intros t p _ _. split; [reflexivity|lia]. }
  { intros X _ x i s _ _ _. change (2 ^ half 0) with 65536. unfold sets. destruct (_ && _); lia. }
  { intros t p Ht Hp. rewrite (T1 t Ht) in *. change (0 <= p < 4) in Hp. split; [lia|]. assert (C : p = 0 \/ p = 1 \/ p = 2 \/ p = 3) by lia. destruct C as [->|[->|[->| ->]]]; vm_compute; reflexivity. }
  exists ms. split; [exact E|]. split; [intros p Hp; exact (I 1 p ltac:(lia) Hp)|]. intros q Hq. etransitivity; [exact (J 0 15 q Hq ltac:(intros t Ht (_ & Q & _); rewrite (T1 t Ht) in Q; discriminate))|]. unfold edge, Strip.sz, sets. cbn [Z.eqb Pos.eqb andb]. rewrite !Z.bits_0. reflexivity.
Qed.
Definition full : Z -> masks := fun _ x i s => if (x =? 0) && (i =? 1) then 255 else 0.
Example C53_rows_meet : exists ms, tile_rows (line_fix 1 1) 2 36 0 1 1 1 32 (fun _ _ => Some 0) full = Ok ms /\
  edge true 8 (ms 1) 0 1 = Some 4 /\ edge true 8 (ms 1) 0 2 = Some 8 /\ edge true 8 (ms 1) 1 1 = None.
Proof.
  assert (F : forall X p, 0 <= p < 16 -> edge true 8 (full X) 0 p = Some 8).
  { intros X p Hp. unfold edge, Strip.sz, full. cbn [Z.eqb Pos.eqb andb negb]. change (Z.testbit 255 (p mod 8)) with (Z.testbit (Z.ones 8) (p mod 8)). rewrite Z.ones_spec_low by (apply Z.mod_pos_bound; lia). reflexivity. }
  destruct (C53_tile_rows 1 2 36 0 1 1 1 32 (fun _ _ => Some 0) (fun _ => 1) (fun _ => 0) full) as (ms & E & _ & J).
  { discriminate. } { left. reflexivity. } { right. reflexivity. } { right. reflexivity. } { split; reflexivity. } { lia. } { vm_compute. discriminate. }
  { intros c _. split; [reflexivity|lia]. }
  { intros X _ x i s _ _ _. change (2 ^ half 1) with 256. unfold full. destruct (_ && _); lia. }
  { intros c _. split; [lia|]. change (2 * half 1) with 16. exact (F (c / 16) (c mod 16) (Z.mod_pos_bound c 16 ltac:(lia))). }
  exists ms. split; [exact E|]. split; [exact (J 0 17 ltac:(vm_compute; split; [discriminate|reflexivity]))|]. split; [etransitivity; [exact (J 0 18 ltac:(vm_compute; split; [discriminate|reflexivity]))|]; exact (F 1 2 ltac:(lia))|exact (J 1 17 ltac:(vm_compute; split; [discriminate|reflexivity]))].
Qed.
Example C53_tile_block_computed : (let! r := create_luma_intra 16 16 4 4 16 16 4 4 2 2 32 32 (fun i => 10 + i) (none, none) (fun _ _ _ => None) ctx2 ctx2 in
  let '(m0, m1, v, a, l) := r in let! m := fix_line_luma 4 4 8 4 (fun i => Some (Z.min 2 i)) m0 in
  Ok (map (edge false 16 m0 4) [4; 5; 6; 7], map (edge false 16 m 4) [4; 5; 6; 7])) = Ok ([Some 16; Some 16; Some 16; Some 16], [Some 4; Some 8; Some 16; Some 16]).
Proof. vm_compute. reflexivity. Qed.

Print Assumptions C53_tile_block.
Print Assumptions C53_tile_cols.
Print Assumptions C53_tile_rows.
Print Assumptions C53_luma_intra.
Print Assumptions C53_luma_inter.
Print Assumptions C53_chroma.
Print Assumptions C53_tile_luma.
Print Assumptions C53_tile_chroma.

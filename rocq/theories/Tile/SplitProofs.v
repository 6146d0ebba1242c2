From Coq Require Import ZArith List Bool Lia Sorting.Sorted.
From Verif Require Import Base.CInt Base.Lemmas Dec.State Dec.Wf Tile.Split Tile.SplitSpec.
Import ListNotations.
Open Scope Z_scope.
Open Scope outcome_scope.

Notation is_b := is_byte.
Lemma zlen_nn : forall A (l : list A), 0 <= zlen l. Proof. intros. unfold zlen. lia. Qed.
Lemma u64_id : forall x, 0 <= x < 2 ^ 64 -> u64 x = x.
Proof. intros. unfold u64. apply Z.mod_small. exact H. Qed.
Lemma le_range : forall l, Forall is_b l -> 0 <= le l < 256 ^ (Z.of_nat (length l)).
Proof.
  induction 1 as [|b l B F IH]; [cbn; lia|]. cbn [le length]. rewrite Nat2Z.inj_succ, Z.pow_succ_r by lia. unfold is_byte in B. nia.
Qed.

Lemma read_size_ok : forall k data pos sh acc, Forall is_b data -> 0 <= pos -> pos + Z.of_nat k <= zlen data ->
  0 <= sh -> sh + 8 * Z.of_nat k <= 32 -> 0 <= acc < 2 ^ sh ->
  read_size data pos k sh acc = Ok (acc + 2 ^ sh * le (firstn k (skipn (Z.to_nat pos) data))).
Proof.
  induction k as [|k IH]; intros data pos sh acc F P L SH S2 A; cbn [read_size].
  - cbn [firstn le]. rewrite Z.mul_0_r, Z.add_0_r. reflexivity.
  - rewrite (rd_at_nth _ _ _ 0) by lia. cbn [obind]. rewrite (proj2 (Z.ltb_lt sh 32)) by lia.
    set (b := nth (Z.to_nat pos) data 0). assert (B : is_b b) by (apply Forall_nth_Z; [exact F|lia]). unfold is_byte in B.
    assert (E : skipn (Z.to_nat pos) data = b :: skipn (Z.to_nat (pos + 1)) data).
    { replace (Z.to_nat (pos + 1)) with (S (Z.to_nat pos)) by lia. unfold b. assert (Lt : (Z.to_nat pos < length data)%nat) by (unfold zlen in L; lia).
      revert Lt. generalize (Z.to_nat pos). clear. induction data as [|d l IH]; intros n Lt; [cbn in Lt; lia|].
      destruct n; [reflexivity|]. cbn. apply IH. cbn in Lt. lia. }
    rewrite E. cbn [firstn le].
    assert (U : u32 (Z.shiftl b sh) = b * 2 ^ sh).
    { rewrite shiftl_mul by lia. unfold u32. apply Z.mod_small. split; [nia|]. pose proof (pow2_pos sh ltac:(lia)).
      apply Z.lt_le_trans with (2 ^ 8 * 2 ^ sh); [nia|]. rewrite <- Z.pow_add_r by lia. apply Z.pow_le_mono_r; lia. }
    rewrite U. rewrite Z.lor_comm, lor_shift_add by lia.
    assert (PS : 2 ^ (sh + 8) = 256 * 2 ^ sh) by (rewrite Z.pow_add_r by lia; change (2 ^ 8) with 256; ring).
    rewrite IH; try lia; auto.
    + f_equal. rewrite PS. ring.
    + nia.
Qed.

Fixpoint laid (nb pos len : Z) (l : list tile) : Prop :=
  match l with
  | [] => True
  | [t] => ti_pos t = pos /\ ti_pos t + ti_sz t = len
  | t :: l => ti_pos t = pos + nb /\ laid nb (ti_pos t + ti_sz t) len l
  end.
Fixpoint upto (j : Z) (n : nat) : list Z := match n with O => [] | S n => j :: upto (j + 1) n end.
Definition slice (data : list Z) (t : tile) : list Z := firstn (Z.to_nat (ti_sz t)) (skipn (Z.to_nat (ti_pos t)) data).
Definition inside (data : list Z) (t : tile) : Prop := 0 <= ti_pos t /\ 0 <= ti_sz t /\ ti_pos t + ti_sz t <= zlen data.

Section FRAME.
Variables (nb cols rows n_ts update : Z) (refresh : bool).
Hypothesis (NB : 0 <= nb <= 4) (HC : 1 <= cols <= 64) (HR : 1 <= rows <= 64) (HN : n_ts = cols * rows).

Definition placed (t : tile) : Prop := ti_row t = ti_idx t / cols /\ ti_col t = ti_idx t mod cols.
Definition at_tile (j : Z) (s : st) : Prop := s_row s = j / cols /\ s_col s = j mod cols /\ s_upd s = (update <? j) && refresh.

Lemma one_tile_ok : forall g j pos sz s, 0 <= j < n_ts -> 0 <= update -> at_tile j s ->
  exists s', one_tile cols n_ts update refresh g j pos sz s = Ok s' /\ at_tile (j + 1) s' /\
    s_out s' = s_out s ++ [mkTile j g pos sz (j / cols) (j mod cols)].
Proof.
  intros g j pos sz s J U (A & B & C). unfold one_tile.
  pose proof (Z.mod_pos_bound j cols ltac:(lia)) as M.
  assert (D : 0 <= j / cols < rows) by (split; [apply Z.div_pos; lia|apply Z.div_lt_upper_bound; lia]).
  rewrite (proj2 (Z.leb_le 0 j)), (proj2 (Z.ltb_lt j n_ts)) by lia. cbn [andb]. rewrite A, B.
  unfold MAX_TILES. rewrite (proj2 (Z.leb_le 0 (j mod cols))), (proj2 (Z.ltb_lt (j mod cols) 64)),
    (proj2 (Z.leb_le 0 (j / cols))), (proj2 (Z.ltb_lt (j / cols) 64)) by lia. cbn [andb].
  eexists. split; [reflexivity|]. split; [|reflexivity]. unfold at_tile. cbn [s_row s_col s_upd].
  pose proof (Z.div_mod j cols ltac:(lia)) as DM.
  split; [|split].
  - destruct (Z.eqb_spec (j mod cols + 1) cols) as [E|E].
    + apply (Z.div_unique_pos _ _ _ 0); lia.
    + apply (Z.div_unique_pos _ _ _ (j mod cols + 1)); lia.
  - destruct (Z.eqb_spec (j mod cols + 1) cols) as [E|E].
    + apply (Z.mod_unique_pos _ _ (j / cols + 1)); lia.
    + apply (Z.mod_unique_pos _ _ (j / cols)); lia.
  - rewrite C. destruct (Z.ltb_spec update j), (Z.eqb_spec j update), (Z.ltb_spec update (j + 1)); try lia; destruct refresh; reflexivity.
Qed.

Definition good (g : Z) (data : list Z) (j pos : Z) (n : nat) (s s' : st) (ts : list (list Z)) (new : list tile) : Prop :=
  at_tile (j + Z.of_nat n) s' /\ s_out s' = s_out s ++ new /\ length new = n /\ map ti_idx new = upto j n /\ Forall placed new /\
  Forall (fun t => ti_grp t = g /\ inside data t) new /\ map (slice data) new = ts /\ laid nb pos (zlen data) new.

Lemma skipn_len : forall (l : list Z) n, 0 <= n <= zlen l -> zlen (skipn (Z.to_nat n) l) = zlen l - n.
Proof. intros. unfold zlen in *. rewrite skipn_length. lia. Qed.

Lemma skip_skip : forall (l : list Z) a b, 0 <= a -> 0 <= b -> skipn (Z.to_nat b) (skipn (Z.to_nat a) l) = skipn (Z.to_nat (a + b)) l.
Proof.
  intros l a b A B. replace (Z.to_nat (a + b)) with (Z.to_nat a + Z.to_nat b)%nat by lia.
  generalize (Z.to_nat a) (Z.to_nat b). clear. intros n m. revert l. induction n; intros l; [reflexivity|]. destruct l; [cbn; apply skipn_nil|]. cbn. apply IHn.
Qed.
Lemma tiles_of_pos : forall n k p ts, tiles_of n k p ts -> (1 <= k)%nat /\ length ts = k.
Proof. induction 1; cbn; lia. Qed.

Lemma group_ok : forall n g data last j pos s, Forall is_b data -> zlen data < 2 ^ 63 -> 0 <= pos <= zlen data -> 0 <= update ->
  0 <= j -> last < n_ts -> last - j + 1 = Z.of_nat (S n) -> at_tile j s ->
  (exists s' ts new, group nb cols n_ts update refresh (S n) g data last j pos (zlen data - pos) s = Ok (Some s') /\
     tiles_of (Z.to_nat nb) (S n) (skipn (Z.to_nat pos) data) ts /\ good g data j pos (S n) s s' ts new) \/
  (group nb cols n_ts update refresh (S n) g data last j pos (zlen data - pos) s = Ok None /\
     forall ts, ~ tiles_of (Z.to_nat nb) (S n) (skipn (Z.to_nat pos) data) ts).
Proof.
  induction n as [|n IH]; intros g data last j pos s F LD P U J L E A.
  - (* the last tile *)
    left. assert (j = last) by lia. subst j. cbn [group]. rewrite (proj2 (Z.ltb_ge last last)) by lia. rewrite Z.eqb_refl.
    destruct (one_tile_ok g last pos (zlen data - pos) s ltac:(lia) U A) as (s' & -> & A' & O). cbn [obind].
    rewrite (proj2 (Z.ltb_lt last (last + 1))) by lia.
    exists s', [skipn (Z.to_nat pos) data], [mkTile last g pos (zlen data - pos) (last / cols) (last mod cols)].
    split; [reflexivity|]. split; [constructor|]. unfold good. rewrite O.
    split; [exact A'|]. split; [reflexivity|]. split; [reflexivity|]. split; [reflexivity|].
    split; [constructor; [split; reflexivity|constructor]|].
    split; [constructor; [split; [reflexivity|]; unfold inside; cbn [ti_pos ti_sz]; lia|constructor]|].
    split; [|cbn [laid ti_pos ti_sz]; split; [reflexivity|lia]].
    cbn [map]. unfold slice. cbn [ti_pos ti_sz]. f_equal. rewrite firstn_all2; [reflexivity|].
    pose proof (skipn_len data pos P) as Q. unfold zlen in *. lia.
  - change (group nb cols n_ts update refresh (S (S n)) g data last j pos (zlen data - pos) s) with
      (if last <? j then Ok (Some s) else if j =? last then
        let! s := one_tile cols n_ts update refresh g j pos (zlen data - pos) s in
        group nb cols n_ts update refresh (S n) g data last (j + 1) (pos + (zlen data - pos)) (u64 (zlen data - pos - (zlen data - pos))) s
       else if zlen data - pos <? nb then Ok None else
        let! sz := read_size data pos (Z.to_nat nb) 0 0 in
        let pos' := pos + nb in let tile_sz := u64 (sz + 1) in let size := u64 (zlen data - pos - nb) in
        if size <? tile_sz then Ok None else
        let! s := one_tile cols n_ts update refresh g j pos' tile_sz s in
        group nb cols n_ts update refresh (S n) g data last (j + 1) (pos' + tile_sz) (u64 (size - tile_sz)) s).
    rewrite (proj2 (Z.ltb_ge last j)) by lia. rewrite (proj2 (Z.eqb_neq j last)) by lia.
    set (p := skipn (Z.to_nat pos) data). assert (LP : zlen p = zlen data - pos) by (apply skipn_len; lia).
    destruct (Z.ltb_spec (zlen data - pos) nb) as [S1|S1].
    { right. split; [reflexivity|]. intros ts H. inversion H as [|k sb t rest ts' B1 B2 B3 BK B4]; subst.
      apply (f_equal zlen) in B4. rewrite LP in B4. unfold zlen in B4, S1. rewrite !app_length in B4. lia. }
    rewrite read_size_ok; try lia; [|exact F]. cbn [obind]. fold p.
    set (hd := firstn (Z.to_nat nb) p). rewrite Z.mul_1_l, Z.add_0_l.
    assert (LH : length hd = Z.to_nat nb) by (unfold hd; rewrite firstn_length; unfold zlen in *; lia).
    assert (FH : Forall is_b hd).
    { unfold hd, p. clear - F. rewrite Forall_forall in F |- *. intros x I.
      apply F. rewrite <- (firstn_skipn (Z.to_nat pos) data). apply in_or_app. right.
      rewrite <- (firstn_skipn (Z.to_nat nb) (skipn (Z.to_nat pos) data)). apply in_or_app. now left. }
    pose proof (le_range hd FH) as RH. rewrite LH, Z2Nat.id in RH by lia.
    assert (R4 : 256 ^ nb <= 2 ^ 32) by (change (2 ^ 32) with (256 ^ 4); apply Z.pow_le_mono_r; lia).
    change (2 ^ 32) with 4294967296 in R4. change (2 ^ 63) with 9223372036854775808 in LD.
    rewrite (u64_id (le hd + 1)) by (change (2 ^ 64) with 18446744073709551616; lia).
    rewrite (u64_id (zlen data - pos - nb)) by (change (2 ^ 64) with 18446744073709551616; lia).
    assert (SP : p = hd ++ skipn (Z.to_nat nb) p) by (symmetry; apply firstn_skipn).
    assert (LR : zlen (skipn (Z.to_nat nb) p) = zlen data - pos - nb) by (rewrite skipn_len; lia).
    destruct (Z.ltb_spec (zlen data - pos - nb) (le hd + 1)) as [S2|S2].
    { right. split; [reflexivity|]. intros ts H. inversion H as [|k sb t rest ts' B1 B2 B3 BK B4]; subst.
      assert (sb = hd).
      { unfold hd. rewrite <- B4. rewrite <- B1 at 1. rewrite firstn_app, firstn_all, Nat.sub_diag, firstn_O, app_nil_r. reflexivity. }
      subst sb. apply (f_equal zlen) in B4. rewrite LP in B4. unfold zlen in B4, S2. rewrite !app_length in B4. lia. }
    destruct (one_tile_ok g j (pos + nb) (le hd + 1) s ltac:(lia) U A) as (s1 & -> & A1 & O1). cbn [obind].
    rewrite u64_id by (change (2 ^ 64) with 18446744073709551616; lia).
    set (pos2 := pos + nb + (le hd + 1)).
    replace (zlen data - pos - nb - (le hd + 1)) with (zlen data - pos2) by (unfold pos2; lia).
    set (t := firstn (Z.to_nat (le hd + 1)) (skipn (Z.to_nat nb) p)).
    assert (LT : Z.of_nat (length t) = le hd + 1).
    { unfold t. rewrite firstn_length. unfold zlen in LR, S2. lia. }
    assert (P2 : skipn (Z.to_nat pos2) data = skipn (Z.to_nat (le hd + 1)) (skipn (Z.to_nat nb) p)).
    { unfold p. rewrite !skip_skip by lia. f_equal. unfold pos2. lia. }
    assert (PT : p = hd ++ t ++ skipn (Z.to_nat pos2) data).
    { rewrite P2. unfold t. rewrite firstn_skipn. exact SP. }
    destruct (IH g data last (j + 1) pos2 s1) as [(s' & ts & new & G & T & GD)|(G & T)]; try lia; auto.
    + left. exists s', (t :: ts), (mkTile j g (pos + nb) (le hd + 1) (j / cols) (j mod cols) :: new).
      split; [exact G|]. split; [rewrite PT; constructor; auto|].
      destruct GD as (Q1 & Q2 & Q3 & Q4 & Q5 & Q6 & Q7 & Q8). unfold good.
      split; [replace (j + Z.of_nat (S (S n))) with (j + 1 + Z.of_nat (S n)) by lia; exact Q1|].
      split; [rewrite Q2, O1, <- app_assoc; reflexivity|]. split; [cbn [length]; now rewrite Q3|].
      split; [cbn [map ti_idx upto]; rewrite Q4; reflexivity|].
      split; [constructor; [split; reflexivity|exact Q5]|].
      split; [constructor; [|exact Q6]|].
      { split; [reflexivity|]. unfold inside. cbn [ti_pos ti_sz]. lia. }
      split; [cbn [map]; rewrite Q7; f_equal; unfold slice; cbn [ti_pos ti_sz]; unfold t, p; rewrite skip_skip by lia; reflexivity|].
      destruct new as [|t1 new]; [discriminate Q3|]. cbn [laid ti_pos ti_sz]. split; [reflexivity|]. exact Q8.
    + right. split; [exact G|]. intros ts H. inversion H as [|k sb t' rest ts' B1 B2 B3 BK B4]; subst.
      assert (EH : sb = hd).
      { unfold hd. rewrite <- B4. rewrite <- B1 at 1. rewrite firstn_app, firstn_all, Nat.sub_diag, firstn_O, app_nil_r. reflexivity. }
      apply (T ts'). rewrite PT, EH in B4. apply app_inv_head in B4.
      assert (EL : length t' = length t) by (rewrite EH in B2; lia).
      assert (EQ : rest = skipn (Z.to_nat pos2) data).
      { apply (f_equal (skipn (length t'))) in B4. rewrite skipn_app, skipn_all, Nat.sub_diag in B4. rewrite EL in B4.
        rewrite skipn_app, skipn_all, Nat.sub_diag in B4. exact B4. }
      rewrite <- EQ. exact B3.
Qed.

Definition count (t : tgrp) : nat := Z.to_nat (tg_end t - tg_start t + 1).
Definition splits (t : tgrp) (ts : list (list Z)) : Prop := tiles_of (Z.to_nat nb) (count t) (tg_data t) ts.
Definition data_ok (t : tgrp) : Prop := Forall is_b (tg_data t) /\ zlen (tg_data t) < 2 ^ 63.

(** the tiles of consecutive groups, numbered from [g] *)
Inductive laid_out : Z -> list tgrp -> list (list (list Z)) -> list (list tile) -> Prop :=
| L_nil : forall g, laid_out g [] [] []
| L_cons : forall g t l ts tss new news, splits t ts ->
    length new = count t -> Forall (fun x => ti_grp x = g /\ inside (tg_data t) x) new -> map (slice (tg_data t)) new = ts ->
    laid nb 0 (zlen (tg_data t)) new -> laid_out (g + 1) l tss news -> laid_out g (t :: l) (ts :: tss) (new :: news).

Lemma upto_app : forall n m j, upto j (n + m) = upto j n ++ upto (j + Z.of_nat n) m.
Proof.
  induction n as [|n IH]; intros m j; cbn [upto app Nat.add]; [f_equal; lia|]. f_equal. rewrite IH. f_equal. f_equal. lia.
Qed.

Lemma groups_ok : forall l g a s, Forall data_ok l -> 0 <= update -> 0 <= a -> chain a l n_ts -> at_tile a s ->
  (exists s' tss news, groups nb cols n_ts update refresh g l s = Ok (Some s') /\ laid_out g l tss news /\ at_tile n_ts s' /\
     s_out s' = s_out s ++ concat news /\ map ti_idx (concat news) = upto a (Z.to_nat (n_ts - a)) /\ Forall placed (concat news)) \/
  (groups nb cols n_ts update refresh g l s = Ok None /\ Exists (fun t => forall ts, ~ splits t ts) l).
Proof.
  induction l as [|t l IH]; intros g a s D U A0 CH A; cbn [chain] in CH.
  - subst a. left. exists s, [], []. cbn [groups concat]. rewrite app_nil_r, Z.sub_diag. repeat split; try apply A; constructor.
  - destruct CH as (C1 & C2 & C3). pose proof (Forall_inv D) as [D1 D2]. pose proof (Forall_inv_tail D) as D3. subst a.
    pose proof (chain_le _ _ _ C3) as CL. cbn [groups].
    assert (CN : count t = S (Z.to_nat (tg_end t - tg_start t))) by (unfold count; lia).
    fold (count t). rewrite CN.
    destruct (group_ok (Z.to_nat (tg_end t - tg_start t)) g (tg_data t) (tg_end t) (tg_start t) 0 s) as [(s1 & ts & new & G & T & GD)|(G & T)];
      auto; try lia; [pose proof (zlen_nn _ (tg_data t)); lia| |]; rewrite Z.sub_0_r in G; rewrite G; cbn [obind].
    + destruct GD as (Q1 & Q2 & Q3 & Q4 & Q5 & Q6 & Q7 & Q8).
      replace (tg_start t + Z.of_nat (S (Z.to_nat (tg_end t - tg_start t)))) with (tg_end t + 1) in Q1 by lia.
      destruct (IH (g + 1) (tg_end t + 1) s1 D3 U ltac:(lia) C3 Q1) as [(s' & tss & news & G' & LO & A' & O & M & PL)|(G' & X)]; rewrite G'.
      * left. exists s', (ts :: tss), (new :: news). split; [reflexivity|].
        split; [constructor; auto; [unfold splits; rewrite CN; exact T|now rewrite CN]|]. split; [exact A'|].
        cbn [concat]. split; [rewrite O, Q2, app_assoc; reflexivity|]. split.
        -- rewrite map_app, Q4, M. replace (Z.to_nat (n_ts - tg_start t)) with (S (Z.to_nat (tg_end t - tg_start t)) + Z.to_nat (n_ts - (tg_end t + 1)))%nat by lia.
           rewrite upto_app. f_equal. f_equal. lia.
        -- apply Forall_app. auto.
      * right. split; [reflexivity|]. now right.
    + right. split; [reflexivity|]. left. intros ts H. apply (T ts). unfold splits in H. rewrite CN in H. exact H.
Qed.

Lemma init_cdf_ok : forall l, Forall data_ok l -> 0 <= update < n_ts -> chain 0 l n_ts ->
  (exists s tss news, init_cdf nb cols n_ts update refresh l = Ok (Some s) /\ laid_out 0 l tss news /\
     s_out s = concat news /\ s_upd s = refresh /\ map ti_idx (s_out s) = upto 0 (Z.to_nat n_ts) /\ Forall placed (s_out s)) \/
  (init_cdf nb cols n_ts update refresh l = Ok None /\ Exists (fun t => forall ts, ~ splits t ts) l).
Proof.
  intros l D U CH. unfold init_cdf.
  assert (A : at_tile 0 (mkSt 0 0 false [])).
  { unfold at_tile. cbn [s_row s_col s_upd]. rewrite Z.div_0_l, Z.mod_0_l by lia. rewrite (proj2 (Z.ltb_ge update 0)) by lia. auto. }
  destruct (groups_ok l 0 0 (mkSt 0 0 false []) D ltac:(lia) ltac:(lia) CH A) as [(s' & tss & news & G & LO & A' & O & M & PL)|(G & X)]; [left|right; auto].
  exists s', tss, news. cbn [s_out app] in O. rewrite O. split; [exact G|]. split; [exact LO|]. split; [reflexivity|].
  split; [|split; [rewrite M; f_equal; f_equal; lia|exact PL]].
  destruct A' as (_ & _ & ->). rewrite (proj2 (Z.ltb_lt update n_ts)) by lia. reflexivity.
Qed.
End FRAME.

(** the data a tile decoder gets *)
Lemma laid_out_bytes : forall nb l g tss news pre, laid_out nb g l tss news -> g = Z.of_nat (length pre) ->
  map (tile_bytes (pre ++ l)) (concat news) = concat tss.
Proof.
  induction l as [|t l IH]; intros g tss news pre H E; inversion H; subst; [reflexivity|]. cbn [concat]. rewrite map_app. f_equal.
  - apply map_ext_in. intros x I. match goal with F : Forall _ _ |- _ => rewrite Forall_forall in F; destruct (F x I) as [G _] end. unfold tile_bytes, slice.
    rewrite G, Nat2Z.id, nth_error_app2, Nat.sub_diag by lia. reflexivity.
  - change (t :: l) with ([t] ++ l). rewrite app_assoc. apply (IH (Z.of_nat (length pre) + 1)); [assumption|]. rewrite app_length. cbn. lia.
Qed.

(** the order of the tiles in memory: end of one at most the start of the next *)
Definition before (x y : tile) : Prop := ti_grp x < ti_grp y \/ (ti_grp x = ti_grp y /\ ti_pos x + ti_sz x <= ti_pos y).

Lemma laid_sorted : forall nb len g l pos, 0 <= nb -> laid nb pos len l -> Forall (fun t => ti_grp t = g /\ 0 <= ti_sz t) l ->
  Forall (fun t => pos <= ti_pos t) l /\ StronglySorted before l.
Proof.
  intros nb len g l pos NB. revert pos. induction l as [|t l IH]; intros pos H F; [split; constructor|].
  pose proof (Forall_inv F) as [G S]. pose proof (Forall_inv_tail F) as F'.
  destruct l as [|u l].
  - cbn in H. split; [constructor; [lia|constructor]|]. constructor; constructor.
  - destruct H as [P H]. destruct (IH _ H F') as [A B]. split.
    + constructor; [lia|]. eapply Forall_impl; [|exact A]. cbn. intros; lia.
    + constructor; [exact B|]. rewrite Forall_forall in A, F' |- *. intros x I. right. destruct (F' x I) as [G' _]. split; [congruence|]. apply A, I.
Qed.

Lemma laid_out_groups : forall nb l g tss news, laid_out nb g l tss news ->
  Forall (fun t => g <= ti_grp t < g + zlen l) (concat news).
Proof.
  intros nb l g tss news H. induction H as [|g t l ts tss new news S L F M LA H IH]; [constructor|]. cbn [concat]. replace (zlen (t :: l)) with (zlen l + 1) by (unfold zlen; cbn [length]; lia). apply Forall_app. split.
  - eapply Forall_impl; [|exact F]. cbn. intros x [-> _]. pose proof (zlen_nn _ l). lia.
  - eapply Forall_impl; [|exact IH]. cbn. intros; lia.
Qed.

Lemma sorted_app : forall A (R : A -> A -> Prop) l1 l2, StronglySorted R l1 -> StronglySorted R l2 ->
  (forall x y, In x l1 -> In y l2 -> R x y) -> StronglySorted R (l1 ++ l2).
Proof.
  induction l1 as [|a l1 IH]; intros l2 S1 S2 H; [exact S2|]. inversion S1; subst. cbn. constructor.
  - apply IH; auto. intros. apply H; [right|]; auto.
  - apply Forall_app. split; [assumption|]. apply Forall_forall. intros y I. apply H; [now left|auto].
Qed.

Lemma laid_out_sorted : forall nb l g tss news, 0 <= nb -> laid_out nb g l tss news -> StronglySorted before (concat news).
Proof.
  intros nb l g tss news NB H. induction H as [|g t l ts tss new news S L F M LA H IH]; [constructor|]. cbn [concat].
  apply sorted_app; [|exact IH|].
  - eapply laid_sorted; [exact NB|exact LA|]. eapply Forall_impl; [|exact F]. cbn. intros x [A B]. split; [exact A|apply B].
  - intros x y Ix Iy. left. pose proof (laid_out_groups _ _ _ _ _ H) as G. rewrite Forall_forall in F, G. destruct (F x Ix) as [-> _]. specialize (G y Iy). cbn in G. lia.
Qed.

Lemma laid_out_inside : forall nb l g tss news pre, laid_out nb g l tss news -> g = Z.of_nat (length pre) ->
  Forall (fun t => exists grp, nth_error (pre ++ l) (Z.to_nat (ti_grp t)) = Some grp /\ inside (tg_data grp) t) (concat news).
Proof.
  intros nb l g tss news pre H. revert pre. induction H as [|g t l ts tss new news S L F M LA H IH]; intros pre E; [constructor|]. cbn [concat].
  apply Forall_app. split.
  - eapply Forall_impl; [|exact F]. cbn. intros x [-> I]. exists t. split; [|exact I]. rewrite E, Nat2Z.id, nth_error_app2, Nat.sub_diag by lia. reflexivity.
  - change (t :: l) with ([t] ++ l). rewrite app_assoc. apply IH. rewrite app_length. cbn. lia.
Qed.

Lemma laid_out_splits : forall nb l g tss news, laid_out nb g l tss news -> Forall2 (splits nb) l tss.
Proof. induction 1; constructor; auto. Qed.

Lemma upto_seq : forall n j, 0 <= j -> upto j n = map Z.of_nat (seq (Z.to_nat j) n).
Proof.
  induction n as [|n IH]; intros j J; [reflexivity|]. cbn [upto seq map]. rewrite Z2Nat.id by lia. f_equal. rewrite IH by lia. f_equal. f_equal. lia.
Qed.

Lemma app_len_inj : forall A (a a' b b' : list A), length a = length a' -> a ++ b = a' ++ b' -> a = a' /\ b = b'.
Proof.
  induction a as [|x a IH]; intros [|y a'] b b' L E; try discriminate L; [auto|]. cbn in E. injection E as -> E.
  destruct (IH a' b b' ltac:(cbn in L; lia) E) as [-> ->]. auto.
Qed.

(** the decomposition is unique *)
Lemma tiles_of_unique : forall nb k p ts, tiles_of nb k p ts -> forall ts', tiles_of nb k p ts' -> ts = ts'.
Proof.
  induction 1 as [p|k sb t rest ts L T H IH]; intros ts' H'.
  - inversion H'; reflexivity.
  - inversion H' as [|k' sb' t' rest' ts'' L' T' H'' EK E]; subst.
    apply app_len_inj in E; [|congruence]. destruct E as [-> E]. apply app_len_inj in E; [|lia]. destruct E as [-> ->].
    f_equal. apply IH. assumption.
Qed.

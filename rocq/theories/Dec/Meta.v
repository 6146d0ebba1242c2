(** Metadata OBUs. *)
From Coq Require Import ZArith List Bool Lia.
From Verif Require Import Base.CInt Base.Lemmas GetBits.Model GetBits.Spec GetBits.Abstract
  GetBits.Proofs GetBits.SpecProg GetBits.Sim GetBits.VarLen GetBits.AtPos Obu.SimTac
  Obu.SeqModel Obu.SeqRel Obu.SeqProofs Obu.ObuSpec Obu.SeqTop
  Obu.FrameModel Dec.State Dec.Submit Dec.ObuModel Dec.Front Dec.Wf.
Import ListNotations.
Open Scope Z_scope.
Local Open Scope outcome_scope.

(** 5.8.3 metadata_hdr_cll(), 5.8.4 metadata_hdr_mdcv(). *)
Definition metadata_hdr_cll : sp (Z * Z) :=
  (let* max_cll := f 16 in let* max_fall := f 16 in SRet (max_cll, max_fall))%sp.
Definition metadata_hdr_mdcv : sp (list Z) :=
  (let* primary_chromaticity_x_0 := f 16 in let* primary_chromaticity_y_0 := f 16 in
   let* primary_chromaticity_x_1 := f 16 in let* primary_chromaticity_y_1 := f 16 in
   let* primary_chromaticity_x_2 := f 16 in let* primary_chromaticity_y_2 := f 16 in
   let* white_point_chromaticity_x := f 16 in let* white_point_chromaticity_y := f 16 in
   let* luminance_max := f 32 in let* luminance_min := f 32 in
   SRet [primary_chromaticity_x_0; primary_chromaticity_y_0;
         primary_chromaticity_x_1; primary_chromaticity_y_1;
         primary_chromaticity_x_2; primary_chromaticity_y_2;
         white_point_chromaticity_x; white_point_chromaticity_y; luminance_max; luminance_min])%sp.
(** 5.8.2 metadata_itut_t35(): the bytes after the metadata type are the country
    code, its extension if the code is 0xFF, the payload, and trailing bits. *)
Definition t35_message (bytes : list Z) (x : itut) : Prop :=
  it_payload x <> [] /\ (it_country x <> 255 -> it_ext x = 0) /\
  exists k, bytes = it_country x :: (if it_country x =? 255 then [it_ext x] else []) ++
                    it_payload x ++ 128 :: repeat 0 k.

Lemma trailing_size_exact : forall fuel buf p size r, 0 <= p -> 0 <= size -> p + size <= zlen buf ->
  trailing_size fuel buf p size = Ok r ->
  0 <= r <= size /\ (forall i, p + r <= i < p + size -> nth (Z.to_nat i) buf 0 = 0) /\
  (r = 0 \/ nth (Z.to_nat (p + r - 1)) buf 0 <> 0).
Proof.
  induction fuel; intros buf p size r Hp Hs Hl E; cbn [trailing_size] in E.
  - destruct (Z.ltb_spec 0 size); [discriminate|]. injection E as <-. split; [lia|]. split; [intros; lia|lia].
  - destruct (Z.ltb_spec 0 size).
    + rewrite (rd_at_nth _ _ _ 0) in E by lia. cbn [obind] in E.
      destruct (Z.eqb_spec (nth (Z.to_nat (p + size - 1)) buf 0) 0).
      * apply IHfuel in E; try lia. destruct E as (A & B & C). split; [lia|]. split; [|auto].
        intros i Hi. destruct (Z.eq_dec i (p + size - 1)); [subst; auto|]. apply B. lia.
      * injection E as <-. split; [lia|]. split; [intros; lia|auto].
    + injection E as <-. split; [lia|]. split; [intros; lia|lia].
Qed.

Lemma read8 : forall buf o c, at_pos buf (8 * o) c -> 8 * o + 8 <= 8 * zlen buf + 2 ^ 31 -> 0 <= o ->
  exists v c', get_bits c 8 = Ok (v, c') /\ at_pos buf (8 * (o + 1)) c' /\
    (o < zlen buf -> v = nth (Z.to_nat o) buf 0).
Proof.
  intros buf o c At Hb Ho. pose proof At as (W & E1 & E2 & E3).
  assert (SL : st_len (stream_of c) = 8 * zlen buf) by (unfold stream_of; cbn; congruence).
  destruct (get_bits_ok c 8 W ltac:(lia)) as (c' & G & (W' & (S1 & S2) & A)).
  { rewrite E3, SL. cbn. lia. }
  exists (f_n (st_bit (stream_of c)) (a_pos (apos_of c)) 8), c'. split; [exact G|]. split.
  - split; [auto|]. split; [congruence|]. split; [congruence|]. rewrite A, E3, SL. cbn [a_pos a_err].
    replace (8 * o + 8) with (8 * (o + 1)) by lia. f_equal.
    destruct (Z.ltb_spec (8 * zlen buf) (8 * o)), (Z.ltb_spec (8 * zlen buf) (8 * (o + 1))); auto. lia.
  - intros Hlt. rewrite E3. cbn [a_pos]. unfold stream_of. cbn [st_bit]. rewrite E1, E2.
    apply f_n_byte; try lia. rewrite <- E1. apply W.
Qed.

Lemma skipn_cons_nth : forall (l : list Z) n, (n < length l)%nat -> skipn n l = nth n l 0 :: skipn (S n) l.
Proof. induction l; intros [|n] H; cbn in *; try lia; auto. rewrite IHl by lia. reflexivity. Qed.
Lemma zeros_repeat : forall (l : list Z), (forall i, (i < length l)%nat -> nth i l 0 = 0) -> l = repeat 0 (length l).
Proof.
  induction l; intros H; cbn; auto. f_equal; [apply (H 0%nat); cbn; lia|]. apply IHl. intros i Hi. apply (H (S i)). cbn. lia.
Qed.
Lemma nth_skipn_Z : forall (l : list Z) n i, nth i (skipn n l) 0 = nth (n + i) l 0.
Proof. induction l; intros [|n] i; cbn; auto. destruct i; auto. Qed.
Lemma skipn_add : forall A n m (l : list A), skipn n (skipn m l) = skipn (m + n) l.
Proof. induction m; intros l; cbn; auto. destruct l; auto. apply skipn_nil. Qed.

(** The trailing bits determine where the payload ends. *)
Lemma tail_unique : forall a b k j, a ++ 128 :: repeat 0 k = b ++ 128 :: repeat 0 j -> a = b.
Proof.
  intros a b k j H. apply (f_equal (@rev Z)) in H. rewrite !rev_app_distr in H. cbn [rev] in H.
  assert (RV : forall n, rev (repeat 0 n) = repeat 0 n).
  { induction n; cbn; auto. rewrite IHn. clear. induction n; cbn; auto. f_equal; auto. }
  rewrite !RV in H. rewrite <- !app_assoc in H. cbn [app] in H.
  assert (rev a = rev b).
  { revert j H. induction k; intros [|j] H; cbn in H; try discriminate; injection H; auto.
    intros X. apply IHk in X. exact X. }
  rewrite <- (rev_involutive a), H0, rev_involutive. reflexivity.
Qed.

Theorem parse_itut_ok : forall buf o c, at_pos buf (8 * o) c -> 0 <= o <= zlen buf ->
  exists r, parse_itut c = Ok r /\
  match r with
  | Some x => t35_message (skipn (Z.to_nat o) buf) x
  | None => forall x, ~ t35_message (skipn (Z.to_nat o) buf) x
  end.
Proof.
  intros buf o c At Ho. destruct (at_pos_aligned _ _ _ At ltac:(lia)) as (P & L & _ & Er).
  pose proof At as (W & E1 & E2 & _). assert (Hb : Forall is_byte buf) by (rewrite <- E1; apply W).
  unfold parse_itut. rewrite E1, E2, P.
  destruct (trailing_size_ok (length buf) buf o (zlen buf - o) Hb ltac:(lia) ltac:(lia) ltac:(lia) ltac:(unfold zlen; lia))
    as (sz & T1 & _). rewrite T1. cbn [obind].
  destruct (trailing_size_exact (length buf) buf o (zlen buf - o) sz ltac:(lia) ltac:(lia) ltac:(lia) T1) as (S1 & S2 & S3).
  destruct (read8 buf o c At ltac:(lia) ltac:(lia)) as (cc & c1 & R1 & At1 & V1). rewrite R1. cbn [obind].
  assert (exists x c2, (if cc =? 255 then get_bits c1 8 else Ok (0, c1)) = Ok (x, c2) /\
      at_pos buf (8 * (o + 1 + b2z (cc =? 255))) c2 /\
      (cc =? 255 = false -> x = 0) /\
      (cc =? 255 = true -> o + 1 < zlen buf -> x = nth (Z.to_nat (o + 1)) buf 0)) as (x & c2 & R2 & At2 & V2 & V3).
  { destruct (cc =? 255).
    - destruct (read8 buf (o + 1) c1 At1 ltac:(lia) ltac:(lia)) as (x & c2 & R2 & At2 & V2). exists x, c2. cbn [b2z].
      split; auto. split; auto. split; [discriminate|auto].
    - exists 0, c1. cbn [b2z]. rewrite Z.add_0_r. split; auto. split; auto. split; auto. discriminate. }
  rewrite R2. cbn [obind].
  set (hl := 1 + b2z (cc =? 255)) in *.
  assert (Hhl : 1 <= hl <= 2 /\ o + 1 + b2z (cc =? 255) = o + hl) by (unfold hl; destruct (cc =? 255); cbn; lia).
  destruct Hhl as (Hhl & Ehl). rewrite Ehl in At2.
  replace (if cc =? 255 then sz - 1 - 1 - 1 else sz - 1 - 1) with (sz - 1 - hl) by (unfold hl; destruct (cc =? 255); cbn [b2z]; lia).
  (* shape of any message *)
  assert (SH : forall y, t35_message (skipn (Z.to_nat o) buf) y ->
     it_country y = cc /\ 0 < sz - 1 - hl /\ nth (Z.to_nat (o + sz - 1)) buf 0 = 128).
  { intros y (Y1 & Y2 & k & Y3).
    assert (LB : zlen buf - o = Z.of_nat (length (skipn (Z.to_nat o) buf))) by (rewrite skipn_length; unfold zlen in *; lia).
    assert (O : o < zlen buf) by (rewrite Y3 in LB; cbn [length] in LB; lia).
    assert (EC : it_country y = cc).
    { rewrite V1 by auto. rewrite <- (Nat.add_0_r (Z.to_nat o)), <- nth_skipn_Z, Y3. reflexivity. }
    split; auto.
    assert (NT : forall i, 0 <= i < zlen buf - o -> nth (Z.to_nat (o + i)) buf 0 = nth (Z.to_nat i) (skipn (Z.to_nat o) buf) 0).
    { intros i Hi. rewrite nth_skipn_Z. f_equal. lia. }
    set (pre := it_country y :: (if it_country y =? 255 then [it_ext y] else []) ++ it_payload y) in *.
    assert (Y4 : skipn (Z.to_nat o) buf = pre ++ 128 :: repeat 0 k).
    { rewrite Y3. unfold pre. cbn [app]. rewrite <- app_assoc. reflexivity. }
    assert (LP : length pre = (1 + (if (it_country y =? 255)%Z then 1 else 0) + length (it_payload y))%nat).
    { unfold pre. cbn [length]. rewrite app_length. destruct (it_country y =? 255); reflexivity. }
    assert (LPY : (1 <= length (it_payload y))%nat) by (destruct (it_payload y); [congruence|cbn; lia]).
    assert (HH : hl = 1 + b2z (it_country y =? 255)) by (unfold hl; rewrite EC; reflexivity).
    clearbody pre. rewrite Y4, app_length in LB. cbn [length] in LB. rewrite repeat_length in LB.
    assert (ESZ : sz = Z.of_nat (length pre) + 1).
    { destruct (Z.lt_trichotomy sz (Z.of_nat (length pre) + 1)) as [X|[X|X]]; auto; exfalso.
      - specialize (S2 (o + Z.of_nat (length pre)) ltac:(lia)). rewrite NT, Y4 in S2 by lia.
        rewrite Nat2Z.id, app_nth2, Nat.sub_diag in S2 by lia. discriminate.
      - destruct S3 as [S3|S3]; [lia|]. apply S3. replace (o + sz - 1) with (o + (sz - 1)) by lia. rewrite NT, Y4 by lia.
        rewrite app_nth2 by lia. replace (Z.to_nat (sz - 1) - length pre)%nat with (S (Z.to_nat (sz - 2) - length pre)) by (clear - X; lia).
        cbn [nth]. apply nth_repeat. }
    split.
    - rewrite ESZ, HH, LP. destruct (it_country y =? 255); cbn [b2z]; lia.
    - replace (o + sz - 1) with (o + Z.of_nat (length pre)) by lia. rewrite NT, Y4 by lia.
      rewrite Nat2Z.id, app_nth2, Nat.sub_diag by lia. reflexivity. }
  destruct (Z.leb_spec (sz - 1 - hl) 0) as [Hle|Hgt].
  { eexists. split; [reflexivity|]. intros y Hy. destruct (SH y Hy). lia. }
  destruct (at_pos_aligned _ _ _ At2 ltac:(lia)) as (P2 & L2 & _ & _).
  assert (B2 : gb_buf c2 = buf /\ gb_end c2 = zlen buf) by (split; apply At2). destruct B2 as (B2 & N2).
  rewrite B2, P2, N2, L2. replace (o + hl + (sz - 1 - hl)) with (o + sz - 1) by lia.
  rewrite (rd_at_nth _ _ _ 0) by lia. cbn [obind].
  destruct (Z.eqb_spec (nth (Z.to_nat (o + sz - 1)) buf 0) 128) as [E128|N128]; cbn [negb].
  2:{ eexists. split; [reflexivity|]. intros y Hy. destruct (SH y Hy) as (_ & _ & X). auto. }
  change (0 =? 0) with true. cbn iota. replace (o + sz - 1 <=? zlen buf) with true by lia.
  eexists. split; [reflexivity|]. unfold t35_message. cbn [it_country it_ext it_payload].
  assert (LS : zlen (slice buf (o + hl) (o + sz - 1)) = sz - 1 - hl).
  { unfold slice, zlen. rewrite firstn_length, skipn_length. unfold zlen in *. lia. }
  split; [|split].
  - intros X. rewrite X in LS. unfold zlen in LS. cbn in LS. lia.
  - intros X. apply V2. destruct (Z.eqb_spec cc 255); congruence.
  - exists (Z.to_nat (zlen buf - o - sz)).
    rewrite (skipn_cons_nth buf (Z.to_nat o)) by (unfold zlen in *; lia). f_equal; [symmetry; apply V1; lia|].
    assert (K : skipn (Z.to_nat (o + hl)) buf = slice buf (o + hl) (o + sz - 1) ++ 128 :: repeat 0 (Z.to_nat (zlen buf - o - sz))).
    { rewrite <- (firstn_skipn (Z.to_nat (sz - 1 - hl)) (skipn (Z.to_nat (o + hl)) buf)) at 1. unfold slice.
      replace (o + sz - 1 - (o + hl)) with (sz - 1 - hl) by lia. f_equal. rewrite skipn_add.
      replace (Z.to_nat (o + hl) + Z.to_nat (sz - 1 - hl))%nat with (Z.to_nat (o + sz - 1)) by lia.
      rewrite (skipn_cons_nth buf (Z.to_nat (o + sz - 1))) by (unfold zlen in *; lia). rewrite E128. f_equal.
      assert (LL : length (skipn (S (Z.to_nat (o + sz - 1))) buf) = Z.to_nat (zlen buf - o - sz)) by (rewrite skipn_length; unfold zlen in *; lia).
      rewrite <- LL. apply zeros_repeat. intros i Hi. rewrite nth_skipn_Z. rewrite LL in Hi.
      specialize (S2 (o + sz + Z.of_nat i) ltac:(lia)). etransitivity; [|exact S2]. f_equal. lia. }
    unfold hl in K at 1. destruct (Z.eqb_spec cc 255) as [E255|N255]; cbn [b2z] in K.
    + rewrite (skipn_cons_nth buf (S (Z.to_nat o))) by (unfold zlen in *; lia). cbn [app].
      f_equal; [rewrite V3 by (auto; lia); f_equal; lia|]. rewrite <- K. f_equal. lia.
    + cbn [app]. rewrite <- K. f_equal. lia.
Qed.

Lemma sim_cll : forall N, 32 <= N -> sim N (do a <- bits 16; do b <- bits 16; Ret (a, b))%rd metadata_hdr_cll eq.
Proof. intros N H. unfold metadata_hdr_cll. rdn a 16. rdn b 16. sret. reflexivity. Qed.
Lemma sim_mdcv : forall N, 192 <= N ->
  sim N (do l <- read_list 8 16; do mx <- bits 32; do mn <- bits 32; Ret (l ++ [mx; mn]))%rd metadata_hdr_mdcv eq.
Proof.
  intros N H. unfold metadata_hdr_mdcv.
  match goal with |- sim _ _ ?q ?R => change (sim N (do a0 <- bits 16; do a1 <- bits 16; do a2 <- bits 16; do a3 <- bits 16; do a4 <- bits 16; do a5 <- bits 16; do a6 <- bits 16; do a7 <- bits 16; do mx <- bits 32; do mn <- bits 32; Ret [a0; a1; a2; a3; a4; a5; a6; a7; mx; mn])%rd q R) end.
  rdn a0 16. rdn a1 16. rdn a2 16. rdn a3 16. rdn a4 16. rdn a5 16. rdn a6 16. rdn a7 16. rdn mx 32. rdn mn 32.
  sret. reflexivity.
Qed.

Lemma trailing_exec_ok : forall strict buf pos c, at_pos buf pos c -> pos + 1 <= 8 * zlen buf + 2 ^ 31 ->
  exists r c', exec (check_trailing_bits strict) c = Ok (r, c') /\
  ((r = inl tt /\ S.trailing_ok strict (stream_bit buf (zlen buf)) pos (8 * zlen buf)) \/
   (r = inr EINVAL_ /\ ~ S.trailing_ok strict (stream_bit buf (zlen buf)) pos (8 * zlen buf))).
Proof.
  intros strict buf pos c At Hp. pose proof At as (W & E1 & E2 & E3).
  pose proof (at_pos_stream _ _ _ At) as ES.
  destruct (trailing_aexec strict (stream_of c) (apos_of c) (stream_of_ok c) (gb_wf_pos c W)) as (r & E & D).
  { rewrite E3, ES. cbn. lia. }
  destruct (exec_refines _ _ c _ _ W E) as (c' & X & _). exists r, c'. split; [exact X|].
  rewrite ES, E3 in D. cbn [st_bit st_len a_pos a_err] in D.
  destruct D as [(-> & _ & D)|(-> & [D|D])]; [left; auto| |right; auto].
  right. split; auto. intros (T & _). lia.
Qed.

(** A fixed-size message followed by trailing bits. *)
Lemma message_exec : forall A N (m : rd A) (q : sp A) strict buf pos c, sim N m q eq -> at_pos buf pos c ->
  pos + N + 1 <= 8 * zlen buf + 2 ^ 31 -> (forall b p, fst (srun q b p) <> None) ->
  exists r c', exec (rbind m (fun x => do _ <- check_trailing_bits strict; Ret x)%rd) c = Ok (r, c') /\
  exists v p, srun q (stream_bit buf (zlen buf)) pos = (Some v, p) /\
  ((r = inl v /\ S.trailing_ok strict (stream_bit buf (zlen buf)) p (8 * zlen buf)) \/
   (r = inr EINVAL_ /\ ~ S.trailing_ok strict (stream_bit buf (zlen buf)) p (8 * zlen buf))).
Proof.
  intros A N m q strict buf pos c HS At Hb Hq. rewrite exec_bind.
  pose proof (sim_exec _ _ N _ _ _ buf pos c HS At ltac:(lia)) as H. specialize (Hq (stream_bit buf (zlen buf)) pos).
  destruct (srun q (stream_bit buf (zlen buf)) pos) as [[v|] p]; [|cbn in Hq; congruence].
  destruct H as (P & x & c1 & E & -> & At1). rewrite E. rewrite exec_bind.
  destruct (trailing_exec_ok strict buf p c1 At1 ltac:(lia)) as (r & c2 & E2 & D). rewrite E2.
  destruct D as [(-> & D)|(-> & D)]; cbn [exec]; do 2 eexists; (split; [reflexivity|]); exists v, p; auto.
Qed.
Lemma parse_cll_eq : forall strict, parse_cll strict =
  rbind (do a <- bits 16; do b <- bits 16; Ret (a, b))%rd (fun x => do _ <- check_trailing_bits strict; Ret x)%rd.
Proof. reflexivity. Qed.
Lemma parse_mdcv_eq : forall strict, parse_mdcv strict =
  rbind (do l <- read_list 8 16; do mx <- bits 32; do mn <- bits 32; Ret (l ++ [mx; mn]))%rd
    (fun x => do _ <- check_trailing_bits strict; Ret x)%rd.
Proof. reflexivity. Qed.

(** What a metadata OBU whose payload starts at byte [o] of [buf] does. *)
Definition metadata_eff (s : settings) (buf : list Z) (o : Z) (d : dec) (x : sw) : Prop :=
  let b := stream_bit buf (zlen buf) in
  let message {A} (q : sp A) p v := exists p2, srun q b p = (Some v, p2) /\ S.trailing_ok (s_strict s) b p2 (8 * zlen buf) in
  (x = SwErr d /\ forall t p, srun leb128 b (8 * o) = (Some t, p) -> p <= 8 * zlen buf ->
      t = META_HDR_CLL /\ (forall v, ~ message metadata_hdr_cll p v) \/
      t = META_HDR_MDCV /\ (forall v, ~ message metadata_hdr_mdcv p v)) \/
  exists t p, srun leb128 b (8 * o) = (Some t, p) /\ p <= 8 * zlen buf /\
    ((t = META_HDR_CLL /\ exists v, message metadata_hdr_cll p v /\ x = SwGo (w_cll (Some v) d)) \/
     (t = META_HDR_MDCV /\ exists v, message metadata_hdr_mdcv p v /\ x = SwGo (w_mdcv (Some v) d)) \/
     (t = META_ITUT_T35 /\ exists v, t35_message (skipn (Z.to_nat (p / 8)) buf) v /\
        x = SwGo (w_itut (d_itut d ++ [v]) d)) \/
     (x = SwGo d /\ t <> META_HDR_CLL /\ t <> META_HDR_MDCV /\
        (t = META_ITUT_T35 -> forall v, ~ t35_message (skipn (Z.to_nat (p / 8)) buf) v))).

Theorem metadata_ok : forall s buf o c d, at_pos buf (8 * o) c -> 0 <= o <= zlen buf ->
  exists x, metadata s c d = Ok x /\ metadata_eff s buf o d x.
Proof.
  intros s buf o c d At Ho. unfold metadata, metadata_eff. cbv zeta.
  pose proof (uleb_exec2 buf (8 * o) c At ltac:(lia)) as UL.
  destruct (srun leb128 (stream_bit buf (zlen buf)) (8 * o)) as [[t|] p] eqn:EL.
  2:{ destruct UL as (c1 & E & _ & _ & _ & G & _). rewrite E. cbn [obind]. rewrite G. eexists. split; [reflexivity|].
      left. split; auto. intros t0 p0 X. discriminate. }
  destruct UL as (P2 & P3 & c1 & E & At1). rewrite E. cbn [obind].
  assert (GE : gb_err c1 = (8 * zlen buf <? p)).
  { destruct At1 as (_ & _ & _ & A). apply (f_equal a_err) in A. exact A. }
  rewrite GE. destruct (Z.ltb_spec (8 * zlen buf) p).
  { eexists. split; [reflexivity|]. left. split; auto. intros t0 p0 X. injection X as <- <-. lia. }
  destruct (leb128_len _ _ _ _ EL) as (k & K1 & K2).
  assert (EP : exists o2, p = 8 * o2 /\ 0 <= o2 <= zlen buf) by (exists (o + k); lia). destruct EP as (o2 & -> & Ho2).
  destruct (Z.eqb_spec t META_HDR_CLL) as [->|N1].
  { rewrite parse_cll_eq.
    destruct (message_exec _ 32 _ _ (s_strict s) buf (8 * o2) c1 (sim_cll 32 ltac:(lia)) At1 ltac:(lia)) as (r & c2 & E2 & v & p2 & R & D).
    { intros b q. cbn. discriminate. }
    rewrite E2. cbn [obind]. eexists. split; [reflexivity|]. destruct D as [(-> & D)|(-> & D)].
    - right. exists META_HDR_CLL, (8 * o2). split; auto. split; [lia|]. left. split; auto. exists v. split; [eauto|reflexivity].
    - left. split; auto. intros t0 p0 X _. injection X as <- <-. left. split; auto. intros v0 (p3 & X1 & X2).
      rewrite R in X1. injection X1 as <- <-. auto. }
  destruct (Z.eqb_spec t META_HDR_MDCV) as [->|N2].
  { rewrite parse_mdcv_eq.
    destruct (message_exec _ 192 _ _ (s_strict s) buf (8 * o2) c1 (sim_mdcv 192 ltac:(lia)) At1 ltac:(lia)) as (r & c2 & E2 & v & p2 & R & D).
    { intros b q. cbn. discriminate. }
    rewrite E2. cbn [obind]. eexists. split; [reflexivity|]. destruct D as [(-> & D)|(-> & D)].
    - right. exists META_HDR_MDCV, (8 * o2). split; auto. split; [lia|]. right; left. split; auto. exists v. split; [eauto|reflexivity].
    - left. split; auto. intros t0 p0 X _. injection X as <- <-. right. split; auto. intros v0 (p3 & X1 & X2).
      rewrite R in X1. injection X1 as <- <-. auto. }
  replace (8 * o2 / 8) with o2 by (rewrite Z.mul_comm, Z.div_mul; lia).
  destruct (Z.eqb_spec t META_ITUT_T35) as [->|N3].
  { destruct (parse_itut_ok buf o2 c1 At1 Ho2) as (r & E2 & D). rewrite E2. cbn [obind]. eexists. split; [reflexivity|].
    right. exists META_ITUT_T35, (8 * o2). split; auto. split; [lia|].
    replace (8 * o2 / 8) with o2 by (rewrite Z.mul_comm, Z.div_mul; lia).
    destruct r as [v|].
    - right; right; left. split; auto. exists v. auto.
    - right; right; right. auto. }
  eexists. split; [reflexivity|]. right. exists t, (8 * o2). split; auto. split; [lia|]. right; right; right.
  split; [reflexivity|]. split; [auto|]. split; [auto|]. intros X. contradiction.
Qed.

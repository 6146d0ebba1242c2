(** The MD5 writer computes RFC 1321 MD5. *)
From Coq Require Import ZArith List Bool Lia Ascii String.
From Verif Require Import Base.CInt Base.Lemmas Tools.Md5 Tools.Md5Rounds.
Import ListNotations.
Open Scope Z_scope.
Open Scope outcome_scope.

Lemma word_range : forall t, 0 <= t < 64 -> 0 <= S.word t < 16.
Proof.
  intros t H. unfold S.word.
  destruct (Z.ltb_spec t 16); [lia|].
  destruct (t <? 32); [apply Z.mod_pos_bound; lia|].
  destruct (t <? 48); apply Z.mod_pos_bound; lia.
Qed.

Lemma ops_ext : forall X Y, (forall i, 0 <= i < 16 -> X i = Y i) ->
  forall n t s, 0 <= t -> t + Z.of_nat n <= 64 -> S.ops X n t s = S.ops Y n t s.
Proof.
  intros X Y E. induction n; intros t s H0 H1; [reflexivity|].
  cbn [S.ops]. rewrite IHn by lia. f_equal.
  destruct s as [[[a b] c] d]. rewrite !op_eq.
  now rewrite (E (S.word t)) by (apply word_range; lia).
Qed.

Lemma firstn_four : forall (l : list Z) n, (n + 4 <= List.length l)%nat ->
  firstn 4 (skipn n l) = [nth n l 0; nth (n + 1) l 0; nth (n + 2) l 0; nth (n + 3) l 0].
Proof.
  intros l n H.
  replace l with (firstn n l ++ skipn n l) at 2 3 4 5 by apply firstn_skipn.
  assert (F : List.length (firstn n l) = n) by (apply firstn_length_le; lia).
  rewrite !app_nth2 by lia. rewrite !F.
  assert (G : List.length (skipn n l) = (List.length l - n)%nat) by apply skipn_length.
  replace (n - n)%nat with 0%nat by lia. replace (n + 1 - n)%nat with 1%nat by lia.
  replace (n + 2 - n)%nat with 2%nat by lia. replace (n + 3 - n)%nat with 3%nat by lia.
  destruct (skipn n l) as [|a [|b [|c [|d tl]]]]; cbn in G; try lia. reflexivity.
Qed.

Lemma data32_eq : forall l i, List.length l = 64%nat -> 0 <= i < 16 -> data32 l i = S.words l i.
Proof.
  intros l i L H. unfold data32, S.words.
  rewrite firstn_four by lia. cbn [S.le_value].
  replace (Z.to_nat (4 * i + 0)) with (4 * Z.to_nat i)%nat by lia.
  replace (Z.to_nat (4 * i + 1)) with (4 * Z.to_nat i + 1)%nat by lia.
  replace (Z.to_nat (4 * i + 2)) with (4 * Z.to_nat i + 2)%nat by lia.
  replace (Z.to_nat (4 * i + 3)) with (4 * Z.to_nat i + 3)%nat by lia.
  lia.
Qed.

Definition regs (m : md5) : Z * Z * Z * Z := (m_a m, m_b m, m_c m, m_d m).

Transparent S.add.
Lemma body_regs : forall m, List.length (m_data m) = 64%nat ->
  regs (md5_body m) = S.compress (S.words (m_data m)) (regs m).
Proof.
  intros m L. unfold regs, md5_body, S.compress.
  rewrite rounds_eq.
  rewrite (ops_ext (data32 (m_data m)) (S.words (m_data m))) by (intros; solve [apply data32_eq; assumption | lia]).
  destruct (S.ops (S.words (m_data m)) 64 0 (m_a m, m_b m, m_c m, m_d m)) as [[[a b] c] d].
  reflexivity.
Qed.

Lemma body_rest : forall m, m_data (md5_body m) = m_data m /\ m_len (md5_body m) = m_len m.
Proof.
  intros m. unfold md5_body.
  destruct (rounds (data32 (m_data m)) (m_a m, m_b m, m_c m, m_d m)) as [[[a b] c] d].
  auto.
Qed.

(** ** processing a prefix *)
Lemma skipn_skipn' : forall A n m (l : list A), skipn m (skipn n l) = skipn (n + m) l.
Proof.
  induction n; intros m l; [reflexivity|].
  destruct l; cbn [skipn Nat.add]; [now rewrite skipn_nil|apply IHn].
Qed.

Lemma process_app : forall n m l s,
  S.process (n + m) l s = S.process m (skipn (64 * n) l) (S.process n l s).
Proof.
  induction n; intros m l s; [reflexivity|].
  cbn [Nat.add S.process]. rewrite IHn.
  replace (64 * S n)%nat with (64 + 64 * n)%nat by lia.
  now rewrite <- skipn_skipn'.
Qed.

Lemma process_prefix : forall n l x s, (64 * n <= List.length l)%nat ->
  S.process n (l ++ x) s = S.process n l s.
Proof.
  induction n; intros l x s H; [reflexivity|].
  cbn [S.process].
  rewrite !firstn_app, !skipn_app.
  replace (64 - List.length l)%nat with 0%nat by lia.
  change (firstn 0 x) with (@nil Z). change (skipn 0 x) with x.
  rewrite app_nil_r. apply IHn. rewrite skipn_length. lia.
Qed.

(** ** the buffering *)
Definition Inv (msg : list Z) (m : md5) : Prop :=
  exists q r, List.length msg = (64 * q + r)%nat /\ (r < 64)%nat
  /\ m_len m = u64 (zlen msg)
  /\ List.length (m_data m) = 64%nat
  /\ firstn r (m_data m) = skipn (64 * q) msg
  /\ regs m = S.process q msg S.init.

Lemma len_and : forall L, Z.land (u64 L) 63 = L mod 64.
Proof.
  intros L. change 63 with (2 ^ 6 - 1). rewrite land_ones_mod by lia. unfold u64.
  change (2 ^ 64) with (2 ^ 6 * 2 ^ 58). change (2 ^ 6) with 64.
  rewrite Z.rem_mul_r by lia. rewrite Z.mul_comm, Z_mod_plus_full.
  now rewrite Z.mod_mod by lia.
Qed.

Lemma inv_len : forall (msg : list Z) m q r, List.length msg = (64 * q + r)%nat -> (r < 64)%nat ->
  m_len m = u64 (zlen msg) -> Z.land (m_len m) 63 = Z.of_nat r.
Proof.
  intros msg m q r L R E. rewrite E, len_and. unfold zlen. rewrite L.
  replace (Z.of_nat (64 * q + r)) with (Z.of_nat r + Z.of_nat q * 64) by lia.
  rewrite Z_mod_plus_full. apply Z.mod_small. lia.
Qed.

Lemma add_u64 : forall x n, u64 (u64 x + n) = u64 (x + n).
Proof. intros. unfold u64. now rewrite Zplus_mod_idemp_l. Qed.

Definition put (m : md5) (r : nat) (d : list Z) : md5 :=
  set_data m (firstn r (m_data m) ++ d ++ skipn (r + List.length d) (m_data m)).

Lemma put_length : forall m r d, List.length (m_data m) = 64%nat -> (r + List.length d <= 64)%nat ->
  List.length (m_data (put m r d)) = 64%nat.
Proof.
  intros. unfold put; cbn [m_data set_data].
  rewrite !app_length, skipn_length, firstn_length_le by lia. lia.
Qed.

Lemma put_firstn : forall m r d, List.length (m_data m) = 64%nat -> (r + List.length d <= 64)%nat ->
  firstn (r + List.length d) (m_data (put m r d)) = firstn r (m_data m) ++ d.
Proof.
  intros m r d L R. unfold put; cbn [m_data set_data].
  rewrite app_assoc, firstn_app.
  assert (E : List.length (firstn r (m_data m) ++ d) = (r + List.length d)%nat)
    by (rewrite app_length, firstn_length_le; lia).
  rewrite E, Nat.sub_diag. cbn [firstn]. rewrite app_nil_r.
  apply firstn_all2. lia.
Qed.

Lemma put_part : forall msg m q r d, List.length msg = (64 * q + r)%nat ->
  (r + List.length d < 64)%nat ->
  m_len m = u64 (zlen msg) -> List.length (m_data m) = 64%nat ->
  firstn r (m_data m) = skipn (64 * q) msg -> regs m = S.process q msg S.init ->
  Inv (msg ++ d) (add_len (put m r d) (zlen d)).
Proof.
  intros msg m q r d L R E D F P. exists q, (r + List.length d)%nat.
  repeat (apply conj).
  - rewrite app_length. lia.
  - assumption.
  - cbn [m_len add_len put set_data]. rewrite E, add_u64. unfold zlen. rewrite app_length.
    f_equal. lia.
  - apply put_length; lia.
  - etransitivity; [apply put_firstn; lia|]. rewrite F, skipn_app.
    now replace (64 * q - List.length msg)%nat with 0%nat by lia.
  - change (regs m = S.process q (msg ++ d) S.init).
    rewrite process_prefix by lia. exact P.
Qed.

Lemma put_full : forall msg m q r d, List.length msg = (64 * q + r)%nat ->
  (r + List.length d = 64)%nat ->
  m_len m = u64 (zlen msg) -> List.length (m_data m) = 64%nat ->
  firstn r (m_data m) = skipn (64 * q) msg -> regs m = S.process q msg S.init ->
  Inv (msg ++ d) (md5_body (add_len (put m r d) (zlen d))).
Proof.
  intros msg m q r d L R E D F P. exists (q + 1)%nat, 0%nat.
  pose proof (put_length m r d D ltac:(lia)) as PL.
  pose proof (put_firstn m r d D ltac:(lia)) as PF.
  rewrite R in PF. rewrite firstn_all2 in PF by lia.
  destruct (body_rest (add_len (put m r d) (zlen d))) as [B1 B2].
  repeat (apply conj).
  - rewrite app_length. lia.
  - lia.
  - rewrite B2. cbn [m_len add_len put set_data]. rewrite E, add_u64. unfold zlen.
    rewrite app_length. f_equal. lia.
  - rewrite B1. exact PL.
  - cbn [firstn]. symmetry. apply skipn_all2. rewrite app_length. lia.
  - rewrite body_regs by exact PL.
    change (m_data (add_len (put m r d) (zlen d))) with (m_data (put m r d)).
    change (regs (add_len (put m r d) (zlen d))) with (regs m).
    rewrite PF, P, F, process_app, process_prefix by lia.
    cbn [S.process]. rewrite skipn_app.
    replace (64 * q - List.length msg)%nat with 0%nat by lia. change (skipn 0 d) with d.
    rewrite (firstn_all2 (n := 64)); [reflexivity|].
    rewrite app_length, skipn_length. lia.
Qed.

Lemma body_add_len : forall m n, md5_body (add_len m n) = add_len (md5_body m) n.
Proof.
  intros m n. unfold md5_body. cbn [m_data m_a m_b m_c m_d m_len add_len].
  destruct (rounds (data32 (m_data m)) (m_a m, m_b m, m_c m, m_d m)) as [[[a b] c] d].
  reflexivity.
Qed.

Lemma copy_put : forall m r data n, List.length (m_data m) = 64%nat -> 0 <= n <= zlen data ->
  Z.of_nat r + n <= 64 ->
  copy (m_data m) (Z.of_nat r) data n = Ok (m_data (put m r (firstn (Z.to_nat n) data))).
Proof.
  intros m r data n D N R. unfold copy, zlen in *. rewrite D.
  replace ((0 <=? Z.of_nat r) && (0 <=? n) && (Z.of_nat r + n <=? Z.of_nat 64)
           && (n <=? Z.of_nat (List.length data))) with true by lia.
  cbn [put m_data set_data]. rewrite firstn_length_le by lia. rewrite Nat2Z.id.
  now replace (Z.to_nat (Z.of_nat r + n)) with (r + Z.to_nat n)%nat by lia.
Qed.

Lemma zlen_firstn : forall A (l : list A) n, 0 <= n <= zlen l -> zlen (firstn (Z.to_nat n) l) = n.
Proof. intros. unfold zlen in *. rewrite firstn_length_le by lia. lia. Qed.

Lemma blocks_ok : forall fuel msg m q data len,
  0 <= len <= zlen data -> len <= Z.of_nat fuel ->
  List.length msg = (64 * q)%nat ->
  Inv msg m ->
  exists m' len' n, blocks fuel m data len = Ok (m', skipn n data, len')
    /\ 0 <= len' < 64 /\ len = Z.of_nat n + len' /\ (exists q', List.length (msg ++ firstn n data) = (64 * q')%nat)
    /\ Inv (msg ++ firstn n data) m'.
Proof.
  induction fuel; intros msg m q data len Hl Hf Hq HI.
  - exists m, len, 0%nat. cbn [blocks]. replace (len <? 64) with true by lia.
    repeat split; try lia. + exists q. cbn [firstn]. now rewrite app_nil_r.
    + cbn [firstn]. now rewrite app_nil_r.
  - cbn [blocks]. destruct (Z.ltb_spec len 64).
    + exists m, len, 0%nat. repeat split; try lia.
      * exists q. cbn [firstn]. now rewrite app_nil_r.
      * cbn [firstn]. now rewrite app_nil_r.
    + destruct HI as (q0 & r & L & R & E & D & F & P).
      assert (r = 0%nat /\ q0 = q) as [-> ->] by lia.
      pose proof (copy_put m 0 data 64 D ltac:(lia) ltac:(lia)) as C. change (Z.of_nat 0) with 0 in C.
      rewrite C. cbn [obind].
      set (d := firstn (Z.to_nat 64) data) in *.
      assert (Ld : List.length d = 64%nat) by (unfold d; rewrite firstn_length_le; unfold zlen in *; lia).
      pose proof (put_full msg m q 0 d L ltac:(lia) E D F P) as I1.
      rewrite body_add_len in I1.
      replace (zlen d) with 64 in I1 by (unfold zlen; lia).
      change (set_data m (m_data (put m 0 d))) with (put m 0 d).
      destruct (IHfuel (msg ++ d) (add_len (md5_body (put m 0 d)) 64) (q + 1)%nat (skipn 64 data) (len - 64))
        as (m' & len' & n & E1 & E2 & E3 & (q' & E4) & E5).
      * unfold zlen in *. rewrite skipn_length. lia.
      * lia.
      * rewrite app_length. lia.
      * exact I1.
      * exists m', len', (64 + n)%nat.
        assert (A : msg ++ firstn (64 + n) data = (msg ++ d) ++ firstn n (skipn 64 data)).
        { rewrite <- app_assoc. f_equal. unfold d. change (Z.to_nat 64) with 64%nat.
          rewrite <- (firstn_skipn 64 data) at 1. rewrite firstn_app.
          assert (LL : List.length (firstn 64 data) = 64%nat) by (rewrite firstn_length_le; unfold zlen in *; lia).
          rewrite LL. rewrite firstn_all2 by lia.
          now replace (64 + n - 64)%nat with n by lia. }
        rewrite E1, skipn_skipn', A. repeat split; try lia; [|exact E5].
        exists q'. exact E4.
Qed.

Lemma firstn_plus : forall A (l : list A) a b, firstn (a + b) l = firstn a l ++ firstn b (skipn a l).
Proof.
  induction l; intros [|a0] b; cbn [Nat.add firstn skipn app]; try reflexivity.
  - now rewrite !firstn_nil.
  - f_equal. apply IHl.
Qed.

Lemma update_ok : forall msg m data len, 0 <= len <= zlen data -> Inv msg m ->
  exists m', md5_update m data len = Ok m' /\ Inv (msg ++ firstn (Z.to_nat len) data) m'.
Proof.
  intros msg m data len Hl HI. unfold md5_update.
  destruct (Z.eqb_spec len 0) as [->|N].
  { exists m. cbn [Z.to_nat firstn]. now rewrite app_nil_r. }
  assert (Step : exists m1 n q, fill m data len = Ok (m1, skipn n data, len - Z.of_nat n)
       /\ 0 <= Z.of_nat n <= len /\ Inv (msg ++ firstn n data) m1
       /\ (len = Z.of_nat n \/ List.length (msg ++ firstn n data) = (64 * q)%nat)).
  { unfold fill. destruct HI as (q & r & L & R & E & D & F & P).
    rewrite (inv_len msg m q r L R E). unfold z2b.
    destruct (Z.eqb_spec (Z.of_nat r) 0) as [R0|R0]; cbn [negb].
    - exists m, 0%nat, q. cbn [skipn firstn]. rewrite app_nil_r.
      replace (len - Z.of_nat 0) with len by lia.
      repeat split; try lia. now exists q, r.
    - set (tmp := Z.min len (64 - Z.of_nat r)).
      assert (Ht : 0 < tmp <= len /\ tmp <= 64 - Z.of_nat r) by (unfold tmp; lia).
      rewrite copy_put by (try assumption; lia). cbn [obind].
      set (d := firstn (Z.to_nat tmp) data).
      change (set_data m (m_data (put m r d))) with (put m r d).
      assert (Zd : zlen d = tmp) by (unfold d; apply zlen_firstn; lia).
      assert (Nd : List.length d = Z.to_nat tmp) by (unfold zlen in Zd; lia).
      cbv zeta.
      assert (ML : m_len (add_len (put m r d) tmp) = u64 (zlen (msg ++ d))).
      { cbn [m_len add_len put set_data]. rewrite E, add_u64. unfold zlen in *.
        rewrite app_length. f_equal. lia. }
      rewrite ML, len_and.
      assert (MM : zlen (msg ++ d) = (Z.of_nat r + tmp) + Z.of_nat q * 64).
      { unfold zlen in *. rewrite app_length. lia. }
      rewrite MM, Z_mod_plus_full.
      destruct (Z.eq_dec (Z.of_nat r + tmp) 64) as [Fu|Fu].
      + rewrite Fu, Z_mod_same_full. cbn [Z.eqb].
        exists (md5_body (add_len (put m r d) tmp)), (Z.to_nat tmp), (q + 1)%nat.
        replace (Z.of_nat (Z.to_nat tmp)) with tmp by lia.
        repeat split; try lia.
        * fold d. rewrite <- Zd. apply (put_full msg m q r d); try assumption. lia.
        * right. fold d. rewrite app_length. lia.
      + rewrite Z.mod_small by lia.
        destruct (Z.eqb_spec (Z.of_nat r + tmp) 0) as [X|_]; [lia|].
        exists (add_len (put m r d) tmp), (Z.to_nat tmp), q.
        replace (Z.of_nat (Z.to_nat tmp)) with tmp by lia.
        repeat split; try lia.
        fold d. rewrite <- Zd. apply (put_part msg m q r d); try assumption. lia. }
  destruct Step as (m1 & n & q & -> & Hn & I1 & Q). cbn [obind].
  assert (B : exists m2 len2 n2, blocks (Z.to_nat (len - Z.of_nat n)) m1 (skipn n data) (len - Z.of_nat n)
    = Ok (m2, skipn n2 (skipn n data), len2)
    /\ 0 <= len2 < 64 /\ len - Z.of_nat n = Z.of_nat n2 + len2
    /\ (len2 = 0 \/ exists q', List.length ((msg ++ firstn n data) ++ firstn n2 (skipn n data)) = (64 * q')%nat)
    /\ Inv ((msg ++ firstn n data) ++ firstn n2 (skipn n data)) m2).
  { destruct Q as [Q|Q].
    - exists m1, 0, 0%nat. rewrite <- Q, Z.sub_diag. cbn [Z.to_nat blocks Z.ltb Z.compare firstn skipn].
      rewrite app_nil_r. repeat split; auto; lia.
    - destruct (blocks_ok (Z.to_nat (len - Z.of_nat n)) (msg ++ firstn n data) m1 q (skipn n data)
                  (len - Z.of_nat n)) as (m2 & len2 & n2 & E1 & E2 & E3 & E4 & E5); auto.
      + unfold zlen in *. rewrite skipn_length. lia.
      + lia.
      + exists m2, len2, n2. rewrite E1. repeat split; auto; lia. }
  destruct B as (m2 & len2 & n2 & -> & H2 & EL & Q2 & I2). cbn [obind].
  rewrite <- app_assoc, <- firstn_plus in Q2, I2. rewrite skipn_skipn'.
  destruct (Z.eqb_spec len2 0) as [Z0|Z0].
  - exists m2. split; [reflexivity|]. now replace (Z.to_nat len) with (n + n2)%nat by lia.
  - destruct Q2 as [Q2|[q' Q2]]; [lia|].
    destruct I2 as (q0 & r & L & R & E & D & F & P).
    assert (r = 0%nat /\ q0 = q') as [-> ->] by lia.
    pose proof (copy_put m2 0 (skipn (n + n2) data) len2 D) as C. change (Z.of_nat 0) with 0 in C.
    rewrite C by (unfold zlen in *; rewrite ?skipn_length; lia). cbn [obind].
    set (d := firstn (Z.to_nat len2) (skipn (n + n2) data)).
    eexists. split; [reflexivity|].
    change (set_data m2 (m_data (put m2 0 d))) with (put m2 0 d).
    assert (Zd : zlen d = len2).
    { unfold d. apply zlen_firstn. unfold zlen in *. rewrite skipn_length. lia. }
    replace (Z.to_nat len) with ((n + n2) + Z.to_nat len2)%nat by lia.
    rewrite firstn_plus, app_assoc. fold d. rewrite <- Zd.
    apply (put_part (msg ++ firstn (n + n2) data) m2 q' 0 d); try assumption.
    unfold zlen in Zd. lia.
Qed.

(** ** padding *)
Lemma pad_ok : forall z fuel msg m, (z <= fuel)%nat -> (z < 64)%nat ->
  Z.of_nat z = (56 - zlen msg) mod 64 -> Inv msg m ->
  exists m', pad_loop fuel m = Ok m' /\ Inv (msg ++ repeat 0 z) m'.
Proof.
  induction z; intros fuel msg m Hf Hz E HI.
  - exists m. cbn [repeat]. rewrite app_nil_r. split; [|exact HI].
    destruct HI as (q & r & L & R & EL & _).
    assert (X : Z.land (m_len m) 63 = 56).
    { rewrite EL, len_and. clear - E. change (Z.of_nat 0) with 0 in E. symmetry in E.
      apply Z.mod_divide in E; [|lia]. destruct E as [kq E].
      replace (zlen msg) with (56 + (- kq) * 64) by lia. now rewrite Z_mod_plus_full. }
    destruct fuel; cbn [pad_loop]; rewrite X; reflexivity.
  - destruct fuel as [|fuel]; [lia|]. cbn [pad_loop].
    assert (X : Z.land (m_len m) 63 <> 56).
    { destruct HI as (q & r & L & R & EL & _). rewrite EL, len_and. intros X.
      pose proof (Z.div_mod (zlen msg) 64 ltac:(lia)) as DM. rewrite X in DM.
      replace (56 - zlen msg) with (0 + (- (zlen msg / 64)) * 64) in E by lia.
      rewrite Z_mod_plus_full in E. change (0 mod 64) with 0 in E. lia. }
    replace (Z.land (m_len m) 63 =? 56) with false by (symmetry; apply Z.eqb_neq; exact X).
    destruct (update_ok msg m [0] 1 ltac:(unfold zlen; cbn [List.length]; lia) HI) as (m1 & -> & I1). cbn [obind].
    change (firstn (Z.to_nat 1) [0]) with [0] in I1.
    destruct (IHz fuel (msg ++ [0]) m1) as (m2 & -> & I2); try lia; try assumption.
    + unfold zlen in *. rewrite app_length. cbn [List.length].
      replace (56 - Z.of_nat (List.length msg + 1)) with ((56 - Z.of_nat (List.length msg)) + - (1)) by lia.
      rewrite Z.add_mod, <- E by lia.
      change (- (1) mod 64) with 63. replace (Z.of_nat (S z) + 63) with (Z.of_nat z + 1 * 64) by lia.
      rewrite Z_mod_plus_full. symmetry. apply Z.mod_small. lia.
    + exists m2. split; [reflexivity|]. rewrite <- app_assoc in I2. exact I2.
Qed.

Lemma le64_eq : forall x, le64 x = S.le_bytes 8 x.
Proof.
  intros x. unfold le64. cbn [map S.le_bytes].
  assert (B : forall y n, 0 <= n -> Z.land (Z.shiftr y n) 255 = (y / 2 ^ n) mod 256).
  { intros. change 255 with (2 ^ 8 - 1). rewrite land_ones_mod, shiftr_div by lia. reflexivity. }
  rewrite !B by lia. cbn [Z.mul Pos.mul]. rewrite !Z.div_div by lia.
  change (2 ^ 0) with 1. rewrite Z.div_1_r. reflexivity.
Qed.

Lemma le_bytes_length : forall n x, List.length (S.le_bytes n x) = n.
Proof. induction n; intros; cbn; auto. Qed.

Lemma finish_ok : forall msg m, Inv msg m ->
  exists m', md5_finish m = Ok m' /\ regs m' = S.md5_words msg.
Proof.
  intros msg m HI. unfold md5_finish.
  assert (EL : m_len m = u64 (zlen msg)) by (destruct HI as (q & r & L & R & EL & _); exact EL).
  destruct (update_ok msg m [128; 0] 1 ltac:(unfold zlen; cbn [List.length]; lia) HI) as (m1 & -> & I1). cbn [obind].
  change (firstn (Z.to_nat 1) [128; 0]) with [128] in I1.
  pose proof (Z.mod_pos_bound (55 - zlen msg) 64 ltac:(lia)) as MB.
  destruct (pad_ok (Z.to_nat ((55 - zlen msg) mod 64)) 64 (msg ++ [128]) m1) as (m2 & -> & I2).
  - lia.
  - lia.
  - rewrite Z2Nat.id by lia. f_equal. unfold zlen. rewrite app_length. cbn [List.length]. lia.
  - exact I1.
  - cbn [obind]. rewrite EL.
    assert (E8 : u64 (Z.shiftl (u64 (zlen msg)) 3) = (8 * zlen msg) mod 2 ^ 64).
    { rewrite shiftl_mul by lia. unfold u64. rewrite Zmult_mod_idemp_l. f_equal. lia. }
    rewrite E8, le64_eq.
    set (lb := S.le_bytes 8 ((8 * zlen msg) mod 2 ^ 64)) in *.
    assert (LB : List.length lb = 8%nat) by apply le_bytes_length.
    destruct (update_ok _ m2 lb 8 ltac:(unfold zlen; rewrite LB; lia) I2) as (m3 & -> & I3).
    exists m3. split; [reflexivity|].
    change (Z.to_nat 8) with 8%nat in I3. rewrite firstn_all2 in I3 by lia.
    rewrite <- !app_assoc in I3. cbn [app] in I3.
    change (msg ++ 128 :: repeat 0 (Z.to_nat ((55 - zlen msg) mod 64)) ++ lb) with (S.pad msg) in I3.
    unfold S.md5_words.
    assert (PL : (List.length (S.pad msg) mod 64 = 0)%nat).
    { unfold S.pad. rewrite !app_length. cbn [List.length]. rewrite app_length, repeat_length, le_bytes_length.
      fold (@zlen Z msg).
      apply Nat2Z.inj. rewrite Nat2Z.inj_mod.
      pose proof (Z.div_mod (55 - zlen msg) 64 ltac:(lia)) as DM.
      replace (Z.of_nat (List.length msg + S (Z.to_nat ((55 - zlen msg) mod 64) + 8)))
        with (0 + (1 - (55 - zlen msg) / 64) * 64) by (unfold zlen in *; lia).
      change (Z.of_nat 64) with 64. now rewrite Z_mod_plus_full. }
    destruct I3 as (q & r & L & R & _ & _ & _ & P).
    rewrite L in PL. rewrite Nat.add_comm, Nat.mul_comm, Nat.mod_add, Nat.mod_small in PL by lia.
    subst r. rewrite P. f_equal. rewrite L.
    rewrite Nat.add_0_r, Nat.mul_comm, Nat.div_mul by lia. reflexivity.
Qed.

Lemma open_inv : forall junk, List.length junk = 64%nat -> Inv [] (md5_open junk).
Proof. intros junk L. exists 0%nat, 0%nat. repeat (apply conj); try reflexivity; auto; lia. Qed.

(** ** printing *)
Definition in32 (x : Z) : Prop := 0 <= x < 2 ^ 32.
Definition ok4 (s : Z * Z * Z * Z) : Prop :=
  let '(a, b, c, d) := s in in32 a /\ in32 b /\ in32 c /\ in32 d.

Lemma process_range : forall n l s, ok4 s -> ok4 (S.process n l s).
Proof.
  induction n; intros l s H; [exact H|]. cbn [S.process]. apply IHn.
  unfold S.compress. destruct s as [[[a b] c] d].
  destruct (S.ops (S.words (firstn 64 l)) 64 0 (a, b, c, d)) as [[[a' b'] c'] d'].
  unfold ok4, in32, S.add, S.W. repeat split; apply Z.mod_pos_bound; lia.
Qed.

Lemma words_range : forall msg, ok4 (S.md5_words msg).
Proof. intros. unfold S.md5_words. apply process_range. unfold ok4, in32, S.init. lia. Qed.

Lemma hex2_table : forallb (fun b => if list_eq_dec ascii_dec (hex2 b) (S.hex [b]) then true else false)
  (map Z.of_nat (seq 0 256)) = true.
Proof. vm_compute. reflexivity. Qed.
Lemma hex2_eq : forall b, 0 <= b < 256 -> hex2 b = S.hex [b].
Proof.
  intros b H. pose proof hex2_table as K. rewrite forallb_forall in K.
  specialize (K b). destruct (list_eq_dec ascii_dec (hex2 b) (S.hex [b])); [assumption|].
  discriminate K. apply in_map_iff. exists (Z.to_nat b). split; [lia|]. apply in_seq. lia.
Qed.

Lemma hex_app : forall a b, S.hex (a ++ b) = S.hex a ++ S.hex b.
Proof. intros. unfold S.hex. apply flat_map_app. Qed.

Lemma print_word_eq : forall x, in32 x -> print_word x = S.hex (S.le_bytes 4 x).
Proof.
  intros x H. unfold print_word, in32 in *.
  assert (B : forall y, Z.land y 255 = y mod 256).
  { intros. change 255 with (2 ^ 8 - 1). rewrite land_ones_mod by lia. reflexivity. }
  rewrite !B. rewrite !shiftr_div by lia.
  assert (M : forall y, 0 <= y mod 256 < 256) by (intros; apply Z.mod_pos_bound; lia).
  assert (T : 0 <= x / 2 ^ 24 < 256).
  { split; [apply Z.div_pos; lia|]. apply Z.div_lt_upper_bound; lia. }
  rewrite !hex2_eq by auto.
  cbn [S.le_bytes]. rewrite !Z.div_div by lia.
  change (256 * 256 * 256) with (2 ^ 24). change (256 * 256) with (2 ^ 16).
  rewrite (Z.mod_small (x / 2 ^ 24)) by lia.
  change (x / 256) with (x / 2 ^ 8). rewrite <- !hex_app. reflexivity.
Qed.

Lemma close_ok : forall msg m, Inv msg m ->
  md5_close m = Ok (S.hex (S.md5 msg) ++ ["010"%char]).
Proof.
  intros msg m HI. unfold md5_close.
  destruct (finish_ok msg m HI) as (m' & -> & R). cbn [obind].
  pose proof (words_range msg) as K. rewrite <- R in K. unfold S.md5. rewrite <- R.
  unfold regs in *. destruct K as (A & B & C & D).
  rewrite !print_word_eq by assumption. rewrite !hex_app. now rewrite <- !app_assoc.
Qed.

(** ** chunks, rows, pictures *)
Fixpoint chunks (m : md5) (l : list (list Z)) : outcome md5 :=
  match l with
  | [] => Ok m
  | c :: l => let! m := md5_update m c (zlen c) in chunks m l
  end.

Lemma chunks_ok : forall l msg m, Inv msg m ->
  exists m', chunks m l = Ok m' /\ Inv (msg ++ List.concat l) m'.
Proof.
  induction l; intros msg m HI; cbn [chunks List.concat].
  - exists m. rewrite app_nil_r. auto.
  - destruct (update_ok msg m a (zlen a) ltac:(unfold zlen; lia) HI) as (m1 & -> & I1). cbn [obind].
    unfold zlen in I1. rewrite Nat2Z.id, firstn_all in I1.
    destruct (IHl _ _ I1) as (m2 & -> & I2). exists m2. rewrite app_assoc. auto.
Qed.

(** the sample at an address: its bytes, low-order first, are inside the buffer *)
Definition stored (mem : list Z) (addr : Z) (bps : nat) (v : Z) : Prop :=
  0 <= addr /\ firstn bps (skipn (Z.to_nat addr) mem) = S.le_bytes bps v.

Lemma upto_succ : forall n, S.upto (Z.of_nat (S n)) = S.upto (Z.of_nat n) ++ [Z.of_nat n].
Proof.
  intros. unfold S.upto. rewrite !Nat2Z.id, seq_S, map_app. reflexivity.
Qed.

Lemma row_bytes : forall mem ptr bps (s : Z -> Z) w,
  (0 < bps)%nat ->
  (forall x, 0 <= x < Z.of_nat w -> stored mem (ptr + Z.of_nat bps * x) bps (s x)) ->
  (w = 0%nat \/ (0 <= ptr /\ ptr + Z.of_nat (bps * w) <= zlen mem))
  /\ firstn (bps * w) (skipn (Z.to_nat ptr) mem) = flat_map (fun x => S.le_bytes bps (s x)) (S.upto (Z.of_nat w)).
Proof.
  intros mem ptr bps s w Hb. induction w; intros H.
  - split; [auto|]. rewrite Nat.mul_0_r. reflexivity.
  - destruct IHw as [A B]; [intros; apply H; lia|].
    assert (P : 0 <= ptr).
    { destruct (H 0 ltac:(lia)) as [P _]. lia. }
    destruct (H (Z.of_nat w) ltac:(lia)) as [C D].
    split.
    + right. split; [exact P|].
      pose proof (f_equal (@List.length Z) D) as DL. rewrite le_bytes_length, firstn_length, skipn_length in DL.
      unfold zlen. lia.
    + rewrite upto_succ, flat_map_app, <- B. cbn [flat_map]. rewrite app_nil_r, <- D.
      replace (bps * S w)%nat with (bps * w + bps)%nat by lia.
      rewrite firstn_plus. f_equal. rewrite skipn_skipn'. do 2 f_equal. lia.
Qed.

Lemma rows_ok : forall bps (s : Z -> Z -> Z) w mem stride n y0 ptr msg m,
  (0 < bps)%nat -> 0 <= w ->
  (forall x y, 0 <= x < w -> y0 <= y < y0 + Z.of_nat n ->
     stored mem (ptr + (y - y0) * stride + Z.of_nat bps * x) bps (s x y)) ->
  Inv msg m ->
  exists m', rows n m mem ptr stride (Z.of_nat bps * w) = Ok m'
    /\ Inv (msg ++ flat_map (fun y => flat_map (fun x => S.le_bytes bps (s x y)) (S.upto w))
                     (map (fun i => y0 + Z.of_nat i) (seq 0 n))) m'.
Proof.
  intros bps s w mem stride. induction n; intros y0 ptr msg m Hb Hw H HI.
  - exists m. cbn [rows seq map flat_map]. rewrite app_nil_r. auto.
  - cbn [rows].
    destruct (row_bytes mem ptr bps (fun x => s x y0) (Z.to_nat w) Hb) as [A B].
    { intros x Hx. specialize (H x y0 ltac:(lia) ltac:(lia)).
      replace (ptr + (y0 - y0) * stride + Z.of_nat bps * x) with (ptr + Z.of_nat bps * x) in H by lia.
      exact H. }
    rewrite Z2Nat.id in B by lia.
    replace (Z.of_nat bps * w =? 0) with (w =? 0) by nia.
    assert (G : (w =? 0) || ((0 <=? ptr) && (ptr + Z.of_nat bps * w <=? zlen mem)) = true).
    { destruct A as [A|[A1 A2]]; [|]; nia. }
    rewrite G.
    destruct (update_ok msg m (skipn (Z.to_nat ptr) mem) (Z.of_nat bps * w)) as (m1 & -> & I1).
    { unfold zlen. rewrite skipn_length. split; [nia|].
      destruct A as [A|[A1 A2]]; [nia|]. unfold zlen in A2. nia. }
    { exact HI. }
    cbn [obind].
    replace (Z.to_nat (Z.of_nat bps * w)) with (bps * Z.to_nat w)%nat in I1 by nia.
    rewrite B in I1.
    assert (H' : forall x y, 0 <= x < w -> y0 + 1 <= y < y0 + 1 + Z.of_nat n ->
      stored mem (ptr + stride + (y - (y0 + 1)) * stride + Z.of_nat bps * x) bps (s x y)).
    { intros x y Hx Hy. specialize (H x y Hx ltac:(lia)).
      replace (ptr + stride + (y - (y0 + 1)) * stride + Z.of_nat bps * x)
        with (ptr + (y - y0) * stride + Z.of_nat bps * x) by lia. exact H. }
    destruct (IHn (y0 + 1) (ptr + stride) _ m1 Hb Hw H' I1) as (m2 & -> & I2).
    exists m2. split; [reflexivity|].
    cbn [seq map flat_map]. rewrite <- app_assoc in I2.
    replace (y0 + Z.of_nat 0) with y0 by lia.
    rewrite <- seq_shift, map_map.
    erewrite map_ext; [exact I2|]. intros; cbn beta. lia.
Qed.

Definition chroma_of (l : layout) : S.chroma :=
  match l with I400 => S.Mono | I420 => S.C420 | I422 => S.C422 | I444 => S.C444 end.

(** the picture's memory holds the samples [s] *)
Definition holds (p : pic) (s : Z -> Z -> Z -> Z) : Prop :=
  0 <= p_w p /\ 0 <= p_h p /\ (p_bpc p = 8 \/ p_bpc p = 10 \/ p_bpc p = 12) /\
  forall pl pw ph, In (pl, pw, ph) (S.planes (chroma_of (p_layout p)) (p_w p) (p_h p)) ->
  forall x y, 0 <= x < pw -> 0 <= y < ph ->
  let bps := if p_bpc p =? 8 then 1%nat else 2%nat in
  stored (p_mem p pl)
    (p_off p pl + y * (if pl =? 0 then p_stride0 p else p_stride1 p) + Z.of_nat bps * x) bps (s pl x y).

Definition bytes_of_pic (p : pic) (s : Z -> Z -> Z -> Z) : list Z :=
  S.frame_bytes (p_bpc p) (chroma_of (p_layout p)) (p_w p) (p_h p) s.

Lemma plane_ok : forall p s pl pw ph msg m, holds p s ->
  In (pl, pw, ph) (S.planes (chroma_of (p_layout p)) (p_w p) (p_h p)) -> 0 <= pw -> 0 <= ph ->
  Inv msg m ->
  exists m', rows (Z.to_nat ph) m (p_mem p pl) (p_off p pl) (if pl =? 0 then p_stride0 p else p_stride1 p)
      (Z.shiftl pw (b2z (8 <? p_bpc p))) = Ok m'
   /\ Inv (msg ++ S.plane_bytes (if p_bpc p =? 8 then 1%nat else 2%nat) (s pl) pw ph) m'.
Proof.
  intros p s pl pw ph msg m (Hw & Hh & Hb & H) Hin Hpw Hph HI.
  specialize (H pl pw ph Hin). cbv zeta in H.
  set (bps := if p_bpc p =? 8 then 1%nat else 2%nat) in *.
  assert (B : Z.shiftl pw (b2z (8 <? p_bpc p)) = Z.of_nat bps * pw).
  { rewrite shiftl_mul by (destruct (8 <? p_bpc p); cbn; lia).
    unfold bps. destruct Hb as [E|[E|E]]; rewrite E; cbn; lia. }
  rewrite B.
  destruct (rows_ok bps (s pl) pw (p_mem p pl) (if pl =? 0 then p_stride0 p else p_stride1 p)
              (Z.to_nat ph) 0 (p_off p pl) msg m) as (m' & E & I').
  - unfold bps. destruct (p_bpc p =? 8); lia.
  - exact Hpw.
  - intros x y Hx Hy. rewrite Z.sub_0_r. apply H; lia.
  - exact HI.
  - exists m'. split; [exact E|]. unfold S.plane_bytes, S.upto in *. exact I'.
Qed.

Lemma half_eq : forall x, Z.shiftr (x + 1) 1 = S.half x.
Proof. intros. rewrite shiftr_div by lia. reflexivity. Qed.

Lemma write_ok : forall p s msg m, holds p s -> Inv msg m ->
  exists m', md5_write m p = Ok m' /\ Inv (msg ++ bytes_of_pic p s) m'.
Proof.
  intros p s msg m HH HI. unfold md5_write.
  pose proof HH as (Hw & Hh & _ & _).
  assert (H2 : forall x, 0 <= x -> 0 <= S.half x) by (intros; unfold S.half; apply Z.div_pos; lia).
  destruct (plane_ok p s 0 (p_w p) (p_h p) msg m HH) as (m1 & E1 & I1); auto; [now left|].
  cbn [Z.eqb] in E1. rewrite E1. cbn [obind].
  unfold bytes_of_pic, S.frame_bytes.
  destruct (p_layout p) eqn:LE; cbn [chroma_of S.planes flat_map].
  - exists m1. rewrite app_nil_r. auto.
  - rewrite !half_eq.
    destruct (plane_ok p s 1 (S.half (p_w p)) (S.half (p_h p)) _ m1 HH ltac:(rewrite LE; cbn; auto) ltac:(auto) ltac:(auto) I1) as (m2 & E2 & I2).
    cbn [Z.eqb] in E2. rewrite E2. cbn [obind].
    destruct (plane_ok p s 2 (S.half (p_w p)) (S.half (p_h p)) _ m2 HH ltac:(rewrite LE; cbn; auto) ltac:(auto) ltac:(auto) I2) as (m3 & E3 & I3).
    cbn [Z.eqb] in E3. rewrite E3. exists m3. rewrite app_nil_r, !app_assoc. auto.
  - rewrite !half_eq, Z.add_0_r, Z.shiftr_0_r.
    destruct (plane_ok p s 1 (S.half (p_w p)) (p_h p) _ m1 HH ltac:(rewrite LE; cbn; auto) ltac:(auto) ltac:(auto) I1) as (m2 & E2 & I2).
    cbn [Z.eqb] in E2. rewrite E2. cbn [obind].
    destruct (plane_ok p s 2 (S.half (p_w p)) (p_h p) _ m2 HH ltac:(rewrite LE; cbn; auto) ltac:(auto) ltac:(auto) I2) as (m3 & E3 & I3).
    cbn [Z.eqb] in E3. rewrite E3. exists m3. rewrite app_nil_r, !app_assoc. auto.
  - rewrite !Z.add_0_r, !Z.shiftr_0_r.
    destruct (plane_ok p s 1 (p_w p) (p_h p) _ m1 HH ltac:(rewrite LE; cbn; auto) ltac:(auto) ltac:(auto) I1) as (m2 & E2 & I2).
    cbn [Z.eqb] in E2. rewrite E2. cbn [obind].
    destruct (plane_ok p s 2 (p_w p) (p_h p) _ m2 HH ltac:(rewrite LE; cbn; auto) ltac:(auto) ltac:(auto) I2) as (m3 & E3 & I3).
    cbn [Z.eqb] in E3. rewrite E3. exists m3. rewrite app_nil_r, !app_assoc. auto.
Qed.

Fixpoint write_all (m : md5) (l : list pic) : outcome md5 :=
  match l with
  | [] => Ok m
  | p :: l => let! m := md5_write m p in write_all m l
  end.

Lemma write_all_ok : forall l msg m, Forall (fun ps => holds (fst ps) (snd ps)) l -> Inv msg m ->
  exists m', write_all m (map fst l) = Ok m'
    /\ Inv (msg ++ flat_map (fun ps => bytes_of_pic (fst ps) (snd ps)) l) m'.
Proof.
  induction l; intros msg m HF HI; cbn [write_all map flat_map].
  - exists m. rewrite app_nil_r. auto.
  - inversion HF; subst.
    destruct (write_ok (fst a) (snd a) msg m) as (m1 & -> & I1); auto. cbn [obind].
    destruct (IHl _ m1 H2 I1) as (m2 & -> & I2). exists m2. rewrite app_assoc. auto.
Qed.

(** ** verification *)
Definition good_digit (v : Z) (c : ascii) : bool :=
  match hex_value c with Some v' => v' =? v | None => false end
  && negb (is_space c) && negb (Ascii.eqb c "-") && negb (Ascii.eqb c "+").
Lemma digit_table : forallb (fun v =>
   match nth_error (list_ascii_of_string "0123456789abcdef") (Z.to_nat v) with
   | Some c => good_digit v c | None => false end &&
   match nth_error (list_ascii_of_string "0123456789ABCDEF") (Z.to_nat v) with
   | Some c => good_digit v c | None => false end) (map Z.of_nat (seq 0 16)) = true.
Proof. vm_compute. reflexivity. Qed.

Lemma digit_good : forall v c, 0 <= v < 16 -> S.digit_of v c ->
  hex_value c = Some v /\ is_space c = false /\ Ascii.eqb c "-" = false /\ Ascii.eqb c "+" = false.
Proof.
  intros v c Hv Hd. pose proof digit_table as K. rewrite forallb_forall in K.
  assert (In v (map Z.of_nat (seq 0 16))) as Hin.
  { apply in_map_iff. exists (Z.to_nat v). split; [lia|]. apply in_seq. lia. }
  specialize (K v Hin). cbv beta in K. apply andb_prop in K. destruct K as [K1 K2].
  assert (G : good_digit v c = true).
  { destruct Hd as [E|E]; rewrite E in *; assumption. }
  unfold good_digit in G.
  destruct (hex_value c) as [v'|]; [|discriminate G].
  destruct (Z.eqb_spec v' v); [subst|discriminate G].
  destruct (is_space c), (Ascii.eqb c "-"), (Ascii.eqb c "+"); try discriminate G. auto.
Qed.

Lemma strtoul_byte : forall b c1 c2, 0 <= b < 256 -> S.digit_of (b / 16) c1 -> S.digit_of (b mod 16) c2 ->
  strtoul2 c1 c2 = b.
Proof.
  intros b c1 c2 H D1 D2.
  pose proof (Z.div_mod b 16 ltac:(lia)) as DM. pose proof (Z.mod_pos_bound b 16 ltac:(lia)) as MB.
  destruct (digit_good (b / 16) c1 ltac:(lia) D1) as (A1 & A2 & A3 & A4).
  destruct (digit_good (b mod 16) c2 MB D2) as (B1 & _).
  unfold strtoul2, digits2. rewrite A1, A2, A3, A4, B1.
  lia.
Qed.

Lemma word_ok : forall b0 b1 b2 b3 rest s tl, S.renders (b0 :: b1 :: b2 :: b3 :: rest) s ->
  exists s', verify_word [0; 8; 16; 24] (s ++ tl) 0 = (S.le_value [b0; b1; b2; b3], s' ++ tl) /\ S.renders rest s'
    /\ 0 <= b0 < 256 /\ 0 <= b1 < 256 /\ 0 <= b2 < 256 /\ 0 <= b3 < 256.
Proof.
  intros b0 b1 b2 b3 rest s tl R.
  inversion R as [|? ? c1 c2 t1 R1 D1 E1 R']; subst.
  inversion R' as [|? ? c3 c4 t2 R2 D2 E2 R'']; subst.
  inversion R'' as [|? ? c5 c6 t3 R3 D3 E3 R''']; subst.
  inversion R''' as [|? ? c7 c8 t4 R4 D4 E4 R4']; subst.
  cbn [verify_word app].
  rewrite (strtoul_byte b0), (strtoul_byte b1), (strtoul_byte b2), (strtoul_byte b3) by assumption.
  exists t4. split; [|auto 10]. f_equal. cbn [S.le_value].
  rewrite (u32_id b0), (u32_id b1), (u32_id b2), (u32_id b3) by lia.
  rewrite !shiftl_mul by lia. rewrite !u32_id by lia.
  rewrite Z.lor_0_l.
  rewrite (Z.lor_comm (b0 * 2 ^ 0) (b1 * 2 ^ 8)), lor_shift_add by lia.
  rewrite (Z.lor_comm _ (b2 * 2 ^ 16)), lor_shift_add by lia.
  rewrite (Z.lor_comm _ (b3 * 2 ^ 24)), lor_shift_add by lia. lia.
Qed.

Lemma le_value_bytes : forall n x, 0 <= x < 2 ^ (8 * Z.of_nat n) -> S.le_value (S.le_bytes n x) = x.
Proof.
  induction n; intros x H.
  - cbn in *. lia.
  - cbn [S.le_bytes S.le_value]. rewrite IHn.
    + pose proof (Z.div_mod x 256 ltac:(lia)). lia.
    + split; [apply Z.div_pos; lia|]. apply Z.div_lt_upper_bound; [lia|].
      replace (256 * 2 ^ (8 * Z.of_nat n)) with (2 ^ (8 * Z.of_nat (S n))); [lia|].
      replace (8 * Z.of_nat (S n)) with (8 + 8 * Z.of_nat n) by lia.
      rewrite Z.pow_add_r by lia. reflexivity.
Qed.

Lemma le_bytes_value : forall l, Forall (fun b => 0 <= b < 256) l -> S.le_bytes (List.length l) (S.le_value l) = l.
Proof.
  induction l; intros F; [reflexivity|]. inversion F; subst.
  cbn [List.length S.le_bytes S.le_value].
  replace (a + 256 * S.le_value l) with (a + S.le_value l * 256) by lia.
  rewrite Z_mod_plus_full, Z.mod_small by lia.
  rewrite Z.div_add, Z.div_small, Z.add_0_l by lia. now rewrite IHl.
Qed.


Lemma renders_length : forall l s, S.renders l s -> List.length s = (2 * List.length l)%nat.
Proof. induction 1; cbn [List.length]; lia. Qed.

Lemma word_bytes : forall b0 b1 b2 b3 x, 0 <= b0 < 256 -> 0 <= b1 < 256 -> 0 <= b2 < 256 -> 0 <= b3 < 256 ->
  in32 x -> (S.le_value [b0; b1; b2; b3] =? x = true <-> [b0; b1; b2; b3] = S.le_bytes 4 x).
Proof.
  intros b0 b1 b2 b3 x H0 H1 H2 H3 Hx. rewrite Z.eqb_eq. split; intros E.
  - subst x. symmetry. apply (le_bytes_value [b0; b1; b2; b3]). auto.
  - rewrite E. apply le_value_bytes. exact Hx.
Qed.

Lemma verify_ok : forall msg m digest text tl, Inv msg m ->
  S.renders digest text -> List.length digest = 16%nat ->
  exists r, md5_verify m (text ++ tl) = Ok r /\ (r = 0 \/ r = 1) /\ (r = 0 <-> digest = S.md5 msg).
Proof.
  intros msg m digest text tl HI R L. unfold md5_verify.
  destruct (finish_ok msg m HI) as (m' & -> & RG). cbn [obind].
  pose proof (renders_length _ _ R) as TL.
  replace (zlen (text ++ tl) <? 32) with false
    by (symmetry; apply Z.ltb_ge; unfold zlen; rewrite app_length; lia).
  pose proof (words_range msg) as K. rewrite <- RG in K. unfold S.md5. rewrite <- RG.
  unfold regs in *. destruct K as (KA & KB & KC & KD).
  do 17 (destruct digest as [|? digest]; [try discriminate L|]); [|discriminate L]. clear L TL.
  destruct (word_ok _ _ _ _ _ _ tl R) as (s1 & -> & R1 & A0 & A1 & A2 & A3).
  destruct (word_ok _ _ _ _ _ _ tl R1) as (s2 & -> & R2 & B0 & B1 & B2 & B3).
  destruct (word_ok _ _ _ _ _ _ tl R2) as (s3 & -> & R3 & C0 & C1 & C2 & C3).
  destruct (word_ok _ _ _ _ _ _ tl R3) as (s4 & -> & R4 & D0 & D1 & D2 & D3).
  pose proof (word_bytes _ _ _ _ _ A0 A1 A2 A3 KA) as WA.
  pose proof (word_bytes _ _ _ _ _ B0 B1 B2 B3 KB) as WB.
  pose proof (word_bytes _ _ _ _ _ C0 C1 C2 C3 KC) as WC.
  pose proof (word_bytes _ _ _ _ _ D0 D1 D2 D3 KD) as WD.
  match goal with |- exists r, Ok (b2z (negb ?b)) = _ /\ _ => set (cond := b) end.
  exists (b2z (negb cond)). split; [reflexivity|]. split; [destruct cond; auto|].
  assert (X : b2z (negb cond) = 0 <-> cond = true) by (destruct cond; cbn; split; intros; congruence).
  rewrite X. unfold cond. rewrite !andb_true_iff, WA, WB, WC, WD.
  cbn [S.le_bytes app]. clear. split.
  - intros [[[E1 E2] E3] E4]. injection E1 as -> -> -> ->. injection E2 as -> -> -> ->.
    injection E3 as -> -> -> ->. injection E4 as -> -> -> ->. reflexivity.
  - intros E. injection E as -> -> -> -> -> -> -> -> -> -> -> -> -> -> -> ->. auto.
Qed.

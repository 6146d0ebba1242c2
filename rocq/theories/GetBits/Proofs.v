(** Refinement of the C bit reader to the abstract bit stream. *)
From Coq Require Import ZArith List Bool Lia.
From Verif Require Import Base.CInt Base.Lemmas GetBits.Model GetBits.Spec GetBits.Abstract.
Import ListNotations.
Open Scope Z_scope.

Section BitsVal0.
  Variable f : Z -> Z.
  Lemma bitsval_app : forall m n pos,
    bitsval f pos (n + m) = bitsval f pos n * 2 ^ Z.of_nat m + bitsval f (pos + Z.of_nat n) m.
  Proof.
    induction m; intros.
    - rewrite Nat.add_0_r. simpl. lia.
    - rewrite Nat.add_succ_r. simpl bitsval. rewrite IHm.
      replace (Z.of_nat (S m)) with (Z.succ (Z.of_nat m)) by lia.
      rewrite Z.pow_succ_r by lia.
      replace (pos + Z.of_nat (n + m)) with (pos + Z.of_nat n + Z.of_nat m) by lia. ring.
  Qed.
  Lemma f_n_app : forall pos n m, 0 <= n -> 0 <= m ->
    f_n f pos (n + m) = f_n f pos n * 2 ^ m + f_n f (pos + n) m.
  Proof.
    intros. unfold f_n. rewrite Z2Nat.inj_add by lia. rewrite bitsval_app.
    rewrite !Z2Nat.id by lia. auto.
  Qed.
  Lemma f_n_0 : forall pos, f_n f pos 0 = 0.
  Proof. reflexivity. Qed.
  Lemma f_n_neg : forall pos n, n <= 0 -> f_n f pos n = 0.
  Proof. intros. unfold f_n. replace (Z.to_nat n) with O by lia. auto. Qed.
  Lemma f_n_1 : forall pos, f_n f pos 1 = f pos.
  Proof. intros. unfold f_n. change (Z.to_nat 1) with 1%nat. simpl bitsval.
    replace (pos + Z.of_nat 0) with pos by lia. destruct (f pos); lia. Qed.
  Lemma f_n_zero : forall pos n, (forall i, pos <= i < pos + n -> f i = 0) -> f_n f pos n = 0.
  Proof.
    intros pos n. unfold f_n. intros H.
    assert (H' : forall i, pos <= i < pos + Z.of_nat (Z.to_nat n) -> f i = 0).
    { intros. apply H. lia. }
    clear H. induction (Z.to_nat n); simpl; auto.
    rewrite IHn0 by (intros; apply H'; lia). rewrite H' by lia. lia.
  Qed.
End BitsVal0.

Section BitsVal.
  Variable f : Z -> Z.
  Hypothesis Hf : forall i, 0 <= f i <= 1.
  Lemma bitsval_range : forall n pos, 0 <= bitsval f pos n < 2 ^ Z.of_nat n.
  Proof.
    induction n; intros; simpl bitsval.
    - simpl. lia.
    - specialize (IHn pos). pose proof (Hf (pos + Z.of_nat n)).
      replace (Z.of_nat (S n)) with (Z.succ (Z.of_nat n)) by lia.
      rewrite Z.pow_succ_r by lia. lia.
  Qed.
  Lemma f_n_range : forall pos n, 0 <= n -> 0 <= f_n f pos n < 2 ^ n.
  Proof.
    intros. unfold f_n. pose proof (bitsval_range (Z.to_nat n) pos).
    rewrite Z2Nat.id in H0 by lia. auto.
  Qed.
  (** The top [n] of [l] bits. *)
  Lemma f_n_top : forall pos l n, 0 <= n <= l ->
    f_n f pos l / 2 ^ (l - n) = f_n f pos n.
  Proof.
    intros. replace l with (n + (l - n)) at 1 by lia. rewrite f_n_app by lia.
    pose proof (f_n_range (pos + n) (l - n) ltac:(lia)).
    rewrite Z.div_add_l by lia. rewrite Z.div_small by lia. lia.
  Qed.
  Lemma f_n_low : forall pos l n, 0 <= n <= l ->
    f_n f pos l mod 2 ^ (l - n) = f_n f (pos + n) (l - n).
  Proof.
    intros. replace l with (n + (l - n)) at 1 by lia. rewrite f_n_app by lia.
    pose proof (f_n_range (pos + n) (l - n) ltac:(lia)).
    rewrite Z.add_comm, Z.mod_add by lia. apply Z.mod_small. lia.
  Qed.
End BitsVal.

Lemma stream_bit_range : forall buf sz i, 0 <= stream_bit buf sz i <= 1.
Proof.
  intros. unfold stream_bit. destruct (_ && _); try lia.
Qed.

Lemma stream_bit_end : forall buf sz i, 8 * sz <= i -> stream_bit buf sz i = 0.
Proof. intros. unfold stream_bit. destruct (Z.ltb_spec i (8 * sz)); try lia. rewrite andb_false_r. auto. Qed.

Lemma bitsval_of_Z : forall (f : Z -> Z) pos n b, 0 <= b ->
  (forall k, 0 <= k < Z.of_nat n -> f (pos + k) = b / 2 ^ (Z.of_nat n - 1 - k) mod 2) ->
  bitsval f pos n = b mod 2 ^ Z.of_nat n.
Proof.
  induction n; intros b Hb H.
  - simpl. rewrite Z.mod_1_r. auto.
  - simpl bitsval. rewrite (IHn (b / 2)).
    + rewrite H by lia. replace (Z.of_nat (S n) - 1 - Z.of_nat n) with 0 by lia.
      rewrite Z.pow_0_r, Z.div_1_r.
      replace (Z.of_nat (S n)) with (Z.succ (Z.of_nat n)) by lia.
      rewrite Z.pow_succ_r by lia. rewrite Z.rem_mul_r by (pose proof (pow2_pos (Z.of_nat n)); lia).
      lia.
    + apply Z.div_pos; lia.
    + intros. rewrite H by lia. rewrite Zdiv_Zdiv by (pose proof (pow2_pos (Z.of_nat n - 1 - k)); lia).
      rewrite <- Z.pow_succ_r by lia. do 3 f_equal. lia.
Qed.

Lemma f_n_byte : forall buf sz i, Forall is_byte buf -> 0 <= i < sz -> sz <= zlen buf ->
  f_n (stream_bit buf sz) (8 * i) 8 = nth (Z.to_nat i) buf 0.
Proof.
  intros buf sz i Hb Hi Hs.
  pose proof (Forall_nth_Z _ _ buf i 0 Hb ltac:(lia)) as B. unfold is_byte in B.
  unfold f_n. erewrite bitsval_of_Z with (b := nth (Z.to_nat i) buf 0).
  - apply Z.mod_small. auto.
  - lia.
  - change (Z.of_nat (Z.to_nat 8)) with 8. intros. unfold stream_bit.
    replace ((0 <=? 8 * i + k) && (8 * i + k <? 8 * sz)) with true by lia.
    replace ((8 * i + k) / 8) with i by lia.
    replace ((8 * i + k) mod 8) with k by lia. auto.
Qed.

(** * get_bit / get_bits *)

Lemma fits_int_true : forall x, INT_MIN <= x <= INT_MAX -> fits_int x = true.
Proof. intros. unfold fits_int. lia. Qed.

Definition same_buf (c c' : gb) : Prop := gb_buf c' = gb_buf c /\ gb_end c' = gb_end c.

Lemma same_buf_stream : forall c c', same_buf c c' -> stream_of c' = stream_of c.
Proof. unfold same_buf, stream_of. intros c c' [H1 H2]. rewrite H1, H2. auto. Qed.

(** What a read of [n] bits has to achieve on the C side. *)
Definition read_ok (c : gb) (n : Z) (c' : gb) : Prop :=
  gb_wf c' /\ same_buf c c' /\
  apos_of c' = {| a_pos := a_pos (apos_of c) + n;
                  a_err := a_err (apos_of c) || (st_len (stream_of c) <? a_pos (apos_of c) + n) |}.

Lemma wf_state_range : forall c, gb_wf c -> 0 <= gb_state c < 2 ^ 64.
Proof.
  intros c (_ & _ & _ & [(L & L8 & S)|(L & P & S & E)]).
  - rewrite S. pose proof (f_n_range _ (stream_bit_range (gb_buf c) (gb_end c))
      (8 * gb_ptr c - gb_left c) (gb_left c) ltac:(lia)).
    change (st_bit (stream_of c)) with (stream_bit (gb_buf c) (gb_end c)) in *.
    pose proof (pow2_split 64 (64 - gb_left c) ltac:(lia)) as E.
    replace (64 - (64 - gb_left c)) with (gb_left c) in E by lia.
    pose proof (pow2_pos (64 - gb_left c) ltac:(lia)). rewrite E. nia.
  - rewrite S. lia.
Qed.

Lemma cut_state : forall f pos l n, (forall i, 0 <= f i <= 1) -> 0 <= l <= 64 -> 0 < n <= 64 ->
  (n <= l \/ (forall i, pos + l <= i -> f i = 0)) ->
  let state := f_n f pos l * 2 ^ (64 - l) in
  Z.shiftr state (64 - n) = f_n f pos n /\
  u64 (Z.shiftl state n) =
    (if n <=? l then f_n f (pos + n) (l - n) * 2 ^ (64 - (l - n)) else 0).
Proof.
  intros f pos l n Hf Hl Hn Hz state.
  rewrite shiftr_div, shiftl_mul by lia. unfold u64, state.
  destruct (Z.leb_spec n l).
  - split.
    + replace (64 - n) with ((l - n) + (64 - l)) by lia.
      rewrite Z.pow_add_r by lia. rewrite Z.div_mul_cancel_r
        by (pose proof (pow2_pos (l - n)); pose proof (pow2_pos (64 - l)); lia).
      apply f_n_top; auto; lia.
    + replace (f_n f pos l * 2 ^ (64 - l) * 2 ^ n) with (f_n f pos l * 2 ^ (64 - (l - n)))
        by (rewrite <- Z.mul_assoc, <- Z.pow_add_r by lia; do 2 f_equal; lia).
      replace (2 ^ 64) with (2 ^ (l - n) * 2 ^ (64 - (l - n)))
        by (rewrite <- Z.pow_add_r by lia; f_equal; lia).
      rewrite Z.mul_mod_distr_r by (pose proof (pow2_pos (l - n)); pose proof (pow2_pos (64 - (l - n))); lia).
      f_equal. apply f_n_low; auto; lia.
  - destruct Hz as [Hz|Hz]; [lia|].
    assert (E : f_n f pos n = f_n f pos l * 2 ^ (n - l)).
    { replace n with (l + (n - l)) at 1 by lia. rewrite f_n_app by lia.
      rewrite (f_n_zero f (pos + l)) by (intros; apply Hz; lia). lia. }
    split.
    + rewrite E. replace (64 - l) with ((n - l) + (64 - n)) by lia.
      rewrite Z.pow_add_r, Z.mul_assoc by lia. apply Z.div_mul.
      pose proof (pow2_pos (64 - n)); lia.
    + replace (f_n f pos l * 2 ^ (64 - l) * 2 ^ n) with (f_n f pos l * 2 ^ (n - l) * 2 ^ 64).
      * apply Z.mod_mul. lia.
      * rewrite <- !Z.mul_assoc. f_equal.
        transitivity (2 ^ (n - l + 64)); [symmetry; apply Z.pow_add_r; lia|].
        rewrite <- Z.pow_add_r by lia. f_equal. lia.
Qed.

(** Reader states in the middle of GET_BITS, after a possible refill. *)
Definition mid_ok (c c' : gb) (n : Z) : Prop :=
  same_buf c c' /\ 8 * gb_ptr c' - gb_left c' = 8 * gb_ptr c - gb_left c /\
  0 <= gb_ptr c' <= gb_end c' /\ gb_left c' <= 8 * gb_ptr c' /\
  ((n <= gb_left c' /\ gb_left c' < n + 8 /\ gb_err c' = gb_err c)
   \/ (gb_left c' < n /\ gb_ptr c' = gb_end c' /\ gb_err c' = true)) /\
  0 <= gb_left c' <= 39 /\
  gb_state c' = f_n (st_bit (stream_of c')) (8 * gb_ptr c' - gb_left c') (gb_left c')
                 * 2 ^ (64 - gb_left c').

Lemma refill_loop_ok : forall fuel c n k st,
  Forall is_byte (gb_buf c) -> 0 <= gb_ptr c <= gb_end c -> gb_end c <= zlen (gb_buf c) ->
  0 < n <= 32 -> 0 <= k -> 0 <= gb_left c - 8 * k <= 7 -> gb_left c < n ->
  gb_left c <= 8 * gb_ptr c ->
  gb_state c = f_n (st_bit (stream_of c)) (8 * gb_ptr c - gb_left c) (gb_left c - 8 * k)
               * 2 ^ (64 - (gb_left c - 8 * k)) ->
  st = f_n (st_bit (stream_of c)) (8 * (gb_ptr c - k)) (8 * k) ->
  4 - k < Z.of_nat fuel ->
  exists c', refill_loop fuel c n st = Ok c' /\ mid_ok c c' n.
Proof.
  induction fuel; intros c n k st Hb Hp He Hn Hk Hl Hln Hl8 Hs Hst Hfu; [lia|].
  simpl refill_loop.
  destruct c as [buf ptr end_ state left err]; cbn -[st_bit stream_of] in *.
  set (f := stream_bit buf end_) in *.
  change (st_bit (stream_of {| gb_buf := buf; gb_ptr := ptr; gb_end := end_; gb_state := state;
            gb_left := left; gb_err := err |})) with f in *.
  assert (Hf : forall i, 0 <= f i <= 1) by (apply stream_bit_range).
  assert (Done : forall err' ptr' left' st' k', ptr' - k' = ptr - k -> left' - 8 * k' = left - 8 * k -> 0 <= k' ->
     left' <= 39 -> 8 * k' <= 32 -> 0 <= ptr' <= end_ -> left' <= 8 * ptr' ->
     st' = f_n f (8 * (ptr' - k')) (8 * k') ->
     ((n <= left' /\ left' < n + 8 /\ err' = err) \/ (left' < n /\ ptr' = end_ /\ err' = true)) -> 0 < left' ->
     exists c', refill_done {| gb_buf := buf; gb_ptr := ptr'; gb_end := end_; gb_state := state;
                               gb_left := left'; gb_err := err' |} st' = Ok c' /\
       mid_ok {| gb_buf := buf; gb_ptr := ptr; gb_end := end_; gb_state := state; gb_left := left; gb_err := err |} c' n).
  { intros. unfold refill_done; simpl.
    replace ((0 <=? 64 - left') && (64 - left' <? 64)) with true by lia.
    eexists; split; [reflexivity|].
    pose proof (f_n_range f Hf (8 * (ptr' - k')) (8 * k') ltac:(lia)) as R.
    unfold mid_ok, same_buf; cbn -[st_bit stream_of].
    split; [auto|]. split; [lia|]. split; [lia|]. split; [lia|]. split; [auto|]. split; [lia|].
    change (st_bit _) with f.
    rewrite shiftl_mul by lia. rewrite Hs. subst st'.
    pose proof (pow2_pos (64 - left') ltac:(lia)) as PP.
    assert (SP : 2 ^ (64 - (left - 8 * k)) = 2 ^ (8 * k') * 2 ^ (64 - left')).
    { rewrite <- Z.pow_add_r by lia. f_equal. lia. }
    assert (SP2 : 2 ^ 64 = 2 ^ left' * 2 ^ (64 - left')).
    { rewrite <- Z.pow_add_r by lia. f_equal. lia. }
    assert (SP3 : 2 ^ left' = 2 ^ (left - 8 * k) * 2 ^ (8 * k')).
    { rewrite <- Z.pow_add_r by lia. f_equal. lia. }
    assert (2 ^ (8 * k') <= 2 ^ left').
    { apply Z.pow_le_mono_r; lia. }
    rewrite u64_id.
    - rewrite lor_shift_add; [|lia|].
      + pose proof (f_n_app f (8 * ptr - left) (left - 8 * k) (8 * k') ltac:(lia) ltac:(lia)) as FA.
        replace (left - 8 * k + 8 * k') with left' in FA by lia.
        replace (8 * ptr - left + (left - 8 * k)) with (8 * (ptr' - k')) in FA by lia.
        replace (8 * ptr' - left') with (8 * ptr - left) by lia. rewrite FA, SP. ring.
      + rewrite SP. nia.
    - rewrite SP2. nia. }
  destruct (Z.leb_spec end_ ptr).
  - (* end of buffer *)
    assert (ptr = end_) by lia.
    destruct (Z.eqb_spec st 0) as [Ez|Ez]; unfold z2b.
    + rewrite (proj2 (Z.eqb_eq st 0) Ez). simpl.
      eexists; split; [reflexivity|]. unfold mid_ok, same_buf; cbn -[st_bit stream_of].
      split; [auto|]. split; [lia|]. split; [lia|]. split; [lia|]. split; [auto|]. split; [lia|].
      change (st_bit _) with f. rewrite Hs.
      pose proof (f_n_app f (8 * ptr - left) (left - 8 * k) (8 * k) ltac:(lia) ltac:(lia)) as FA.
      replace (left - 8 * k + 8 * k) with left in FA by lia.
      replace (8 * ptr - left + (left - 8 * k)) with (8 * (ptr - k)) in FA by lia.
      rewrite FA, <- Hst, Ez, Z.add_0_r.
      rewrite <- Z.mul_assoc, <- Z.pow_add_r by lia. do 2 f_equal. lia.
    + rewrite (proj2 (Z.eqb_neq st 0) Ez). simpl.
      apply Done with (k' := k); cbn [gb_ptr gb_left gb_err gb_seterr]; try lia.
      * destruct (Z.eq_dec left 0); [|lia].
        exfalso. apply Ez. rewrite Hst. replace (8 * k) with 0 by lia. reflexivity.
  - rewrite (rd_at_nth _ _ _ 0) by lia. simpl.
    set (b := nth (Z.to_nat ptr) buf 0) in *.
    assert (Eb : b = f_n f (8 * ptr) 8) by (symmetry; apply f_n_byte; auto; lia).
    assert (Est : u32 (Z.lor (Z.shiftl st 8) b) = f_n f (8 * (ptr - k)) (8 * (k + 1))).
    { rewrite shiftl_mul by lia.
      pose proof (f_n_range f Hf (8 * ptr) 8 ltac:(lia)).
      rewrite lor_shift_add by lia.
      replace (8 * (k + 1)) with (8 * k + 8) by lia. rewrite f_n_app by lia.
      replace (8 * (ptr - k) + 8 * k) with (8 * ptr) by lia. rewrite <- Eb, <- Hst.
      apply u32_id.
      pose proof (f_n_range f Hf (8 * (ptr - k)) (8 * k) ltac:(lia)).
      assert (2 ^ (8 * k) <= 2 ^ 24) by (apply Z.pow_le_mono_r; lia).
      assert (2 ^ 32 = 2 ^ 24 * 2 ^ 8) by reflexivity. nia. }
    destruct (Z.ltb_spec (left + 8) n).
    + edestruct (IHfuel {| gb_buf := buf; gb_ptr := ptr + 1; gb_end := end_; gb_state := state;
             gb_left := left + 8; gb_err := err |} n (k + 1) (u32 (Z.lor (Z.shiftl st 8) b))) as (c' & E & M);
        try (cbn -[st_bit stream_of]; lia); auto.
      * cbn -[st_bit stream_of]. change (st_bit _) with f. rewrite Hs.
        replace (left + 8 - 8 * (k + 1)) with (left - 8 * k) by lia.
        replace (8 * (ptr + 1) - (left + 8)) with (8 * ptr - left) by lia. reflexivity.
      * cbn -[st_bit stream_of]. change (st_bit _) with f. rewrite Est.
        replace (ptr + 1 - (k + 1)) with (ptr - k) by lia. auto.
      * exists c'. split; [exact E|]. unfold mid_ok, same_buf in *. cbn -[st_bit stream_of] in *.
        destruct M as (M1 & M2 & M3 & M4 & M5 & M6 & M7). repeat split; auto; try tauto; lia.
    + apply Done with (k' := k + 1); cbn [gb_ptr gb_left gb_err]; try lia.
      * rewrite Est. do 2 f_equal. lia.
      * left. split; [lia|]. split; [lia|]. reflexivity.
Qed.

Lemma get_bits_state_ok : forall c n, gb_wf c -> 0 < n <= 32 ->
  a_pos (apos_of c) + n <= st_len (stream_of c) + 2 ^ 31 ->
  exists state c', get_bits_state c n = Ok (state, c') /\ read_ok c n c' /\
    0 <= state < 2 ^ 64 /\
    Z.shiftr state (64 - n) = f_n (st_bit (stream_of c)) (a_pos (apos_of c)) n.
Proof.
  intros c n Hwf Hn Hbud. pose proof Hwf as (Hb & Hp & He & Hst).
  assert (Hf : forall i, 0 <= st_bit (stream_of c) i <= 1) by (apply stream_bit_range).
  simpl in Hbud.
  assert (Mid : exists c', (if u32 (gb_left c) <? u32 n then refill c n else Ok c) = Ok c' /\
     (mid_ok c c' n \/ (gb_left c < 0 /\ c' = c))).
  { rewrite (u32_id n) by lia. destruct Hst as [(L & L8 & S)|(L & P & S & E)].
    - rewrite u32_id by lia. destruct (Z.ltb_spec (gb_left c) n).
      + unfold refill. replace ((0 <=? gb_left c) && (gb_left c <? 32)) with true by lia.
        edestruct (refill_loop_ok 8 c n 0 0) as (c' & E & M); eauto; try lia.
        * rewrite S. f_equal; f_equal; lia.
      + exists c. split; auto. left. unfold mid_ok, same_buf.
        split; [auto|]. split; [lia|]. split; [lia|]. split; [lia|].
        split; [left; split; [lia|]; split; [lia|reflexivity]|]. split; [lia|auto].
    - assert (u32 (gb_left c) = gb_left c + 2 ^ 32).
      { unfold u32. symmetry. apply Z.mod_unique with (-1); lia. }
      destruct (Z.ltb_spec (u32 (gb_left c)) n); [lia|]. exists c. split; auto. }
  destruct Mid as (c1 & E1 & M). unfold get_bits_state.
  replace ((0 <? n) && (n <=? 32)) with true by lia. rewrite E1. simpl obind.
  destruct M as [M|(Lneg & ->)].
  - destruct M as (SB & Pos & P1 & L8 & Cs & L & S).
    assert (ST : stream_of c1 = stream_of c) by (apply same_buf_stream; auto).
    rewrite ST in S. destruct SB as (SB1 & SB2).
    set (f := st_bit (stream_of c)) in *.
    set (pos := 8 * gb_ptr c - gb_left c) in *.
    assert (Hz : n <= gb_left c1 \/ (forall i, pos + gb_left c1 <= i -> f i = 0)).
    { destruct Cs as [Cs|Cs]; [left; lia|right]. intros. apply stream_bit_end. lia. }
    rewrite Pos in S. fold pos in S.
    destruct (cut_state f pos (gb_left c1) n Hf ltac:(lia) ltac:(lia) Hz) as (K1 & K2).
    rewrite <- S in K1, K2.
    rewrite fits_int_true by (unfold INT_MIN, INT_MAX; lia).
    do 2 eexists. split; [reflexivity|]. split; [|split; [|exact K1]].
    + unfold read_ok. split; [|split].
      * unfold gb_wf. simpl. rewrite SB1, SB2.
        split; [auto|]. split; [lia|]. split; [lia|].
        rewrite K2. destruct (Z.leb_spec n (gb_left c1)).
        -- left. split; [lia|]. split; [lia|].
           change (stream_bit (gb_buf c) (gb_end c)) with f.
           replace (8 * gb_ptr c1 - (gb_left c1 - n)) with (pos + n) by lia. auto.
        -- right. repeat split; try lia.
           destruct Cs as [Cs|Cs]; [lia|]. tauto.
      * unfold same_buf; simpl; auto.
      * unfold apos_of; simpl. fold pos. f_equal; [lia|].
        destruct Cs as [(C1 & C2 & C3)|(C1 & C2 & C3)]; rewrite C3.
        -- destruct (gb_err c); auto. simpl. symmetry. apply Z.ltb_ge. lia.
        -- symmetry. replace (8 * gb_end c <? pos + n) with true by lia. apply orb_true_r.
    + rewrite S. pose proof (f_n_range f Hf pos (gb_left c1) ltac:(lia)).
      assert (2 ^ 64 = 2 ^ gb_left c1 * 2 ^ (64 - gb_left c1)).
      { rewrite <- Z.pow_add_r by lia. f_equal. lia. }
      pose proof (pow2_pos (64 - gb_left c1) ltac:(lia)). nia.
  - destruct Hst as [(L & L8 & S)|(L & P & S & E)]; [lia|].
    rewrite fits_int_true by (unfold INT_MIN, INT_MAX; lia).
    do 2 eexists. split; [reflexivity|]. rewrite S. split; [|split; [lia|]].
    + unfold read_ok, gb_wf, same_buf, apos_of; simpl. split; [|split; [auto|]].
      * split; [auto|]. split; [lia|]. split; [lia|]. right. repeat split; try lia; auto.
        rewrite shiftl_mul by lia. reflexivity.
      * f_equal; [lia|]. rewrite E. auto.
    + rewrite shiftr_div by lia. rewrite Z.div_0_l by (pose proof (pow2_pos (64 - n)); lia).
      symmetry. apply f_n_zero. intros. apply stream_bit_end. simpl in *. lia.
Qed.

Lemma get_bits_ok : forall c n, gb_wf c -> 0 < n <= 32 ->
  a_pos (apos_of c) + n <= st_len (stream_of c) + 2 ^ 31 ->
  exists c', get_bits c n = Ok (f_n (st_bit (stream_of c)) (a_pos (apos_of c)) n, c') /\
    read_ok c n c'.
Proof.
  intros. destruct (get_bits_state_ok c n) as (st & c' & E & R & S & V); auto.
  exists c'. unfold get_bits. rewrite E. simpl obind. rewrite V. split; auto.
  rewrite u32_id; auto.
  pose proof (f_n_range _ (stream_bit_range (gb_buf c) (gb_end c)) (a_pos (apos_of c)) n ltac:(lia)).
  assert (2 ^ n <= 2 ^ 32) by (apply Z.pow_le_mono_r; lia). simpl in *. lia.
Qed.

Lemma signed_shiftr : forall st n v, 0 < n <= 32 -> 0 <= st < 2 ^ 64 ->
  Z.shiftr st (64 - n) = v ->
  s32 (Z.shiftr (s64 st) (64 - n)) = if 2 ^ (n - 1) <=? v then v - 2 ^ n else v.
Proof.
  intros st n v Hn Hst HV. rewrite shiftr_div in HV by lia. rewrite shiftr_div by lia.
  set (P := 2 ^ (64 - n)) in *.
  assert (HP : 0 < P) by (apply pow2_pos; lia).
  assert (E64 : 2 ^ 64 = 2 ^ n * P).
  { unfold P. rewrite <- Z.pow_add_r by lia. f_equal. lia. }
  assert (E63 : 2 ^ 63 = 2 ^ (n - 1) * P).
  { unfold P. rewrite <- Z.pow_add_r by lia. f_equal. lia. }
  assert (En : 2 ^ n = 2 * 2 ^ (n - 1)).
  { rewrite <- Z.pow_succ_r by lia. f_equal. lia. }
  assert (Hpn : 0 < 2 ^ (n - 1)) by (apply pow2_pos; lia).
  assert (Hn31 : 2 ^ (n - 1) <= 2 ^ 31) by (apply Z.pow_le_mono_r; lia).
  assert (HV' : P * v <= st < P * v + P).
  { subst v. pose proof (Z.mul_div_le st P HP). pose proof (Z.mul_succ_div_gt st P HP). lia. }
  assert (S64 : s64 st = if 2 ^ 63 <=? st then st - 2 ^ 64 else st).
  { unfold s64, sN. change (64 - 1) with 63. destruct (Z.leb_spec (2 ^ 63) st).
    - replace (st + 2 ^ 63) with (st - 2 ^ 63 + 1 * 2 ^ 64) by lia.
      rewrite Z.mod_add by lia. rewrite Z.mod_small by lia. lia.
    - rewrite Z.mod_small by lia. lia. }
  rewrite S64. destruct (Z.leb_spec (2 ^ 63) st), (Z.leb_spec (2 ^ (n - 1)) v).
  - rewrite E64. replace (st - 2 ^ n * P) with (st + (- 2 ^ n) * P) by lia.
    rewrite Z.div_add by lia. rewrite HV. rewrite s32_id by nia. lia.
  - nia.
  - nia.
  - rewrite HV. rewrite s32_id; auto. nia.
Qed.

Lemma get_sbits_ok : forall c n, gb_wf c -> 0 < n <= 32 ->
  a_pos (apos_of c) + n <= st_len (stream_of c) + 2 ^ 31 ->
  exists c', get_sbits c n = Ok (su_n (st_bit (stream_of c)) (a_pos (apos_of c)) n, c') /\
    read_ok c n c'.
Proof.
  intros. destruct (get_bits_state_ok c n) as (st & c' & E & R & S & V); auto.
  exists c'. unfold get_sbits. rewrite E. simpl obind.
  rewrite (signed_shiftr st n _ H0 S V). unfold su_n. auto.
Qed.

Lemma get_bit_ok : forall c, gb_wf c ->
  a_pos (apos_of c) + 1 <= st_len (stream_of c) + 2 ^ 31 ->
  exists c', get_bit c = Ok (st_bit (stream_of c) (a_pos (apos_of c)), c') /\ read_ok c 1 c'.
Proof.
  intros c Hwf Hbud. pose proof Hwf as (Hb & Hp & He & Hst).
  assert (Hf : forall i, 0 <= st_bit (stream_of c) i <= 1) by (apply stream_bit_range).
  unfold get_bit. simpl in Hbud.
  destruct (Z.eqb_spec (gb_left c) 0) as [L0|L0].
  - destruct (Z.leb_spec (gb_end c) (gb_ptr c)).
    + assert (ptrE : gb_ptr c = gb_end c) by lia.
      destruct Hst as [(L & L8 & S)|(L & P & S & E)]; [|lia].
      rewrite L0, f_n_0, Z.mul_0_l in S.
      unfold get_bit_tail. simpl. rewrite L0, S.
      eexists. split.
      * simpl. f_equal. f_equal. symmetry. apply stream_bit_end. lia.
      * unfold read_ok, gb_wf, same_buf, apos_of; simpl.
        split; [|split; [auto|]].
        -- split; [auto|]. split; [lia|]. split; [lia|]. right. repeat split; lia.
        -- f_equal; [lia|]. rewrite L0. symmetry.
           replace (8 * gb_end c <? 8 * gb_ptr c - 0 + 1) with true by lia. apply orb_true_r.
    + destruct Hst as [(L & L8 & S)|(L & P & S & E)]; [|lia].
      rewrite (rd_at_nth _ _ _ 0) by lia. simpl obind.
      set (b := nth (Z.to_nat (gb_ptr c)) (gb_buf c) 0).
      assert (Eb : f_n (st_bit (stream_of c)) (8 * gb_ptr c) 8 = b) by (apply f_n_byte; auto; lia).
      set (f := st_bit (stream_of c)) in *.
      assert (V : Z.shiftr b 7 = f (8 * gb_ptr c)).
      { rewrite shiftr_div by lia. rewrite <- Eb. change 7 with (8 - 1).
        rewrite f_n_top by (auto; lia). apply f_n_1. }
      eexists. split.
      * simpl a_pos. rewrite L0, Z.sub_0_r, V. reflexivity.
      * unfold read_ok, gb_wf, same_buf, apos_of; simpl.
        split; [|split; [auto|]].
        -- split; [auto|]. split; [lia|]. split; [lia|]. left. split; [lia|]. split; [lia|].
           change (stream_bit (gb_buf c) (gb_end c)) with f.
           rewrite shiftl_mul by lia. rewrite <- Eb.
           pose proof (f_n_app f (8 * gb_ptr c) 1 7 ltac:(lia) ltac:(lia)) as FA.
           change (1 + 7) with 8 in FA. rewrite FA.
           replace (8 * (gb_ptr c + 1) - 7) with (8 * gb_ptr c + 1) by lia.
           unfold u64. rewrite Z.mul_add_distr_r.
           rewrite <- Z.mul_assoc. change (2 ^ 7 * 2 ^ 57) with (2 ^ 64).
           rewrite Z.add_comm, Z.mod_add by lia.
           pose proof (f_n_range f Hf (8 * gb_ptr c + 1) 7 ltac:(lia)).
           change (2 ^ (64 - 7)) with (2 ^ 57). apply Z.mod_small.
           assert (2 ^ 64 = 2 ^ 7 * 2 ^ 57) by reflexivity. nia.
        -- f_equal; [lia|]. rewrite L0.
           replace (8 * gb_end c <? 8 * gb_ptr c - 0 + 1) with false by lia.
           rewrite orb_false_r. auto.
  - unfold get_bit_tail.
    destruct Hst as [(L & L8 & S)|(L & P & S & E)].
    + rewrite fits_int_true by (unfold INT_MIN, INT_MAX; lia).
      destruct (cut_state (st_bit (stream_of c)) (8 * gb_ptr c - gb_left c) (gb_left c) 1
                  Hf ltac:(lia) ltac:(lia) ltac:(lia)) as (K1 & K2).
      rewrite <- S in K1, K2. change (64 - 1) with 63 in K1. rewrite K1, K2.
      replace (1 <=? gb_left c) with true by lia.
      eexists. split; [rewrite f_n_1; reflexivity|].
      unfold read_ok, gb_wf, same_buf, apos_of; simpl.
      split; [|split; [auto|]].
      * split; [auto|]. split; [lia|]. split; [lia|]. left. split; [lia|]. split; [lia|].
        f_equal. f_equal. lia.
      * f_equal; [lia|]. replace (8 * gb_end c <? 8 * gb_ptr c - gb_left c + 1) with false by lia.
        rewrite orb_false_r. auto.
    + rewrite fits_int_true by (unfold INT_MIN, INT_MAX; lia). rewrite S.
      eexists. split.
      * simpl. f_equal. f_equal. symmetry. apply stream_bit_end. lia.
      * unfold read_ok, gb_wf, same_buf, apos_of; simpl.
        split; [|split; [auto|]].
        -- split; [auto|]. split; [lia|]. split; [lia|]. right. repeat split; auto; lia.
        -- f_equal; [lia|]. rewrite E. auto.
Qed.

Lemma seterr_ok : forall c, gb_wf c -> gb_wf (gb_seterr c) /\ same_buf c (gb_seterr c) /\
  apos_of (gb_seterr c) = a_seterr (apos_of c).
Proof.
  intros c (Hb & Hp & He & Hst). unfold gb_wf, same_buf, gb_seterr, apos_of, a_seterr; simpl in *.
  repeat split; auto; try tauto; try lia.
Qed.

Lemma align_ok : forall c, gb_wf c -> exists c', gb_align c = Ok c' /\ gb_wf c' /\
  same_buf c c' /\ apos_of c' = a_align (stream_of c) (apos_of c).
Proof.
  intros c (Hb & Hp & He & Hst). unfold gb_align.
  replace (gb_left c <=? 7) with true by lia.
  eexists. split; [reflexivity|]. unfold gb_wf, same_buf, apos_of, a_align; simpl.
  split; [|split; [auto|]].
  - split; [auto|]. split; [lia|]. split; [lia|]. left. rewrite f_n_0. lia.
  - f_equal. destruct (Z.ltb_spec (8 * gb_end c) (8 * gb_ptr c - gb_left c)); lia.
Qed.

Lemma pos_ok : forall c, gb_pos c = u32 (a_pos (apos_of c)).
Proof.
  intros. unfold gb_pos, apos_of, u32; simpl.
  rewrite Zminus_mod_idemp_l. rewrite <- Zminus_mod_idemp_l, Zmult_mod_idemp_l, Zminus_mod_idemp_l.
  f_equal. lia.
Qed.

Lemma trailing_size_ok : forall fuel buf p size, Forall is_byte buf -> 0 <= p -> 0 <= size ->
  p + size <= zlen buf -> (Z.to_nat size <= fuel)%nat ->
  exists r, trailing_size fuel buf p size = Ok r /\ 0 <= r <= size /\
    (r = 0 <-> forall i, p <= i < p + size -> nth (Z.to_nat i) buf 0 = 0).
Proof.
  induction fuel; intros buf p size Hb Hp Hs Hlen Hfu; simpl.
  - replace size with 0 by lia. exists 0. simpl. split; auto. split; [lia|].
    split; intros; auto. lia.
  - destruct (Z.ltb_spec 0 size).
    + rewrite (rd_at_nth _ _ _ 0) by lia. simpl obind.
      destruct (Z.eqb_spec (nth (Z.to_nat (p + size - 1)) buf 0) 0) as [E|E].
      * edestruct (IHfuel buf p (size - 1)) as (r & R1 & R2 & R3); auto; try lia.
        exists r. split; auto. split; [lia|]. rewrite R3. split; intros A i Hi.
        -- destruct (Z.eq_dec i (p + size - 1)); [subst; auto|]. apply A. lia.
        -- apply A. lia.
      * exists size. split; auto. split; [lia|]. split; intros; [lia|].
        exfalso. apply E. apply H0. lia.
    + exists size. split; auto. split; [lia|]. split; intros; [lia|]. lia.
Qed.

Lemma f_n_zero_inv : forall f, (forall i, 0 <= f i <= 1) ->
  forall n pos, bitsval f pos n = 0 -> forall i, pos <= i < pos + Z.of_nat n -> f i = 0.
Proof.
  intros f Hf. induction n; intros pos H i Hi; [lia|]. simpl in H.
  pose proof (bitsval_range f Hf n pos). pose proof (Hf (pos + Z.of_nat n)).
  destruct (Z.eq_dec i (pos + Z.of_nat n)); [subst; lia|]. apply (IHn pos); lia.
Qed.

Lemma rest_ok : forall c, gb_wf c -> gb_rest_zero c = Ok (a_rest (stream_of c) (apos_of c)).
Proof.
  intros c (Hb & Hp & He & Hst). unfold gb_rest_zero, a_rest.
  assert (Hf : forall i, 0 <= st_bit (stream_of c) i <= 1) by (apply stream_bit_range).
  set (f := st_bit (stream_of c)) in *. simpl a_pos. simpl st_len.
  edestruct (trailing_size_ok (length (gb_buf c)) (gb_buf c) (gb_ptr c) (gb_end c - gb_ptr c))
    as (r & R1 & R2 & R3); auto; try lia.
  { unfold zlen in *. lia. }
  rewrite R1. simpl obind.
  assert (Tail : r = 0 <-> f_n f (8 * gb_ptr c) (8 * gb_end c - 8 * gb_ptr c) = 0).
  { rewrite R3. clear R3. split; intros Z0.
    - apply f_n_zero. intros i Hi. unfold f, stream_of; simpl. unfold stream_bit.
      destruct (_ && _) eqn:?; auto. rewrite Z0 by lia.
      rewrite Z.div_0_l; auto. pose proof (pow2_pos (7 - i mod 8)). lia.
    - intros i Hi. rewrite <- (f_n_byte (gb_buf c) (gb_end c)) by (auto; lia).
      apply f_n_zero. intros j Hj. unfold f_n in Z0.
      apply (f_n_zero_inv f Hf _ _ Z0). lia. }
  destruct Hst as [(L & L8 & S)|(L & P & S & E)].
  - replace (8 * gb_end c - (8 * gb_ptr c - gb_left c)) with (gb_left c + (8 * gb_end c - 8 * gb_ptr c)) by lia.
    rewrite f_n_app by lia.
    replace (8 * gb_ptr c - gb_left c + gb_left c) with (8 * gb_ptr c) by lia.
    pose proof (f_n_range f Hf (8 * gb_ptr c - gb_left c) (gb_left c) ltac:(lia)) as R4.
    pose proof (f_n_range f Hf (8 * gb_ptr c) (8 * gb_end c - 8 * gb_ptr c) ltac:(lia)) as R5.
    fold f in S. unfold z2b.
    pose proof (pow2_pos (64 - gb_left c) ltac:(lia)) as PP1.
    set (X := f_n f (8 * gb_ptr c - gb_left c) (gb_left c)) in *.
    set (Y := f_n f (8 * gb_ptr c) (8 * gb_end c - 8 * gb_ptr c)) in *.
    set (Q := 2 ^ (8 * gb_end c - 8 * gb_ptr c)) in *.
    destruct (Z.eqb_spec (gb_state c) 0) as [Z0|Z0]; simpl.
    + assert (X = 0) by nia. f_equal. rewrite H. rewrite Z.mul_0_l, Z.add_0_l. lia.
    + f_equal. symmetry. apply Z.eqb_neq. assert (X <> 0) by nia. nia.
  - unfold z2b. rewrite S. simpl. f_equal. rewrite f_n_neg by lia. lia.
Qed.

(** Main refinement: running a parser program on the C reader is running it on
    the bit stream. *)
Theorem exec_refines : forall A (p : rd A) c r a, gb_wf c ->
  aexec p (stream_of c) (apos_of c) = Ok (r, a) ->
  exists c', exec p c = Ok (r, c') /\ gb_wf c' /\ same_buf c c' /\ apos_of c' = a.
Proof.
  induction p; intros c r a0 Hwf E; cbn [aexec] in E; cbn [exec].
  - inversion E; subst. exists c. unfold same_buf. auto.
  - inversion E; subst. exists c. unfold same_buf. auto.
  - discriminate.
  - unfold a_read in E. destruct (Z.leb_spec (a_pos (apos_of c) + 1) (st_len (stream_of c) + 2 ^ 31));
      [|discriminate]. cbn [obind] in E.
    destruct (get_bit_ok c Hwf H0) as (c' & E' & W & SB & AP). rewrite E'. cbn [obind].
    rewrite <- AP in E. rewrite <- (same_buf_stream _ _ SB) in E.
    edestruct (H _ _ _ _ W E) as (c'' & X1 & X2 & X3 & X4).
    rewrite (same_buf_stream _ _ SB) in X1. exists c''. split; [exact X1|].
    unfold same_buf in *. intuition congruence.
  - destruct ((0 <? n) && (n <=? 32)) eqn:Hn; [|discriminate].
    unfold a_read in E. destruct (Z.leb_spec (a_pos (apos_of c) + n) (st_len (stream_of c) + 2 ^ 31));
      [|discriminate]. cbn [obind] in E.
    destruct (get_bits_ok c n Hwf ltac:(lia) H0) as (c' & E' & W & SB & AP). rewrite E'. cbn [obind].
    rewrite <- AP in E. rewrite <- (same_buf_stream _ _ SB) in E.
    edestruct (H _ _ _ _ W E) as (c'' & X1 & X2 & X3 & X4).
    rewrite (same_buf_stream _ _ SB) in X1. exists c''. split; [exact X1|].
    unfold same_buf in *. intuition congruence.
  - destruct ((0 <? n) && (n <=? 32)) eqn:Hn; [|discriminate].
    unfold a_read in E. destruct (Z.leb_spec (a_pos (apos_of c) + n) (st_len (stream_of c) + 2 ^ 31));
      [|discriminate]. cbn [obind] in E.
    destruct (get_sbits_ok c n Hwf ltac:(lia) H0) as (c' & E' & W & SB & AP). rewrite E'. cbn [obind].
    rewrite <- AP in E. rewrite <- (same_buf_stream _ _ SB) in E.
    edestruct (H _ _ _ _ W E) as (c'' & X1 & X2 & X3 & X4).
    rewrite (same_buf_stream _ _ SB) in X1. exists c''. split; [exact X1|].
    unfold same_buf in *. intuition congruence.
  - eapply H; eauto.
  - destruct (seterr_ok c Hwf) as (W & SB & AP). rewrite <- AP in E.
    rewrite <- (same_buf_stream _ _ SB) in E.
    edestruct (IHp _ _ _ W E) as (c'' & X1 & X2 & X3 & X4). exists c''. split; [exact X1|].
    unfold same_buf in *. intuition congruence.
  - destruct (align_ok c Hwf) as (c' & E' & W & SB & AP). rewrite E'. cbn [obind].
    rewrite <- AP in E. rewrite <- (same_buf_stream _ _ SB) in E.
    edestruct (IHp _ _ _ W E) as (c'' & X1 & X2 & X3 & X4). exists c''. split; [exact X1|].
    unfold same_buf in *. intuition congruence.
  - rewrite pos_ok. eapply H; eauto.
  - rewrite (rest_ok c Hwf). cbn [obind]. eapply H; eauto.
Qed.

Lemma init_ok : forall buf sz, Forall is_byte buf -> 0 < sz <= zlen buf ->
  exists c, gb_init buf sz = Ok c /\ gb_wf c /\
    stream_of c = {| st_bit := stream_bit buf sz; st_len := 8 * sz |} /\
    apos_of c = {| a_pos := 0; a_err := false |}.
Proof.
  intros. unfold gb_init. replace (0 <? sz) with true by lia. eexists. split; [reflexivity|].
  unfold gb_wf, apos_of, stream_of; simpl. split; [|split; auto].
  split; [auto|]. split; [lia|]. split; [lia|]. left. rewrite f_n_0. lia.
Qed.

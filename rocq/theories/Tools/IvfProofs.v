(** The IVF demuxer. *)
From Coq Require Import ZArith List Bool Lia Znumtheory.
From Verif Require Import Base.CInt Base.Lemmas Base.Finite Tools.Input Tools.InputSpec Tools.InputProofs.
Import ListNotations.
Open Scope Z_scope.
Open Scope outcome_scope.

(** ** fields *)
Lemma le_length : forall n x, length (le n x) = n.
Proof. induction n; intros; cbn; auto. Qed.
Lemma le_zlen : forall n x, zlen (le n x) = Z.of_nat n.
Proof. intros. unfold zlen. now rewrite le_length. Qed.

Lemma rl32_bytes : forall b0 b1 b2 b3 : Z, 0 <= b0 < 256 -> 0 <= b1 < 256 -> 0 <= b2 < 256 -> 0 <= b3 < 256 ->
  Z.lor (Z.lor (Z.lor (u32 (Z.shiftl b3 24)) (Z.shiftl b2 16)) (Z.shiftl b1 8)) b0
  = b0 + 256 * (b1 + 256 * (b2 + 256 * b3)).
Proof.
  intros. rewrite !shiftl_mul by lia. rewrite u32_id by lia.
  rewrite (lor_shift_add b3 (b2 * 2 ^ 16) 24) by lia.
  replace (b3 * 2 ^ 24 + b2 * 2 ^ 16) with ((b3 * 2 ^ 8 + b2) * 2 ^ 16) by ring.
  rewrite lor_shift_add by lia.
  replace ((b3 * 2 ^ 8 + b2) * 2 ^ 16 + b1 * 2 ^ 8) with ((b3 * 2 ^ 16 + b2 * 2 ^ 8 + b1) * 2 ^ 8) by ring.
  rewrite lor_shift_add by lia. ring.
Qed.

Lemma le4_value : forall x, 0 <= x < 2 ^ 32 ->
  x mod 256 + 256 * (x / 256 mod 256 + 256 * (x / 256 / 256 mod 256 + 256 * (x / 256 / 256 / 256 mod 256))) = x.
Proof.
  intros x H.
  assert (x / 256 / 256 / 256 < 256).
  { rewrite !Z.div_div by lia. apply Z.div_lt_upper_bound; lia. }
  assert (0 <= x / 256 / 256 / 256).
  { rewrite !Z.div_div by lia. apply Z.div_pos; lia. }
  rewrite (Z.mod_small (x / 256 / 256 / 256)) by lia.
  pose proof (Z.div_mod x 256 ltac:(lia)). pose proof (Z.div_mod (x / 256) 256 ltac:(lia)).
  pose proof (Z.div_mod (x / 256 / 256) 256 ltac:(lia)). lia.
Qed.

Lemma mod256 : forall x, 0 <= x mod 256 < 256. Proof. intros. apply Z.mod_pos_bound. lia. Qed.

Lemma rl32_le : forall pre x rest, 0 <= x < 2 ^ 32 -> rl32 (pre ++ le 4 x ++ rest) (length pre) = x.
Proof.
  intros pre x rest H. unfold rl32.
  assert (G : forall i, nth (length pre + i) (pre ++ le 4 x ++ rest) 0 = nth i (le 4 x ++ rest) 0).
  { intros i. rewrite app_nth2 by lia. f_equal. lia. }
  rewrite !G. replace (length pre) with (length pre + 0)%nat by lia. rewrite G.
  cbn [le app nth].
  rewrite rl32_bytes by apply mod256. now apply le4_value.
Qed.

Lemma le_split : forall n m x, le (n + m) x = le n x ++ le m (x / 256 ^ Z.of_nat n).
Proof.
  induction n; intros m x.
  - change (256 ^ Z.of_nat 0) with 1. now rewrite Z.div_1_r.
  - cbn [Nat.add le app]. rewrite IHn, Z.div_div by (try apply Z.pow_pos_nonneg; lia).
    do 4 f_equal. replace (Z.of_nat (S n)) with (1 + Z.of_nat n) by lia.
    rewrite Z.pow_add_r by lia. reflexivity.
Qed.

Lemma le_mod : forall n x, le n (x mod 256 ^ Z.of_nat n) = le n x.
Proof.
  induction n; intros x; [reflexivity|]. cbn [le].
  assert (E : 256 ^ Z.of_nat (S n) = 256 * 256 ^ Z.of_nat n).
  { replace (Z.of_nat (S n)) with (1 + Z.of_nat n) by lia. rewrite Z.pow_add_r by lia. reflexivity. }
  pose proof (Z.pow_pos_nonneg 256 (Z.of_nat n) ltac:(lia) ltac:(lia)).
  rewrite E, Z.rem_mul_r by lia. f_equal.
  - rewrite Z.mul_comm, Z_mod_plus_full. apply Z.mod_mod. lia.
  - rewrite Z.mul_comm, Z.div_add by lia. rewrite (Z.div_small (x mod 256)) by apply mod256.
    rewrite Z.add_0_l. apply IHn.
Qed.

Lemma rl64_le : forall x, 0 <= x < 2 ^ 64 -> rl64 (le 8 x) = x.
Proof.
  intros x H. unfold rl64. change 8%nat with (4 + 4)%nat. rewrite le_split.
  change (256 ^ Z.of_nat 4) with (2 ^ 32).
  pose proof (Z.div_mod x (2 ^ 32) ltac:(lia)) as DM. pose proof (Z.mod_pos_bound x (2 ^ 32) ltac:(lia)) as MB.
  assert (0 <= x / 2 ^ 32 < 2 ^ 32).
  { split; [apply Z.div_pos; lia|]. apply Z.div_lt_upper_bound; lia. }
  rewrite <- (le_mod 4 x). change (256 ^ Z.of_nat 4) with (2 ^ 32).
  pose proof (rl32_le (le 4 (x mod 2 ^ 32)) (x / 2 ^ 32) [] ltac:(lia)) as R1.
  rewrite le_length, app_nil_r in R1. rewrite R1.
  pose proof (rl32_le [] (x mod 2 ^ 32) (le 4 (x / 2 ^ 32)) ltac:(lia)) as R2.
  cbn [app length] in R2. rewrite R2.
  rewrite shiftl_mul by lia. rewrite u64_id by lia. rewrite lor_shift_add by lia. lia.
Qed.

Lemma rl32_range : forall p o, bytes p -> 0 <= rl32 p o < 2 ^ 32.
Proof.
  intros p o B. assert (G : forall i, 0 <= nth i p 0 < 256).
  { intros i. destruct (Nat.lt_ge_cases i (length p)).
    - unfold bytes in B. rewrite Forall_forall in B. apply B. now apply nth_In.
    - rewrite nth_overflow by lia. lia. }
  unfold rl32. pose proof (G (o + 3)%nat). pose proof (G (o + 2)%nat). pose proof (G (o + 1)%nat). pose proof (G o).
  rewrite rl32_bytes by auto. lia.
Qed.

Section IVF.
Variable alloc : Z -> bool.

(** ** one frame *)
Definition iv_at (c : ivf) (rest : list Z) : Prop := at_ (iv_f c) rest.

Lemma frame_zlen : forall fr, zlen (ivf_frame fr) = 12 + zlen (snd fr).
Proof. intros. unfold ivf_frame. rewrite !zlen_app, !le_zlen. lia. Qed.

Definition stamp (c : ivf) (ts : Z) : Z :=
  if iv_broken c then (if 32 <? f_pos (iv_f c) then u64 (iv_last_ts c + iv_step c) else 0) else ts.

Lemma header_ok : forall fr rest c, ivf_ok fr -> iv_at c (ivf_frame fr ++ rest) ->
  exists c', ivf_read_header c = (Some (zlen (snd fr), f_pos (iv_f c), stamp c (fst fr)), c')
    /\ iv_at c' (snd fr ++ rest) /\ f_pos (iv_f c') = f_pos (iv_f c) + 12
    /\ f_data (iv_f c') = f_data (iv_f c)
    /\ iv_broken c' = iv_broken c /\ iv_last_ts c' = iv_last_ts c /\ iv_step c' = iv_step c.
Proof.
  intros [ts p] rest c (HT & HL & HB) A. cbn [fst snd] in *. unfold zl in HL. fold (@zlen Z p) in HL.
  unfold iv_at, ivf_frame in A. cbn [fst snd] in A. rewrite <- !app_assoc in A.
  unfold ivf_read_header.
  destruct (fread_at _ _ _ 4 A (le_zlen 4 _) ltac:(lia)) as (f1 & -> & A1 & D1 & P1).
  pose proof (rl32_le [] (zlen p) [] ltac:(lia)) as R. cbn [app length] in R. rewrite app_nil_r in R.
  change (zl p) with (zlen p). rewrite R. unfold stamp.
  destruct (iv_broken c) eqn:B; cbn [negb].
  - destruct (fseek_at f1 _ _ 8 A1 (le_zlen 8 _)) as (f2 & -> & A2 & D2 & P2).
    eexists. split; [reflexivity|]. cbn. unfold iv_at; cbn.
    repeat match goal with |- _ /\ _ => split end; auto; try lia. congruence.
  - destruct (fread_at f1 _ _ 8 A1 (le_zlen 8 _) ltac:(lia)) as (f2 & -> & A2 & D2 & P2).
    rewrite rl64_le by lia.
    eexists. split; [reflexivity|]. cbn. unfold iv_at; cbn.
    repeat match goal with |- _ /\ _ => split end; auto; try lia. congruence.
Qed.

Lemma header_dead : forall c, past (iv_f c) -> exists c', ivf_read_header c = (None, c') /\ past (iv_f c')
  /\ f_data (iv_f c') = f_data (iv_f c)
  /\ iv_broken c' = iv_broken c /\ iv_last_ts c' = iv_last_ts c /\ iv_step c' = iv_step c.
Proof.
  intros c P. unfold ivf_read_header.
  destruct (fread_past _ 4 P ltac:(lia)) as (f1 & -> & P1 & D1 & _).
  eexists. split; [reflexivity|]. cbn. auto 10.
Qed.

Hypothesis alloc_ok : forall n, 0 < n < 2 ^ 32 -> alloc n = true.

Lemma read_ok : forall fr rest c, ivf_ok fr -> iv_at c (ivf_frame fr ++ rest) ->
  exists c', ivf_read alloc c = (Some (snd fr, f_pos (iv_f c), stamp c (fst fr)), c')
    /\ iv_at c' rest /\ f_pos (iv_f c') = f_pos (iv_f c) + zlen (ivf_frame fr)
    /\ f_data (iv_f c') = f_data (iv_f c)
    /\ iv_broken c' = iv_broken c /\ iv_last_ts c' = stamp c (fst fr) /\ iv_step c' = iv_step c.
Proof.
  intros fr rest c H A. unfold ivf_read.
  destruct (header_ok fr rest c H A) as (c1 & -> & A1 & P1 & D1 & B1 & L1 & S1).
  destruct H as (_ & HL & _). change (zl (snd fr)) with (zlen (snd fr)) in HL.
  rewrite alloc_ok by lia. cbn [negb].
  destruct (fread_at _ _ _ _ A1 eq_refl ltac:(lia)) as (f2 & -> & A2 & D2 & P2).
  eexists. split; [reflexivity|]. cbn [iv_f iv_broken iv_last_ts iv_step]. rewrite frame_zlen.
  repeat match goal with |- _ /\ _ => split end; auto; try lia. congruence.
Qed.

Definition iv_dead (c : ivf) : Prop := past (iv_f c).
Lemma iv_stay : forall c, iv_dead c -> fst (ivf_read alloc c) = None /\ iv_dead (snd (ivf_read alloc c)).
Proof.
  intros c P. unfold ivf_read. destruct (header_dead c P) as (c' & -> & P' & _). auto.
Qed.

Lemma reads_plain : forall frs c i, Forall ivf_ok frs -> iv_at c (flat_map ivf_frame frs) -> iv_broken c = false ->
  forall n, reads (ivf_read alloc) (length frs + n) c
  = map Some (ivf_packets (f_pos (iv_f c)) i (fun _ ts => ts) frs) ++ repeat None n.
Proof.
  induction frs as [|fr frs IH]; intros c i F A B n.
  - cbn [length Nat.add map ivf_packets app]. apply (reads_dead _ iv_dead iv_stay). now apply past_at.
  - inversion F; subst. cbn [flat_map] in A.
    destruct (read_ok fr _ c H1 A) as (c1 & E1 & A1 & P1 & D1 & B1 & L1 & S1).
    cbn [length Nat.add reads ivf_packets map app]. rewrite E1. cbn [fst snd].
    unfold stamp at 1. rewrite B. f_equal.
    rewrite (IH c1 (i + 1)); auto; [|congruence]. now rewrite P1.
Qed.

Lemma reads_broken : forall frs c i, Forall ivf_ok frs -> iv_at c (flat_map ivf_frame frs) -> iv_broken c = true ->
  32 <= f_pos (iv_f c) -> (i = 0 <-> f_pos (iv_f c) = 32) -> 0 <= i ->
  (0 < i -> iv_last_ts c = u64 ((i - 1) * iv_step c)) ->
  forall n, reads (ivf_read alloc) (length frs + n) c
  = map Some (ivf_packets (f_pos (iv_f c)) i (fun i _ => u64 (i * iv_step c)) frs) ++ repeat None n.
Proof.
  induction frs as [|fr frs IH]; intros c i F A B P0 PI Hi L n.
  - cbn [length Nat.add map ivf_packets app]. apply (reads_dead _ iv_dead iv_stay). now apply past_at.
  - inversion F; subst. cbn [flat_map] in A.
    destruct (read_ok fr _ c H1 A) as (c1 & E1 & A1 & P1 & D1 & B1 & L1 & S1).
    cbn [length Nat.add reads ivf_packets map app]. rewrite E1. cbn [fst snd].
    assert (ST : stamp c (fst fr) = u64 (i * iv_step c)).
    { unfold stamp. rewrite B. destruct (Z.ltb_spec 32 (f_pos (iv_f c))).
      - assert (0 < i) by lia. rewrite L by lia. unfold u64. rewrite Zplus_mod_idemp_l. f_equal. ring.
      - assert (i = 0) by (apply PI; lia). subst i. reflexivity. }
    rewrite ST in *. f_equal.
    pose proof (frame_zlen fr) as FL. pose proof (zlen_nonneg _ (snd fr)).
    rewrite (IH c1 (i + 1)); auto; try congruence; try lia.
    + now rewrite P1, S1.
    + intros _. rewrite L1, S1. f_equal. ring.
Qed.

End IVF.

(** ** opening *)
Fixpoint incb (last : Z) (l : list Z) : bool :=
  match l with [] => true | t :: l => (last <? t) && incb t l end.
Lemma incb_ok : forall l last, incb last l = true <-> increasing (last :: l).
Proof.
  induction l as [|t l IH]; intros last; cbn [incb].
  - cbn. tauto.
  - rewrite andb_true_iff, Z.ltb_lt, IH. cbn [increasing]. tauto.
Qed.

Lemma scan_ok : forall frs, Forall ivf_ok frs -> forall fuel n b last f, (length frs < fuel)%nat ->
  at_ f (flat_map ivf_frame frs) -> 0 <= n -> n + zlen frs < 2 ^ 32 ->
  exists last' f', ivf_scan fuel n b last f
    = Ok (n + zlen frs,
          b || negb (if n =? 0 then match map fst frs with [] => true | t :: l => incb t l end
                     else incb last (map fst frs)), last', f')
    /\ f_data f' = f_data f.
Proof.
  induction frs as [|fr frs IH]; intros F fuel n b last f Hf A Hn Hm; (destruct fuel; [cbn in Hf; lia|]);
    cbn [ivf_scan].
  - destruct (fread_short f [] 4 A ltac:(rewrite zlen_nil; lia)) as (f1 & -> & _ & D & _).
    exists last, f1. split; [|exact D]. cbn [map]. rewrite zlen_nil, Z.add_0_r.
    destruct (n =? 0); cbn [incb negb]; now rewrite orb_false_r.
  - inversion F as [|? ? HO HF]; subst. destruct fr as [ts p].
    destruct HO as (HT & HL & _). cbn [fst snd] in *. change (zl p) with (zlen p) in HL.
    cbn [flat_map] in A. unfold ivf_frame in A at 1. cbn [fst snd] in A. rewrite <- !app_assoc in A.
    destruct (fread_at f _ _ 4 A (le_zlen 4 _) ltac:(lia)) as (f1 & -> & A1 & D1 & P1).
    destruct (fread_at f1 _ _ 8 A1 (le_zlen 8 _) ltac:(lia)) as (f2 & -> & A2 & D2 & P2).
    change (zl p) with (zlen p).
    pose proof (rl32_le [] (zlen p) [] ltac:(lia)) as R. cbn [app length] in R. rewrite app_nil_r in R.
    rewrite R, rl64_le by lia.
    destruct (fseek_at f2 _ _ _ A2 eq_refl) as (f3 & -> & A3 & D3 & P3). cbn [snd].
    rewrite zlen_cons in *. pose proof (zlen_nonneg _ frs). rewrite u32_id by lia.
    destruct (IH HF fuel (n + 1) (if z2b n && (ts <=? last) then true else b) ts f3) as (last' & f' & E & D);
      [cbn in Hf; lia|exact A3|lia|lia|].
    exists last', f'. rewrite E. split; [|congruence].
    replace (n + 1 =? 0) with false by lia.
    replace (n + 1 + zlen frs) with (n + (1 + zlen frs)) by lia.
    do 4 f_equal. cbn [map fst incb]. unfold z2b.
    destruct (n =? 0); cbn [negb andb]; [reflexivity|].
    rewrite Z.ltb_antisym. destruct (ts <=? last); cbn [negb andb orb]; [now rewrite orb_true_r|reflexivity].
Qed.

(** every file: opening terminates, and finds at least one frame if there is a
    complete frame header *)
Lemma fread_some : forall f n b f', fread f n = (Some b, f') ->
  0 < n \/ n < 0.
Proof. intros f n b f' E. unfold fread in E. destruct (Z.eqb_spec n 0); [discriminate|lia]. Qed.
Lemma fread_inv : forall f n b f', fread f n = (Some b, f') ->
  f_data f' = f_data f /\ f_pos f' = f_pos f + n /\ f_pos f + n <= zlen (f_data f)
  /\ b = slice (f_data f) (f_pos f) n /\ n <> 0.
Proof.
  intros f n b f' E. unfold fread in E. destruct (Z.eqb_spec n 0); [discriminate|].
  destruct (Z.leb_spec (f_pos f + n) (zlen (f_data f))); [|discriminate].
  injection E as <- <-. cbn. repeat split; auto.
Qed.
Lemma slice_bytes : forall l p n, bytes l -> bytes (slice l p n).
Proof.
  intros l p n B. unfold slice, bytes in *. rewrite Forall_forall in *. intros x Hx. apply B.
  rewrite <- (firstn_skipn (Z.to_nat p) l). apply in_or_app. right.
  rewrite <- (firstn_skipn (Z.to_nat n) (skipn (Z.to_nat p) l)). apply in_or_app. now left.
Qed.

Lemma fread_None_past : forall f n f', fread f n = (None, f') -> 0 < n -> past f' /\ f_data f' = f_data f.
Proof.
  intros f n f' E N. unfold fread in E. replace (n =? 0) with false in E by lia.
  destruct (f_pos f + n <=? zlen (f_data f)); [discriminate|]. injection E as <-.
  unfold past. cbn. split; [lia|reflexivity].
Qed.

Lemma scan_any : forall fuel n b last f, bytes (f_data f) -> 0 <= f_pos f -> 0 <= n < 2 ^ 32 ->
  (0 < fuel)%nat -> zlen (f_data f) - f_pos f < Z.of_nat fuel * 12 -> 12 * n <= f_pos f -> zlen (f_data f) < 2 ^ 32 ->
  exists n' b' last' f', ivf_scan fuel n b last f = Ok (n', b', last', f') /\ n <= n' < 2 ^ 32
    /\ f_data f' = f_data f
    /\ (f_pos f + 12 <= zlen (f_data f) -> n < n').
Proof.
  induction fuel; intros n b last f B Hp Hn H0 Hf HN HL; [lia|].
  cbn [ivf_scan].
  destruct (fread f 4) as [[d|] f1] eqn:E1.
  2: { pose proof E1 as E1'. apply fread_None_past in E1 as [P1 D1]; [|lia].
       exists n, b, last, f1. repeat split; auto; try lia. intros X. exfalso.
       unfold fread in E1'. cbn [Z.eqb] in E1'.
       replace (f_pos f + 4 <=? zlen (f_data f)) with true in E1' by lia. discriminate E1'. }
  apply fread_inv in E1 as (D1 & P1 & L1 & V1 & _).
  destruct (fread f1 8) as [[d2|] f2] eqn:E2.
  2: { pose proof E2 as E2'. apply fread_None_past in E2 as [P2 D2]; [|lia].
       exists n, b, last, f2. repeat split; auto; try lia; try congruence. intros X. exfalso.
       unfold fread in E2'. cbn [Z.eqb] in E2'.
       replace (f_pos f1 + 8 <=? zlen (f_data f1)) with true in E2' by (rewrite D1; lia). discriminate E2'. }
  apply fread_inv in E2 as (D2 & P2 & L2 & V2 & _).
  assert (R : 0 <= rl32 d 0 < 2 ^ 32).
  { apply rl32_range. subst d. now apply slice_bytes. }
  assert (S3 : exists f3, fseek_cur f2 (rl32 d 0) = (true, f3) /\ f_data f3 = f_data f2 /\ f_pos f3 = f_pos f2 + rl32 d 0).
  { unfold fseek_cur, fseek_to. replace (f_pos f2 + rl32 d 0 <? 0) with false by lia. eexists. split; [reflexivity|]. auto. }
  destruct S3 as (f3 & -> & D3 & P3). cbn [snd].
  rewrite D1 in *. rewrite u32_id by lia.
  destruct (IHfuel (n + 1) (if z2b n && (rl64 d2 <=? last) then true else b) (rl64 d2) f3)
    as (n' & b' & last' & f' & E & N & D & _).
  - rewrite D3, D2. exact B.
  - lia.
  - lia.
  - lia.
  - rewrite D3, D2. lia.
  - lia.
  - rewrite D3, D2. lia.
  - exists n', b', last', f'. rewrite E. repeat split; try lia. congruence.
Qed.

(** ** frame rate *)
Lemma gcd_loop_ok : forall k fuel a g, 0 <= a -> 0 < g < 2 ^ Z.of_nat k -> (2 * k + 1 <= fuel)%nat ->
  gcd_loop fuel a g = Ok (Z.gcd a g).
Proof.
  induction k; intros fuel a g Ha Hg Hf.
  { change (2 ^ Z.of_nat 0) with 1 in Hg. lia. }
  destruct fuel as [|[|fuel]]; try lia.
  cbn [gcd_loop]. replace (g =? 0) with false by lia. cbn [negb].
  pose proof (Z.mod_pos_bound a g ltac:(lia)) as M1.
  assert (G1 : Z.gcd a g = Z.gcd g (a mod g)) by (rewrite (Z.gcd_comm g), Z.gcd_mod by lia; apply Z.gcd_comm).
  destruct (Z.eqb_spec (a mod g) 0) as [E|E].
  { rewrite G1, E, Z.gcd_0_r, Z.abs_eq by lia. reflexivity. }
  replace (a mod g =? 0) with false by lia. cbn [negb].
  set (r := a mod g) in *. pose proof (Z.mod_pos_bound g r ltac:(lia)) as M2.
  assert (G2 : Z.gcd g r = Z.gcd r (g mod r)) by (rewrite (Z.gcd_comm r), Z.gcd_mod by lia; apply Z.gcd_comm).
  destruct (Z.eqb_spec (g mod r) 0) as [E2|E2].
  { rewrite G1, G2, E2, Z.gcd_0_r, Z.abs_eq by lia. reflexivity. }
  rewrite IHk; [now rewrite G1, G2|lia| |lia].
  replace (Z.of_nat (S k)) with (1 + Z.of_nat k) in Hg by lia. rewrite Z.pow_add_r in Hg by lia.
  change (2 ^ 1) with 2 in Hg.
  assert (2 * (g mod r) < g).
  { pose proof (Z.div_mod g r ltac:(lia)) as DM.
    assert (1 <= g / r) by (apply Z.div_le_lower_bound; lia). nia. }
  lia.
Qed.

Lemma lor_bound : forall a b k, 0 <= k -> 0 <= a < 2 ^ k -> 0 <= b < 2 ^ k -> 0 <= Z.lor a b < 2 ^ k.
Proof.
  intros a b k Hk Ha Hb. split; [apply Z.lor_nonneg; lia|].
  destruct (Z.eq_dec (Z.lor a b) 0) as [->|N]; [lia|].
  assert (0 < Z.lor a b) by (pose proof (proj2 (Z.lor_nonneg a b) ltac:(lia)); lia).
  apply Z.log2_lt_pow2; [lia|]. rewrite Z.log2_lor by lia.
  destruct (Z.eq_dec k 0) as [->|K].
  { change (2 ^ 0) with 1 in *. assert (a = 0) by lia. assert (b = 0) by lia. subst. exfalso. apply N. reflexivity. }
  apply Z.max_lub_lt.
  - destruct (Z.eq_dec a 0) as [->|]; [cbn; lia|]. apply Z.log2_lt_pow2; lia.
  - destruct (Z.eq_dec b 0) as [->|]; [cbn; lia|]. apply Z.log2_lt_pow2; lia.
Qed.

(** both fit in 32 bits when their bitwise or does *)
Lemma lor_small : forall a b, 0 <= a -> 0 <= b -> Z.lor a b < 2 ^ 32 -> a < 2 ^ 32 /\ b < 2 ^ 32.
Proof.
  intros a b Ha Hb H.
  assert (N : 0 <= Z.lor a b) by (apply Z.lor_nonneg; lia).
  assert (L : Z.log2 (Z.lor a b) < 32).
  { destruct (Z.eq_dec (Z.lor a b) 0) as [->|]; [cbn; lia|]. apply Z.log2_lt_pow2; lia. }
  rewrite Z.log2_lor in L by lia.
  split; (match goal with |- ?x < _ => destruct (Z.eq_dec x 0) as [->|]; [lia|] end;
          apply Z.log2_lt_pow2; lia).
Qed.

Lemma halve_ok : forall fuel a b, 0 <= a < 2 ^ (32 + Z.of_nat fuel) -> 0 <= b < 2 ^ (32 + Z.of_nat fuel) ->
  exists a' b', halve_loop fuel a b = Ok (a', b') /\ 0 <= a' < 2 ^ 32 /\ 0 <= b' < 2 ^ 32
    /\ (a < 2 ^ 32 -> b < 2 ^ 32 -> a' = a /\ b' = b).
Proof.
  induction fuel; intros a b Ha Hb; cbn [halve_loop]; unfold UINT_MAX.
  - change (32 + Z.of_nat 0) with 32 in *. pose proof (lor_bound a b 32 ltac:(lia) Ha Hb).
    replace (Z.lor a b <=? 4294967295) with true by lia. exists a, b. auto.
  - destruct (Z.leb_spec (Z.lor a b) 4294967295) as [H|H].
    + exists a, b. destruct (lor_small a b) as [A B]; try lia. repeat split; auto; lia.
    + assert (P : 2 ^ (32 + Z.of_nat (S fuel)) = 2 * 2 ^ (32 + Z.of_nat fuel)).
      { replace (32 + Z.of_nat (S fuel)) with (1 + (32 + Z.of_nat fuel)) by lia.
        rewrite Z.pow_add_r by lia. reflexivity. }
      rewrite P in *. rewrite !shiftr_div by lia. change (2 ^ 1) with 2.
      destruct (IHfuel (a / 2) (b / 2)) as (a' & b' & E & A & B & _).
      * split; [apply Z.div_pos; lia|apply Z.div_lt_upper_bound; lia].
      * split; [apply Z.div_pos; lia|apply Z.div_lt_upper_bound; lia].
      * exists a', b'. split; [exact E|]. split; [exact A|]. split; [exact B|]. intros A1 B1; exfalso;
          pose proof (lor_bound a b 32 ltac:(lia) ltac:(lia) ltac:(lia)); lia.
Qed.

Lemma fps_ok : forall t0 t1 n d, 0 <= t0 < 2 ^ 32 -> 0 <= t1 < 2 ^ 32 -> 0 <= n < 2 ^ 32 -> 0 <= d < 2 ^ 32 ->
  exists a b, ivf_fps t0 t1 n d = Ok (a, b) /\ 0 <= a < 2 ^ 32 /\ 0 <= b < 2 ^ 32
  /\ (t0 * n = 0 \/ t1 * d = 0 -> a = 0 /\ b = 0)
  /\ (t0 * n <> 0 -> t1 * d <> 0 ->
      let g := Z.gcd (t0 * n) (t1 * d) in
      t0 * n / g < 2 ^ 32 -> t1 * d / g < 2 ^ 32 -> a = t0 * n / g /\ b = t1 * d / g).
Proof.
  intros t0 t1 n d H0 H1 Hn Hd. unfold ivf_fps.
  assert (B0 : 0 <= t0 * n < 2 ^ 64) by nia. assert (B1 : 0 <= t1 * d < 2 ^ 64) by nia.
  rewrite !u64_id by lia. set (x := t0 * n) in *. set (y := t1 * d) in *. clearbody x y.
  unfold z2b. destruct (Z.eqb_spec x 0) as [Ex|Ex]; cbn [negb andb obind].
  { rewrite Ex. exists 0, 0. repeat split; auto; lia. }
  destruct (Z.eqb_spec y 0) as [Ey|Ey]; cbn [negb andb obind].
  { rewrite Ey, andb_false_r. exists 0, 0. repeat split; auto; lia. }
  rewrite (gcd_loop_ok 64 200 y x) by lia. cbn [obind].
  rewrite (Z.gcd_comm y x). set (g := Z.gcd x y).
  assert (Hg : 0 < g).
  { pose proof (Z.gcd_nonneg x y). assert (g <> 0) by (unfold g; intros E; apply Z.gcd_eq_0_l in E; lia). lia. }
  replace (g =? 0) with false by lia. cbn [negb].
  assert (Dx : (g | x)) by apply Z.gcd_divide_l. assert (Dy : (g | y)) by apply Z.gcd_divide_r.
  assert (Qx : 0 < x / g <= x).
  { destruct Dx as [q Dx]. rewrite Dx at 1 2. rewrite Z.div_mul by lia. nia. }
  assert (Qy : 0 < y / g <= y).
  { destruct Dy as [q Dy]. rewrite Dy at 1 2. rewrite Z.div_mul by lia. nia. }
  assert (2 ^ 64 <= 2 ^ (32 + Z.of_nat 64)) by (apply Z.pow_le_mono_r; lia).
  destruct (halve_ok 64 (x / g) (y / g)) as (a & b & E & A & B & X); try lia.
  rewrite E. cbn [obind].
  destruct (Z.eqb_spec a 0) as [Ea|Ea]; cbn [negb andb].
  { exists 0, 0. repeat split; auto; try lia; intros; exfalso; destruct X; lia. }
  destruct (Z.eqb_spec b 0) as [Eb|Eb]; cbn [negb andb].
  { exists 0, 0. repeat split; auto; try lia; intros; exfalso; destruct X; lia. }
  rewrite !u32_id by lia. exists a, b. repeat split; auto; try lia; intros; apply X; assumption.
Qed.

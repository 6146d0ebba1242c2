(** Opening, truncating and seeking in IVF files. *)
From Coq Require Import ZArith List Bool Lia Znumtheory.
From Verif Require Import Base.CInt Base.Lemmas Base.Finite Tools.Input Tools.InputSpec Tools.InputProofs
  Tools.IvfProofs Tools.Md5Proofs.
Import ListNotations.
Open Scope Z_scope.
Open Scope outcome_scope.

Section IVF.
Variable alloc : Z -> bool.

(** ** states *)
Definition istamp (c : ivf) : Z -> Z -> Z :=
  fun i ts => if iv_broken c then u64 (i * iv_step c) else ts.
(** [c] is about to read frame number [i], [frs] are the frames left *)
Definition iv_inv (c : ivf) (i : Z) (frs : list (Z * list Z)) : Prop :=
  Forall ivf_ok frs /\ iv_at c (flat_map ivf_frame frs) /\ 0 <= i
  /\ 32 <= f_pos (iv_f c) /\ (i = 0 <-> f_pos (iv_f c) = 32)
  /\ (iv_broken c = true -> 0 < i -> iv_last_ts c = u64 ((i - 1) * iv_step c)).

Lemma inv_reads : forall c i frs n, (forall n, 0 < n < 2 ^ 32 -> alloc n = true) -> iv_inv c i frs ->
  reads (ivf_read alloc) (length frs + n) c
  = map Some (ivf_packets (f_pos (iv_f c)) i (istamp c) frs) ++ repeat None n.
Proof.
  intros c i frs n AL (F & A & Hi & P & PI & L). unfold istamp.
  destruct (iv_broken c) eqn:B.
  - apply reads_broken; auto.
  - apply (reads_plain alloc AL); auto.
Qed.

Lemma stamp_istamp : forall c i frs ts, iv_inv c i frs -> stamp c ts = istamp c i ts.
Proof.
  intros c i frs ts (F & A & Hi & P & PI & L). unfold stamp, istamp.
  destruct (iv_broken c); [|reflexivity].
  destruct (Z.ltb_spec 32 (f_pos (iv_f c))).
  - rewrite L by lia. unfold u64. rewrite Zplus_mod_idemp_l. f_equal. ring.
  - assert (i = 0) by (apply PI; lia). subst i. reflexivity.
Qed.

(** ** opening *)
Lemma header_length : forall v hl w h t0 t1 d u, zlen (ivf_header v hl w h t0 t1 d u) = 32.
Proof. reflexivity. Qed.

Lemma header_fields : forall v hl w h t0 t1 d u, 0 <= t0 < 2 ^ 32 -> 0 <= t1 < 2 ^ 32 -> 0 <= d < 2 ^ 32 ->
  let hd := ivf_header v hl w h t0 t1 d u in
  mem_eq hd 0 (firstn 4 ivf_magic) = Ok true /\ mem_eq hd 8 (skipn 8 ivf_magic) = Ok true
  /\ rl32 hd 16 = t0 /\ rl32 hd 20 = t1 /\ rl32 hd 24 = d.
Proof.
  intros v hl w h t0 t1 d u H0 H1 Hd hd.
  split; [reflexivity|]. split; [reflexivity|].
  set (p16 := [68; 75; 73; 70] ++ le 2 v ++ le 2 hl ++ [65; 86; 48; 49] ++ le 2 w ++ le 2 h).
  assert (E16 : hd = p16 ++ le 4 t0 ++ (le 4 t1 ++ le 4 d ++ le 4 u)) by reflexivity.
  assert (E20 : hd = (p16 ++ le 4 t0) ++ le 4 t1 ++ (le 4 d ++ le 4 u)) by reflexivity.
  assert (E24 : hd = (p16 ++ le 4 t0 ++ le 4 t1) ++ le 4 d ++ le 4 u) by reflexivity.
  split; [|split].
  - rewrite E16. apply (rl32_le p16). lia.
  - rewrite E20. apply (rl32_le (p16 ++ le 4 t0)). lia.
  - rewrite E24. apply (rl32_le (p16 ++ le 4 t0 ++ le 4 t1)). lia.
Qed.

Lemma frames_length : forall frs, (length frs <= length (flat_map ivf_frame frs))%nat.
Proof.
  induction frs as [|fr frs IH]; [auto|]. cbn [flat_map length]. rewrite app_length.
  pose proof (frame_zlen fr). unfold zlen in *. lia.
Qed.

Definition brokenb (frs : list (Z * list Z)) : bool :=
  negb (match map fst frs with [] => true | t :: l => incb t l end).
Lemma brokenb_ok : forall frs, brokenb frs = false <-> increasing (map fst frs).
Proof.
  intros frs. unfold brokenb. rewrite negb_false_iff. destruct (map fst frs) as [|t l].
  - cbn. tauto.
  - apply incb_ok.
Qed.

Lemma open_ok : forall v hl w h t0 t1 d u frs, 0 <= t0 < 2 ^ 32 -> 0 <= t1 < 2 ^ 32 -> 0 <= d < 2 ^ 32 ->
  Forall ivf_ok frs -> frs <> [] -> zlen frs < 2 ^ 32 ->
  exists c info, ivf_open (ivf_header v hl w h t0 t1 d u ++ flat_map ivf_frame frs) = Ok (Some (c, info))
    /\ f_data (iv_f c) = ivf_header v hl w h t0 t1 d u ++ flat_map ivf_frame frs
    /\ f_pos (iv_f c) = 32 /\ iv_last_ts c = 0 /\ iv_step c = d / zlen frs /\ iv_broken c = brokenb frs
    /\ iv_inv c 0 frs
    /\ in_frames info = zlen frs /\ in_timebase info = (t0, t1) /\ Ok (in_fps info) = ivf_fps t0 t1 (zlen frs) d.
Proof.
  intros v hl w h t0 t1 d u frs H0 H1 Hd F N Hn.
  set (hd := ivf_header v hl w h t0 t1 d u).
  destruct (header_fields v hl w h t0 t1 d u H0 H1 Hd) as (M1 & M2 & R1 & R2 & R3). fold hd in M1, M2, R1, R2, R3.
  unfold ivf_open.
  destruct (fread_at (fopen (hd ++ flat_map ivf_frame frs)) hd (flat_map ivf_frame frs) 32
              (fopen_at _) (header_length v hl w h t0 t1 d u) ltac:(lia)) as (f1 & -> & A1 & D1 & P1).
  rewrite M1, M2. cbn [obind negb]. rewrite R1, R2, R3.
  pose proof (frames_length frs).
  destruct (scan_ok frs F (S (length (hd ++ flat_map ivf_frame frs))) 0 false 0 f1) as (last' & f' & E & D);
    [rewrite app_length; lia|exact A1|lia|lia|].
  rewrite E. cbn [obind Z.eqb orb]. rewrite Z.add_0_l.
  assert (0 < zlen frs) by (destruct frs; [congruence|rewrite zlen_cons; pose proof (zlen_nonneg _ frs); lia]).
  destruct (fps_ok t0 t1 (zlen frs) d H0 H1 ltac:(lia) Hd) as (a & b & EF & _).
  rewrite EF. cbn [obind]. replace (zlen frs =? 0) with false by lia. cbn [negb].
  eexists. eexists. split; [reflexivity|]. cbn. fold (brokenb frs).
  assert (DD : f_data f' = hd ++ flat_map ivf_frame frs) by (rewrite D, D1; reflexivity).
  split; [exact DD|]. do 4 (split; [reflexivity|]).
  split; [|auto].
  unfold iv_inv, iv_at. cbn. split; [exact F|]. split.
  - exists hd. cbn. split; [exact DD|reflexivity].
  - repeat split; auto; try lia.
Qed.

(** ** any file *)
Lemma slice_zlen : forall (l : list Z) p n, 0 <= p -> 0 <= n -> p + n <= zlen l -> zlen (slice l p n) = n.
Proof.
  intros l p n Hp Hn H. unfold slice, zlen in *. rewrite firstn_length, skipn_length. lia.
Qed.

Lemma mem_eq_defined : forall r data p, 0 <= p -> p + zlen r <= zlen data -> exists b, mem_eq data p r = Ok b.
Proof.
  induction r as [|x r IH]; intros data p Hp H; cbn [mem_eq]; [eauto|].
  rewrite zlen_cons in H. pose proof (zlen_nonneg _ r).
  unfold rd_at. replace (p <? 0) with false by lia.
  destruct (nth_error data (Z.to_nat p)) eqn:E.
  - cbn [obind]. destruct (IH data (p + 1) ltac:(lia) ltac:(lia)) as (b & ->). cbn. eauto.
  - apply nth_error_None in E. unfold zlen in H. lia.
Qed.

Lemma open_defined : forall l, bytes l -> 44 <= zlen l < 2 ^ 32 -> ivf_open l <> Undef.
Proof.
  intros l B L1. unfold ivf_open.
  destruct (fread (fopen l) 32) as [[hdr|] f1] eqn:E1; [|discriminate].
  apply fread_inv in E1 as (D1 & P1 & _ & V1 & _). cbn [fopen f_data f_pos] in D1, P1, V1.
  assert (HL : zlen hdr = 32).
  { subst hdr. apply slice_zlen; lia. }
  destruct (mem_eq_defined (firstn 4 ivf_magic) hdr 0) as (b & ->); [lia|rewrite HL; unfold zlen; cbn [ivf_magic firstn skipn length]; lia|].
  cbn [obind]. destruct b; cbn [negb]; [|discriminate].
  destruct (mem_eq_defined (skipn 8 ivf_magic) hdr 8) as (b & ->); [lia|rewrite HL; unfold zlen; cbn [ivf_magic firstn skipn length]; lia|].
  cbn [obind]. destruct b; cbn [negb]; [|discriminate].
  destruct (scan_any (S (length l)) 0 false 0 f1) as (n & b & last & f & E & N & D & X).
  - now rewrite D1.
  - lia.
  - lia.
  - lia.
  - rewrite D1. unfold zlen. lia.
  - lia.
  - rewrite D1. lia.
  - rewrite E. cbn [obind].
    assert (0 < n) by (apply X; rewrite D1; lia).
    assert (BH : bytes hdr) by (subst hdr; apply (slice_bytes l 0 32); exact B).
    destruct (fps_ok (rl32 hdr 16) (rl32 hdr 20) n (rl32 hdr 24)) as (x & y & EF & _);
      try (apply rl32_range; exact BH); [lia|].
    rewrite EF. cbn [obind]. replace (n =? 0) with false by lia. cbn [negb]. discriminate.
Qed.

(** *** a packet is a frame of the file *)
Lemma le_rl32 : forall b, bytes b -> zlen b = 4 -> le 4 (rl32 b 0) = b.
Proof.
  intros b B L. destruct b as [|b0 [|b1 [|b2 [|b3 [|b4 b]]]]]; try (unfold zlen in L; cbn in L; lia).
  unfold bytes in B. inversion B as [|? ? H0 B1]; subst. inversion B1 as [|? ? H1 B2]; subst.
  inversion B2 as [|? ? H2 B3]; subst. inversion B3 as [|? ? H3 _]; subst.
  unfold rl32. cbn [nth Nat.add]. rewrite rl32_bytes by auto.
  cbn [le].
  repeat f_equal.
  - rewrite Z.mul_comm, Z_mod_plus_full. apply Z.mod_small; lia.
  - rewrite Z.mul_comm, Z.div_add, (Z.div_small b0), Z.add_0_l by lia.
    rewrite Z.mul_comm, Z_mod_plus_full. apply Z.mod_small; lia.
  - rewrite Z.mul_comm, Z.div_add, (Z.div_small b0), Z.add_0_l by lia.
    rewrite Z.mul_comm, Z.div_add, (Z.div_small b1), Z.add_0_l by lia.
    rewrite Z.mul_comm, Z_mod_plus_full. apply Z.mod_small; lia.
  - rewrite Z.mul_comm, Z.div_add, (Z.div_small b0), Z.add_0_l by lia.
    rewrite Z.mul_comm, Z.div_add, (Z.div_small b1), Z.add_0_l by lia.
    rewrite Z.mul_comm, Z.div_add, (Z.div_small b2), Z.add_0_l by lia.
    apply Z.mod_small; lia.
Qed.

Lemma slice_split : forall (l : list Z) p a b, 0 <= p -> 0 <= a -> 0 <= b ->
  slice l p (a + b) = slice l p a ++ slice l (p + a) b.
Proof.
  intros l p a b Hp Ha Hb. unfold slice. rewrite !Z2Nat.inj_add by lia.
  rewrite firstn_plus. do 2 f_equal. rewrite <- skipn_skipn'. reflexivity.
Qed.

Lemma le8_rl64 : forall b, bytes b -> zlen b = 8 -> le 8 (rl64 b) = b.
Proof.
  intros b B L.
  assert (E : b = firstn 4 b ++ skipn 4 b) by (symmetry; apply firstn_skipn).
  assert (L1 : zlen (firstn 4 b) = 4) by (unfold zlen in *; rewrite firstn_length; lia).
  assert (L2 : zlen (skipn 4 b) = 4) by (unfold zlen in *; rewrite skipn_length; lia).
  assert (B1 : bytes (firstn 4 b)) by (unfold bytes in *; rewrite E in B; apply Forall_app in B; tauto).
  assert (B2 : bytes (skipn 4 b)) by (unfold bytes in *; rewrite E in B; apply Forall_app in B; tauto).
  pose proof (le_rl32 _ B1 L1) as R1. pose proof (le_rl32 _ B2 L2) as R2.
  pose proof (rl32_range (firstn 4 b) 0 B1) as N1. pose proof (rl32_range (skipn 4 b) 0 B2) as N2.
  assert (V : rl64 b = rl32 (skipn 4 b) 0 * 2 ^ 32 + rl32 (firstn 4 b) 0).
  { unfold rl64. replace (rl32 b 4) with (rl32 (skipn 4 b) 0).
    - replace (rl32 b 0) with (rl32 (firstn 4 b) 0).
      + rewrite shiftl_mul by lia. rewrite u64_id by lia. rewrite lor_shift_add by lia. reflexivity.
      + destruct b as [|b0 [|b1 [|b2 [|b3 b]]]]; try (unfold zlen in L; cbn in L; lia). reflexivity.
    - destruct b as [|b0 [|b1 [|b2 [|b3 b]]]]; try (unfold zlen in L; cbn in L; lia). reflexivity. }
  rewrite V. change 8%nat with (4 + 4)%nat. rewrite le_split. change (256 ^ Z.of_nat 4) with (2 ^ 32).
  rewrite <- le_mod. change (256 ^ Z.of_nat 4) with (2 ^ 32).
  rewrite Z.add_comm, Z_mod_plus_full, Z.mod_small by lia.
  rewrite Z.div_add, Z.div_small, Z.add_0_l by lia. now rewrite R1, R2, <- E.
Qed.

Lemma read_slice : forall c p off ts c', bytes (f_data (iv_f c)) -> 0 <= f_pos (iv_f c) ->
  ivf_read alloc c = (Some (p, off, ts), c') ->
  off = f_pos (iv_f c) /\ f_data (iv_f c') = f_data (iv_f c)
  /\ exists stored, (iv_broken c = false -> stored = ts)
     /\ slice (f_data (iv_f c)) off (zlen (ivf_frame (stored, p))) = ivf_frame (stored, p)
     /\ f_pos (iv_f c') = off + zlen (ivf_frame (stored, p)) /\ f_pos (iv_f c') <= zlen (f_data (iv_f c)).
Proof.
  intros c p off ts c' B P0 E. unfold ivf_read, ivf_read_header in E.
  destruct (fread (iv_f c) 4) as [[d1|] f1] eqn:E1; [|discriminate E].
  apply fread_inv in E1 as (D1 & P1 & L1 & V1 & _).
  assert (X : exists off' ts' f2 (sz : Z), sz = rl32 d1 0 /\ off' = f_pos (iv_f c)
     /\ f_data f2 = f_data (iv_f c) /\ f_pos f2 = f_pos (iv_f c) + 12
     /\ (f_pos f2 <= zlen (f_data (iv_f c)) -> iv_broken c = false ->
           rl64 (slice (f_data (iv_f c)) (f_pos (iv_f c) + 4) 8) = ts')
     /\ match fread f2 sz with
        | (Some d, f3) => p = d /\ off = off' /\ ts = ts' /\ iv_f c' = f3
        | _ => False
        end).
  { destruct (iv_broken c) eqn:BR; cbn [negb] in E.
    - destruct (fseek_cur f1 8) as [ok f2] eqn:E2. destruct ok; [|discriminate E].
      unfold fseek_cur, fseek_to in E2. destruct (f_pos f1 + 8 <? 0); [discriminate E2|]. injection E2 as <-.
      cbn [iv_f] in E. destruct (alloc (rl32 d1 0)); cbn [negb] in E; [|discriminate E].
      match type of E with context [fread ?f (rl32 d1 0)] =>
        exists (f_pos (iv_f c)); eexists; exists f, (rl32 d1 0) end.
      split; [reflexivity|]. split; [reflexivity|].
      split; [|split; [|split; [|]]].
      4: destruct (fread _ (rl32 d1 0)) as [[d|] f3]; [|discriminate E]; injection E as <- <- <- <-; auto.
      + cbn [f_data]. exact D1.
      + cbn [f_pos]. lia.
      + discriminate.
    - destruct (fread f1 8) as [[d2|] f2] eqn:E2; [|discriminate E].
      apply fread_inv in E2 as (D2 & P2 & L2 & V2 & _).
      cbn [iv_f] in E. destruct (alloc (rl32 d1 0)); cbn [negb] in E; [|discriminate E].
      match type of E with context [fread ?f (rl32 d1 0)] =>
        exists (f_pos (iv_f c)); eexists; exists f, (rl32 d1 0) end.
      split; [reflexivity|]. split; [reflexivity|].
      split; [|split; [|split; [|]]].
      4: destruct (fread _ (rl32 d1 0)) as [[d|] f3]; [|discriminate E]; injection E as <- <- <- <-; auto.
      + congruence.
      + lia.
      + intros _ _. rewrite V2, D1, P1. reflexivity. }
  destruct X as (off' & ts' & f2 & sz & SZ & -> & D2 & P2 & TS & X).
  destruct (fread f2 sz) as [[d|] f3] eqn:E3; [|contradiction]. destruct X as (-> & -> & -> & C').
  apply fread_inv in E3 as (D3 & P3 & L3 & V3 & N3).
  assert (R : 0 <= sz < 2 ^ 32) by (subst sz d1; apply rl32_range; now apply slice_bytes).
  rewrite D2, P2 in *.
  split; [reflexivity|]. split; [congruence|].
  assert (ZD : zlen d = sz) by (subst d; apply slice_zlen; lia).
  exists (rl64 (slice (f_data (iv_f c)) (f_pos (iv_f c) + 4) 8)).
  rewrite frame_zlen. cbn [snd]. rewrite ZD, C', P3.
  split; [intros; apply TS; [lia|assumption]|].
  split; [|lia].
  replace (12 + sz) with (4 + (8 + sz)) by lia.
  rewrite slice_split by lia. rewrite (slice_split _ (f_pos (iv_f c) + 4)) by lia.
  unfold ivf_frame. cbn [fst snd]. change (zl d) with (zlen d). rewrite ZD, SZ.
  rewrite V1, le_rl32 by (try (now apply slice_bytes); apply slice_zlen; lia).
  rewrite le8_rl64 by (try (now apply slice_bytes); apply slice_zlen; lia).
  f_equal. f_equal. rewrite V3. f_equal; [lia|]. now rewrite SZ, V1.
Qed.

(** *** reading a truncated file *)
Definition iv_sim (k : nat) (s t : ivf) : Prop :=
  sim k (iv_f s) (iv_f t) /\ iv_broken t = iv_broken s /\ iv_last_ts t = iv_last_ts s /\ iv_step t = iv_step s.

Definition iphase (k : nat) {A} (x y : option A * ivf) : Prop :=
  (fst y = fst x /\ iv_sim k (snd x) (snd y)) \/ (fst y = None /\ iv_dead (snd y)).

Lemma read_header_sim : forall k s t, iv_sim k s t -> iphase k (ivf_read_header s) (ivf_read_header t).
Proof.
  intros k s t (S & B & L & ST). unfold ivf_read_header. rewrite B, L, ST.
  assert (P : f_pos (iv_f t) = f_pos (iv_f s)) by apply S.
  destruct (fread_sim k _ _ 4 S ltac:(lia)) as [(r & f1 & g1 & -> & -> & S1 & _)|(g1 & -> & P1)].
  2: { right. cbn. auto. }
  destruct r as [d|]; [|left; cbn; unfold iv_sim; cbn; auto].
  destruct (iv_broken s); cbn [negb].
  - destruct (fseek_sim k f1 g1 8 S1) as [X Y].
    destruct (fseek_cur f1 8) as [a f2], (fseek_cur g1 8) as [b g2]. cbn [fst snd] in *. subst b. rewrite P.
    left. destruct a; cbn; unfold iv_sim; cbn; auto.
  - destruct (fread_sim k _ _ 8 S1 ltac:(lia)) as [(r & f2 & g2 & -> & -> & S2 & _)|(g2 & -> & P2)].
    2: { right. cbn. auto. }
    left. rewrite P. destruct r; cbn; unfold iv_sim; cbn; auto.
Qed.

Lemma header_range : forall c r c', bytes (f_data (iv_f c)) -> ivf_read_header c = (Some r, c') ->
  0 <= fst (fst r) < 2 ^ 32.
Proof.
  intros c r c' B E. unfold ivf_read_header in E.
  destruct (fread (iv_f c) 4) as [[d|] f1] eqn:E1; [|discriminate E].
  apply fread_inv in E1 as (D1 & P1 & L1 & V1 & _).
  assert (R : 0 <= rl32 d 0 < 2 ^ 32) by (apply rl32_range; subst d; now apply slice_bytes).
  destruct (negb (iv_broken c)).
  - destruct (fread f1 8) as [[d2|] f2]; [|discriminate E]. injection E as <- _. exact R.
  - destruct (fseek_cur f1 8) as [[|] f2]; [|discriminate E]. injection E as <- _. exact R.
Qed.

Definition iv_simb (k : nat) (s t : ivf) : Prop := iv_sim k s t /\ bytes (f_data (iv_f s)).

Lemma read_data : forall c, f_data (iv_f (snd (ivf_read alloc c))) = f_data (iv_f c).
Proof.
  intros c. unfold ivf_read.
  assert (H : f_data (iv_f (snd (ivf_read_header c))) = f_data (iv_f c)).
  { unfold ivf_read_header.
    assert (FR : forall f n, f_data (snd (fread f n)) = f_data f).
    { intros f n. unfold fread. destruct (n =? 0); [reflexivity|].
      destruct (f_pos f + n <=? zlen (f_data f)); reflexivity. }
    pose proof (FR (iv_f c) 4) as F1. destruct (fread (iv_f c) 4) as [[d|] f1]; [|exact F1]. cbn [snd] in F1.
    destruct (negb (iv_broken c)).
    - pose proof (FR f1 8) as F2. destruct (fread f1 8) as [[d2|] f2]; cbn in *; congruence.
    - unfold fseek_cur, fseek_to. destruct (f_pos f1 + 8 <? 0); cbn; congruence. }
  destruct (ivf_read_header c) as [[[[sz off] ts]|] c1]; [|exact H]. cbn [snd] in H.
  destruct (alloc sz); cbn [negb]; [|exact H].
  unfold fread. destruct (sz =? 0); [exact H|].
  destruct (f_pos (iv_f c1) + sz <=? zlen (f_data (iv_f c1))); exact H.
Qed.

Lemma iv_step_sim : forall k s t, iv_simb k s t ->
  (fst (ivf_read alloc t) = fst (ivf_read alloc s) /\ iv_simb k (snd (ivf_read alloc s)) (snd (ivf_read alloc t)))
  \/ (fst (ivf_read alloc t) = None /\ iv_dead (snd (ivf_read alloc t))).
Proof.
  intros k s t [H B].
  assert (G : iphase k (ivf_read alloc s) (ivf_read alloc t)).
  { unfold ivf_read. pose proof (header_range s) as HR.
    destruct (read_header_sim k s t H) as [[E S]|[E D]];
      destruct (ivf_read_header s) as [x s1], (ivf_read_header t) as [y t1]; cbn [fst snd] in *; subst y.
    2: { right; auto. }
    destruct x as [[[sz off] ts]|]; [|left; auto].
    specialize (HR _ _ B eq_refl). cbn [fst] in HR.
    destruct (alloc sz); cbn [negb]; [|left; auto].
    destruct S as (S & B1 & L1 & ST1).
    destruct (fread_sim k _ _ sz S ltac:(lia)) as [(r & f2 & g2 & -> & -> & S2 & _)|(g2 & -> & P2)].
    - left. destruct r; cbn; unfold iv_sim; cbn; auto.
    - right. cbn. auto. }
  destruct G as [[E S]|[E D]]; [left|right; auto].
  split; [exact E|]. split; [exact S|]. now rewrite read_data.
Qed.

Lemma ivf_truncated : forall k c n, 0 <= f_pos (iv_f c) -> bytes (f_data (iv_f c)) ->
  exists m, (m <= n)%nat /\
  reads (ivf_read alloc) n
    {| iv_f := {| f_data := firstn k (f_data (iv_f c)); f_pos := f_pos (iv_f c); f_eof := f_eof (iv_f c) |};
       iv_broken := iv_broken c; iv_last_ts := iv_last_ts c; iv_step := iv_step c |}
  = firstn m (reads (ivf_read alloc) n c) ++ repeat None (n - m).
Proof.
  intros k c n H B.
  apply (reads_sim (ivf_read alloc) (iv_simb k) iv_dead (iv_step_sim k) (iv_stay alloc)).
  unfold iv_simb, iv_sim, sim. auto 10.
Qed.

(** *** opening a truncated file *)
Lemma scan_broken : forall fuel n b last f n' b' last' f',
  ivf_scan fuel n b last f = Ok (n', b', last', f') -> b = true -> b' = true.
Proof.
  induction fuel; intros n b last f n' b' last' f' E Hb; [discriminate E|]. cbn [ivf_scan] in E.
  destruct (fread f 4) as [[d|] f1]; [|injection E as _ <- _ _; exact Hb].
  destruct (fread f1 8) as [[d2|] f2]; [|injection E as _ <- _ _; exact Hb].
  apply IHfuel in E; [exact E|]. destruct (z2b n && (rl64 d2 <=? last)); auto.
Qed.

Lemma scan_trunc : forall k fuel n b last f g fuel' n1 last1 f1 n2 b2 last2 f2, sim k f g ->
  ivf_scan fuel n b last f = Ok (n1, false, last1, f1) ->
  ivf_scan fuel' n b last g = Ok (n2, b2, last2, f2) -> b2 = false.
Proof.
  intros k. induction fuel; intros n b last f g fuel' n1 last1 f1 n2 b2 last2 f2 S E1 E2; [discriminate E1|].
  destruct fuel'; [discriminate E2|].
  assert (BF : b = false).
  { destruct b; [|reflexivity]. now apply scan_broken in E1. }
  cbn [ivf_scan] in E1, E2.
  destruct (fread_sim k f g 4 S ltac:(lia)) as [(r & f3 & g3 & Ef & Eg & S3 & _)|(g3 & Eg & _)];
    rewrite Eg in E2; [|injection E2 as _ <- _ _; exact BF].
  rewrite Ef in E1. destruct r as [d|]; [|injection E2 as _ <- _ _; exact BF].
  destruct (fread_sim k f3 g3 8 S3 ltac:(lia)) as [(r & f4 & g4 & Ef2 & Eg2 & S4 & _)|(g4 & Eg2 & _)];
    rewrite Eg2 in E2; [|injection E2 as _ <- _ _; exact BF].
  rewrite Ef2 in E1. destruct r as [d2|]; [|injection E2 as _ <- _ _; exact BF].
  eapply IHfuel; [|exact E1|exact E2]. now apply fseek_sim.
Qed.

(** ** seeking *)
(** [c] has passed [done] and has [rest] before it; [hd] is the file header *)
Definition iv_mid (hd : list Z) (c : ivf) (done rest : list (Z * list Z)) : Prop :=
  zlen hd = 32 /\ Forall ivf_ok (done ++ rest)
  /\ f_data (iv_f c) = hd ++ flat_map ivf_frame (done ++ rest)
  /\ f_pos (iv_f c) = 32 + zlen (flat_map ivf_frame done)
  /\ (forall j fr, nth_error done j = Some fr -> istamp c (Z.of_nat j) (fst fr) <= iv_last_ts c)
  /\ (iv_broken c = true -> done <> [] -> iv_last_ts c = u64 ((zlen done - 1) * iv_step c)).
(** time stamps do not go back *)
Definition iv_mono (c : ivf) (frs : list (Z * list Z)) : Prop :=
  forall i j a b, (i <= j)%nat -> nth_error frs i = Some a -> nth_error frs j = Some b ->
  istamp c (Z.of_nat i) (fst a) <= istamp c (Z.of_nat j) (fst b).

Lemma frames_pos : forall frs, frs <> [] -> 0 < zlen (flat_map ivf_frame frs).
Proof.
  intros [|fr frs] H; [congruence|]. cbn [flat_map]. rewrite zlen_app, frame_zlen.
  pose proof (zlen_nonneg _ (snd fr)). pose proof (zlen_nonneg _ (flat_map ivf_frame frs)). lia.
Qed.

Lemma mid_inv : forall hd c done rest, iv_mid hd c done rest -> iv_inv c (zlen done) rest.
Proof.
  intros hd c done rest (HL & F & D & P & PS & L). unfold iv_inv, iv_at.
  apply Forall_app in F as [F1 F2].
  pose proof (zlen_nonneg _ (flat_map ivf_frame done)). pose proof (zlen_nonneg _ done).
  split; [exact F2|]. split.
  { exists (hd ++ flat_map ivf_frame done). rewrite zlen_app, HL, P. split; [|reflexivity].
    rewrite D, flat_map_app, app_assoc. reflexivity. }
  split; [lia|]. split; [lia|]. split.
  - split; intros H1.
    + destruct done; [rewrite P; reflexivity|rewrite zlen_cons in *; pose proof (zlen_nonneg _ done); lia].
    + destruct done as [|x done]; [reflexivity|]. pose proof (frames_pos (x :: done) ltac:(discriminate)). lia.
  - intros B Hi. apply L; [exact B|]. intros ->. rewrite zlen_nil in Hi. lia.
Qed.

(** passing one more frame *)
Lemma mid_step : forall hd c done fr rest f2, iv_mid hd c done (fr :: rest) -> iv_mono c (done ++ fr :: rest) ->
  f_data f2 = f_data (iv_f c) -> f_pos f2 = f_pos (iv_f c) + zlen (ivf_frame fr) ->
  iv_mid hd {| iv_f := f2; iv_broken := iv_broken c; iv_last_ts := istamp c (zlen done) (fst fr); iv_step := iv_step c |}
    (done ++ [fr]) rest.
Proof.
  intros hd c done fr rest f2 (HL & F & D & P & PS & L) M D2 P2. unfold iv_mid. cbn [iv_f iv_broken iv_last_ts iv_step].
  rewrite <- app_assoc. cbn [app].
  split; [exact HL|]. split; [exact F|]. split; [congruence|]. split.
  { rewrite flat_map_app, zlen_app, P2, P. cbn [flat_map]. rewrite app_nil_r. lia. }
  split.
  - intros j x Hx.
    change (istamp c (Z.of_nat j) (fst x) <= istamp c (zlen done) (fst fr)).
    assert (Hj : (j < length (done ++ [fr]))%nat) by (apply nth_error_Some; congruence).
    rewrite app_length in Hj. cbn in Hj. unfold zlen.
    apply M; [lia| |].
    + replace (done ++ fr :: rest) with ((done ++ [fr]) ++ rest) by (rewrite <- app_assoc; reflexivity).
      rewrite nth_error_app1; [exact Hx|]. rewrite app_length. cbn. lia.
    + rewrite nth_error_app2, Nat.sub_diag by lia. reflexivity.
  - intros B _. unfold istamp. rewrite B. rewrite zlen_app, zlen_cons, zlen_nil. f_equal. ring.
Qed.

Lemma mid_end : forall hd c c' done, iv_mid hd c done [] -> f_data (iv_f c') = f_data (iv_f c) ->
  f_pos (iv_f c') = f_pos (iv_f c) -> iv_broken c' = iv_broken c -> iv_last_ts c' = iv_last_ts c ->
  iv_step c' = iv_step c -> iv_mid hd c' done [].
Proof.
  intros hd c c' done H D P B L S. unfold iv_mid, istamp in *. rewrite D, P, B, L, S. exact H.
Qed.

Lemma seek_loop_ok : forall hd ts rest done c fuel, iv_mid hd c done rest -> iv_mono c (done ++ rest) ->
  (length rest < fuel)%nat ->
  match ivf_from ts (f_pos (iv_f c)) (zlen done) (istamp c) rest with
  | Some (off, j, rest') =>
      exists c' done', ivf_seek_loop fuel ts c = Ok (true, c')
      /\ iv_broken c' = iv_broken c /\ iv_step c' = iv_step c
      /\ f_data (iv_f c') = f_data (iv_f c) /\ f_pos (iv_f c') = off + 12
      /\ done' ++ rest' = done ++ rest /\ zlen done' = j
      /\ forall f'', f_data f'' = f_data (iv_f c) -> f_pos f'' = off ->
         iv_mid hd {| iv_f := f''; iv_broken := iv_broken c'; iv_last_ts := iv_last_ts c'; iv_step := iv_step c' |}
           done' rest'
  | None => exists c', ivf_seek_loop fuel ts c = Ok (false, c')
      /\ iv_broken c' = iv_broken c /\ iv_step c' = iv_step c /\ iv_mid hd c' (done ++ rest) []
  end.
Proof.
  intros hd ts rest. induction rest as [|fr rest IH]; intros done c fuel V M Hf; (destruct fuel; [cbn in Hf; lia|]);
    cbn [ivf_from ivf_seek_loop]; pose proof (mid_inv _ _ _ _ V) as W.
  - destruct W as (_ & A & _). cbn [flat_map] in A.
    unfold ivf_read_header.
    destruct A as (pre & Dp & Pp). rewrite app_nil_r in Dp.
    unfold fread. cbn [Z.eqb]. rewrite Dp, Pp. replace (zlen pre + 4 <=? zlen pre) with false by lia.
    eexists. split; [reflexivity|]. cbn [iv_broken iv_step]. split; [reflexivity|]. split; [reflexivity|].
    rewrite app_nil_r. apply (mid_end hd c); auto; cbn [iv_f f_pos f_data]; solve [congruence|lia].
  - pose proof W as (F & A & Hi & P & PI & L). inversion F as [|? ? OK FS]; subst.
    cbn [flat_map] in A. unfold iv_at in A.
    destruct (header_ok alloc fr _ c OK A) as (c1 & -> & A1 & P1 & D1 & B1 & L1 & S1).
    rewrite (stamp_istamp c (zlen done) (fr :: rest) (fst fr) W).
    destruct (Z.leb_spec ts (istamp c (zlen done) (fst fr))) as [H|H].
    + exists c1, done. split; [reflexivity|]. do 4 (split; [assumption|]). do 2 (split; [reflexivity|]).
      intros f'' D'' P''. destruct V as (HL & F' & D & Pp & PS & L').
      unfold iv_mid, istamp in *. cbn [iv_f iv_broken iv_last_ts iv_step].
      rewrite B1, L1, S1, P'', D''. auto 10.
    + destruct (fseek_at (iv_f c1) (snd fr) (flat_map ivf_frame rest) (zlen (snd fr)) A1 eq_refl)
        as (f2 & -> & A2 & D2 & P2). cbn [negb].
      assert (P3 : f_pos f2 = f_pos (iv_f c) + zlen (ivf_frame fr)) by (rewrite frame_zlen; lia).
      pose proof (mid_step hd c done fr rest f2 V M ltac:(congruence) P3) as V2.
      rewrite B1, S1.
      replace (done ++ fr :: rest) with ((done ++ [fr]) ++ rest) in M |- * by (rewrite <- app_assoc; reflexivity).
      specialize (IH (done ++ [fr]) _ fuel V2 M ltac:(cbn in Hf; lia)).
      cbn [iv_f iv_broken iv_last_ts iv_step] in IH. rewrite P3 in IH.
      rewrite zlen_app, zlen_cons, zlen_nil, Z.add_0_r in IH.
      change (zl (ivf_frame fr)) with (zlen (ivf_frame fr)).
      change (istamp {| iv_f := f2; iv_broken := iv_broken c; iv_last_ts := istamp c (zlen done) (fst fr); iv_step := iv_step c |})
        with (istamp c) in IH.
      destruct (ivf_from ts (f_pos (iv_f c) + zlen (ivf_frame fr)) (zlen done + 1) (istamp c) rest) as [[[off j] rest']|].
      * destruct IH as (c' & done' & E & B' & S' & D' & P' & X1 & X2 & X). exists c', done'.
        split; [exact E|]. do 2 (split; [assumption|]). split; [congruence|]. do 3 (split; [assumption|]).
        intros f'' D'' P''. apply X; congruence.
      * exact IH.
Qed.

Lemma from_skip : forall ts frs1 frs2 off i st,
  (forall j fr, nth_error frs1 j = Some fr -> st (i + Z.of_nat j) (fst fr) < ts) ->
  ivf_from ts off i st (frs1 ++ frs2)
  = ivf_from ts (off + zlen (flat_map ivf_frame frs1)) (i + zlen frs1) st frs2.
Proof.
  intros ts. induction frs1 as [|fr frs1 IH]; intros frs2 off i st H.
  - cbn [app flat_map length]. rewrite !zlen_nil, !Z.add_0_r. reflexivity.
  - cbn [app ivf_from flat_map length].
    pose proof (H 0%nat fr eq_refl) as H0. change (Z.of_nat 0) with 0 in H0. rewrite Z.add_0_r in H0.
    replace (ts <=? st i (fst fr)) with false by lia.
    rewrite IH.
    + rewrite zlen_app, zlen_cons. change (zl (ivf_frame fr)) with (zlen (ivf_frame fr)). f_equal; lia.
    + intros j x Hx. replace (i + 1 + Z.of_nat j) with (i + Z.of_nat (S j)) by lia. now apply H.
Qed.

Lemma seek_ok : forall hd ts c done rest, iv_mid hd c done rest -> iv_mono c (done ++ rest) ->
  match ivf_from ts 32 0 (istamp c) (done ++ rest) with
  | Some (off, j, rest') =>
      exists c' done', ivf_seek ts c = Ok (true, c') /\ iv_mid hd c' done' rest' /\ done' ++ rest' = done ++ rest
      /\ zlen done' = j /\ f_pos (iv_f c') = off /\ istamp c' = istamp c
  | None => exists c', ivf_seek ts c = Ok (false, c') /\ iv_mid hd c' (done ++ rest) [] /\ istamp c' = istamp c
  end.
Proof.
  intros hd ts c done rest V M. unfold ivf_seek.
  (* where the scan starts *)
  assert (X : exists f0 done0 rest0, (if ts <=? iv_last_ts c then fseek_to (iv_f c) 32 else (true, iv_f c)) = (true, f0)
    /\ done0 ++ rest0 = done ++ rest /\ f_data f0 = f_data (iv_f c)
    /\ iv_mid hd {| iv_f := f0; iv_broken := iv_broken c; iv_last_ts := iv_last_ts c; iv_step := iv_step c |} done0 rest0
    /\ (forall j fr, nth_error done0 j = Some fr -> istamp c (Z.of_nat j) (fst fr) < ts)).
  { pose proof V as (HL & F & D & P & PS & L). destruct (Z.leb_spec ts (iv_last_ts c)) as [H|H].
    - unfold fseek_to. cbn [Z.ltb]. change (32 <? 0) with false. cbv beta iota.
      eexists. exists [], (done ++ rest). split; [reflexivity|]. split; [reflexivity|]. split; [reflexivity|].
      split.
      + unfold iv_mid. cbn [iv_f iv_broken iv_last_ts iv_step f_data f_pos app flat_map].
        rewrite zlen_nil. repeat split; auto; try lia.
        * intros [|j] fr E; discriminate E.
        * congruence.
      + intros [|j] fr E; discriminate E.
    - exists (iv_f c), done, rest. do 3 (split; [reflexivity|]). split.
      + unfold iv_mid. cbn [iv_f iv_broken iv_last_ts iv_step]. auto 10.
      + intros j fr E. apply PS in E. lia. }
  destruct X as (f0 & done0 & rest0 & -> & A0 & D0 & V0 & S0). cbn [negb].
  set (c0 := {| iv_f := f0; iv_broken := iv_broken c; iv_last_ts := iv_last_ts c; iv_step := iv_step c |}) in *.
  change (istamp c) with (istamp c0) in *. rewrite <- A0 in *.
  assert (LF : (length rest0 < S (length (f_data f0)))%nat).
  { destruct V0 as (_ & _ & DD & _). change (iv_f c0) with f0 in DD. rewrite DD, app_length.
    pose proof (frames_length (done0 ++ rest0)). rewrite !app_length in *. lia. }
  pose proof (seek_loop_ok hd ts rest0 done0 c0 _ V0 M LF) as K.
  rewrite (from_skip ts done0 rest0 32 0) by (intros j fr E; apply S0; exact E).
  rewrite Z.add_0_l. replace (32 + zlen (flat_map ivf_frame done0)) with (f_pos (iv_f c0)) by (destruct V0 as (_ & _ & _ & PV & _); exact PV).
  destruct (ivf_from ts (f_pos (iv_f c0)) (zlen done0) (istamp c0) rest0) as [[[off j] rest']|].
  - destruct K as (c1 & done' & -> & B1 & S1 & D1 & P1 & X1 & X2 & X). cbn [obind].
    unfold fseek_cur, fseek_to. rewrite P1. replace (off + 12 + -12) with off by lia.
    assert (0 <= off).
    { pose proof (X {| f_data := f_data (iv_f c0); f_pos := off; f_eof := false |} eq_refl eq_refl) as (_ & _ & _ & Y & _).
      cbn in Y. pose proof (zlen_nonneg _ (flat_map ivf_frame done')). lia. }
    replace (off <? 0) with false by lia.
    eexists. exists done'. split; [reflexivity|]. split; [apply X; cbn; auto|].
    repeat match goal with |- _ /\ _ => split end; auto.
    unfold istamp. cbn [iv_broken iv_step]. now rewrite B1, S1.
  - destruct K as (c1 & -> & B1 & S1 & V1). cbn [obind]. exists c1. split; [reflexivity|].
    split; [exact V1|]. unfold istamp. now rewrite B1, S1.
Qed.

(** states after opening, and after reading a packet *)
Lemma mono_ok : forall c frs, iv_broken c = brokenb frs -> (exists d, 0 <= d < 2 ^ 32 /\ iv_step c = d / zlen frs) ->
  iv_mono c frs.
Proof.
  intros c frs B (d & Hd & S) i j a b Hij Ea Eb. unfold istamp. rewrite B.
  destruct (brokenb frs) eqn:BR.
  - assert (Hj : (j < length frs)%nat) by (apply nth_error_Some; congruence).
    assert (0 <= iv_step c * zlen frs <= d).
    { rewrite S. unfold zlen. assert (0 < Z.of_nat (length frs)) by lia.
      pose proof (Z.mul_div_le d (Z.of_nat (length frs)) ltac:(lia)).
      pose proof (Z.div_pos d (Z.of_nat (length frs)) ltac:(lia) ltac:(lia)). nia. }
    unfold zlen in *.
    assert (0 <= iv_step c) by nia.
    rewrite !u64_id by nia. nia.
  - apply brokenb_ok in BR. clear B S d Hd.
    revert i j a b Hij Ea Eb. induction frs as [|x frs IH]; intros i j a b Hij Ea Eb; [destruct i; discriminate Ea|].
    assert (T : increasing (map fst frs)).
    { destruct frs; [exact I|]. apply BR. }
    destruct i as [|i], j as [|j]; cbn [nth_error] in *; try lia.
    + rewrite Ea in Eb. injection Eb as ->. lia.
    + injection Ea as <-. destruct frs as [|y frs]; [destruct j; discriminate Eb|].
      cbn [map increasing] in BR. destruct BR as [H _].
      pose proof (IH T 0%nat j y b ltac:(lia) eq_refl Eb). lia.
    + apply (IH T i j a b ltac:(lia) Ea Eb).
Qed.

Lemma mid_read : forall hd c done fr rest, (forall n, 0 < n < 2 ^ 32 -> alloc n = true) ->
  iv_mid hd c done (fr :: rest) -> iv_mono c (done ++ fr :: rest) ->
  exists c', ivf_read alloc c = (Some (snd fr, f_pos (iv_f c), istamp c (zlen done) (fst fr)), c')
    /\ iv_mid hd c' (done ++ [fr]) rest /\ istamp c' = istamp c.
Proof.
  intros hd c done fr rest AL V M. pose proof (mid_inv _ _ _ _ V) as W.
  pose proof W as (F & A & _). inversion F as [|? ? OK FS]; subst. cbn [flat_map] in A.
  destruct (read_ok alloc AL fr _ c OK A) as (c1 & E1 & A1 & P1 & D1 & B1 & L1 & S1).
  rewrite (stamp_istamp c (zlen done) (fr :: rest) (fst fr) W) in *.
  exists c1. split; [exact E1|].
  pose proof (mid_step hd c done fr rest (iv_f c1) V M D1 P1) as V1.
  split.
  - destruct c1 as [f1 b1 l1 s1]. cbn in *. subst b1 l1 s1. exact V1.
  - unfold istamp. now rewrite B1, S1.
Qed.

(** *** a truncated file as a whole *)
Definition with_step (c : ivf) (x : Z) : ivf :=
  {| iv_f := iv_f c; iv_broken := iv_broken c; iv_last_ts := iv_last_ts c; iv_step := x |}.
Lemma read_with_step : forall c x, iv_broken c = false ->
  ivf_read alloc (with_step c x) = (fst (ivf_read alloc c), with_step (snd (ivf_read alloc c)) x)
  /\ iv_broken (snd (ivf_read alloc c)) = false.
Proof.
  intros c x B. unfold ivf_read, ivf_read_header, with_step. cbn [iv_f iv_broken iv_last_ts iv_step]. rewrite B. cbn [negb].
  destruct (fread (iv_f c) 4) as [[d|] f1]; [|split; [reflexivity|cbn; auto]].
  destruct (fread f1 8) as [[d2|] f2]; [|split; [reflexivity|cbn; auto]].
  destruct (alloc (rl32 d 0)); cbn [negb iv_f]; [|split; [reflexivity|cbn; auto]].
  destruct (fread f2 (rl32 d 0)) as [[d3|] f3]; split; try reflexivity; cbn; auto.
Qed.
Lemma reads_with_step : forall n c x, iv_broken c = false ->
  reads (ivf_read alloc) n (with_step c x) = reads (ivf_read alloc) n c.
Proof.
  induction n; intros c x B; [reflexivity|]. cbn [reads].
  destruct (read_with_step c x B) as [E B']. rewrite E. cbn [fst snd]. now rewrite IHn.
Qed.

Lemma slice_firstn0 : forall k (l : list Z) n, 0 <= n <= Z.of_nat k -> slice (firstn k l) 0 n = slice l 0 n.
Proof. intros. unfold slice. change (Z.to_nat 0) with 0%nat. rewrite !skipn_O. rewrite firstn_firstn. f_equal. lia. Qed.

Lemma open_truncated : forall l c info k, bytes l -> ivf_open l = Ok (Some (c, info)) -> iv_broken c = false ->
  44 <= Z.of_nat k -> 44 <= zlen l < 2 ^ 32 ->
  exists c' info', ivf_open (firstn k l) = Ok (Some (c', info')) /\
  forall n, exists m, (m <= n)%nat /\
    reads (ivf_read alloc) n c' = firstn m (reads (ivf_read alloc) n c) ++ repeat None (n - m).
Proof.
  intros l c info k B E BR K L.
  assert (BK : bytes (firstn k l)).
  { unfold bytes in *. rewrite <- (firstn_skipn k l) in B. apply Forall_app in B. tauto. }
  assert (LK : 44 <= zlen (firstn k l) < 2 ^ 32) by (unfold zlen in *; rewrite firstn_length; lia).
  pose proof (open_defined (firstn k l) BK LK) as DF.
  unfold ivf_open in E, DF |- *.
  unfold fread in E, DF |- *. cbn [fopen f_data f_pos f_eof] in E, DF |- *. change (32 =? 0) with false in *. cbv beta iota in *.
  replace (0 + 32 <=? zlen l) with true in E by lia.
  replace (0 + 32 <=? zlen (firstn k l)) with true in DF |- * by lia.
  rewrite slice_firstn0 in DF |- * by lia.
  set (hdr := slice l 0 32) in *.
  destruct (mem_eq hdr 0 (firstn 4 ivf_magic)) as [[|]|]; cbn [obind negb] in E, DF |- *; try discriminate E.
  destruct (mem_eq hdr 8 (skipn 8 ivf_magic)) as [[|]|]; cbn [obind negb] in E, DF |- *; try discriminate E.
  set (f0 := {| f_data := l; f_pos := 0 + 32; f_eof := false |}) in *.
  set (g0 := {| f_data := firstn k l; f_pos := 0 + 32; f_eof := false |}) in *.
  destruct (ivf_scan (S (length l)) 0 false 0 f0) as [[[[n1 b1] l1] f1]|] eqn:E1; cbn [obind] in E; [|discriminate E].
  destruct (ivf_scan (S (length (firstn k l))) 0 false 0 g0) as [[[[n2 b2] l2] f2]|] eqn:E2; cbn [obind] in DF |- *; [|congruence].
  destruct (ivf_fps (rl32 hdr 16) (rl32 hdr 20) n1 (rl32 hdr 24)) as [fps1|]; cbn [obind] in E; [|discriminate E].
  destruct (ivf_fps (rl32 hdr 16) (rl32 hdr 20) n2 (rl32 hdr 24)) as [fps2|]; cbn [obind] in DF |- *; [|congruence].
  destruct (n1 =? 0); cbn [negb] in E; [discriminate E|].
  destruct (n2 =? 0); cbn [negb] in DF |- *; [congruence|].
  injection E as <- <-. cbn [iv_broken] in BR. subst b1.
  assert (S0 : sim k f0 g0) by (unfold sim; cbn; auto with zarith).
  pose proof (scan_trunc k _ _ _ _ _ _ _ _ _ _ _ _ _ _ S0 E1 E2) as B2. subst b2.
  assert (DD : forall fuel n b last f n' b' last' f', ivf_scan fuel n b last f = Ok (n', b', last', f') -> f_data f' = f_data f).
  { clear. induction fuel; intros n b last f n' b' last' f' E; [discriminate E|]. cbn [ivf_scan] in E.
    assert (FR : forall f n, f_data (snd (fread f n)) = f_data f).
    { intros. unfold fread. destruct (n0 =? 0); [reflexivity|]. destruct (f_pos f0 + n0 <=? zlen (f_data f0)); reflexivity. }
    pose proof (FR f 4) as R1. destruct (fread f 4) as [[d|] f1]; cbn [snd] in R1; [|injection E as _ _ _ <-; exact R1].
    pose proof (FR f1 8) as R2. destruct (fread f1 8) as [[d2|] f2]; cbn [snd] in R2; [|injection E as _ _ _ <-; congruence].
    apply IHfuel in E. rewrite E. unfold fseek_cur, fseek_to. destruct (f_pos f2 + rl32 d 0 <? 0); cbn; congruence. }
  pose proof (DD _ _ _ _ _ _ _ _ _ E1) as D1. pose proof (DD _ _ _ _ _ _ _ _ _ E2) as D2.
  cbn [f_data] in D1, D2. subst f0 g0. cbn [f_data] in D1, D2.
  eexists. eexists. split; [reflexivity|]. intros n. unfold fseek_to. change (32 <? 0) with false. cbv beta iota. cbn [snd].
  rewrite D1, D2.
  destruct (ivf_truncated k {| iv_f := {| f_data := l; f_pos := 32; f_eof := false |}; iv_broken := false; iv_last_ts := 0;
                               iv_step := rl32 hdr 24 / n1 |} n ltac:(cbn; lia) B) as (m & M & R).
  exists m. split; [exact M|]. etransitivity; [|exact R].
  symmetry. apply (reads_with_step n {| iv_f := {| f_data := firstn k l; f_pos := 32; f_eof := false |};
    iv_broken := false; iv_last_ts := 0; iv_step := rl32 hdr 24 / n2 |} (rl32 hdr 24 / n1)). reflexivity.
Qed.

(** *** as parts of the file *)
Lemma slice_cut : forall (l : list Z) p x, 0 <= p -> p + zlen x <= zlen l -> slice l p (zlen x) = x ->
  exists pre post, l = pre ++ x ++ post /\ zlen pre = p.
Proof.
  intros l p x Hp H E. exists (firstn (Z.to_nat p) l), (skipn (length x) (skipn (Z.to_nat p) l)).
  pose proof (zlen_nonneg _ x). split.
  - rewrite <- (firstn_skipn (Z.to_nat p) l) at 1. f_equal.
    rewrite <- (firstn_skipn (length x) (skipn (Z.to_nat p) l)) at 1. f_equal.
    unfold slice, zlen in E. rewrite Nat2Z.id in E. exact E.
  - unfold zlen in *. rewrite firstn_length. lia.
Qed.
Lemma read_cut : forall c p off ts c', bytes (f_data (iv_f c)) -> 0 <= f_pos (iv_f c) ->
  ivf_read alloc c = (Some (p, off, ts), c') ->
  off = f_pos (iv_f c) /\ f_data (iv_f c') = f_data (iv_f c) /\
  exists pre stored post, f_data (iv_f c) = pre ++ ivf_frame (stored, p) ++ post /\ zlen pre = off
    /\ (iv_broken c = false -> stored = ts) /\ f_pos (iv_f c') = off + zlen (ivf_frame (stored, p)).
Proof.
  intros c p off ts c' B P E. destruct (read_slice c p off ts c' B P E) as (O & D & st & T & S & P' & L).
  split; [exact O|]. split; [exact D|].
  destruct (slice_cut (f_data (iv_f c)) off (ivf_frame (st, p)) ltac:(lia) ltac:(lia) S) as (pre & post & X & Y).
  exists pre, st, post. auto.
Qed.

(** *** sessions *)
Fixpoint iv_play (c : ivf) (ops : list play_op) : outcome (list play_res) :=
  match ops with
  | [] => Ok []
  | Rd :: ops =>
    let '(r, c) := ivf_read alloc c in
    let! rs := iv_play c ops in
    Ok (match r with Some (p, off, ts) => Pkt p off ts | None => NoPkt end :: rs)
  | Sk ts :: ops =>
    let! r := ivf_seek ts c in
    let '(ok, c) := r in
    let! rs := iv_play c ops in
    Ok ((if (ok : bool) then SkOk else SkFail) :: rs)
  end.

Lemma from_first : forall st ts frs off i,
  ivf_from ts off i st frs
  = match first_from ts i st frs with
    | None => None
    | Some k => Some (off + zlen (flat_map ivf_frame (firstn k frs)), i + Z.of_nat k, skipn k frs)
    end.
Proof.
  intros st ts. induction frs as [|fr frs IH]; intros off i; [reflexivity|]. cbn [ivf_from first_from].
  destruct (ts <=? st i (fst fr)).
  - cbn [firstn flat_map skipn]. rewrite zlen_nil. do 3 f_equal; lia.
  - rewrite IH. destruct (first_from ts (i + 1) st frs) as [k|]; [|reflexivity]. cbn [option_map firstn flat_map skipn].
    rewrite zlen_app. change (zl (ivf_frame fr)) with (zlen (ivf_frame fr)). do 3 f_equal; lia.
Qed.
Lemma first_from_le : forall st ts frs i k, first_from ts i st frs = Some k -> (k <= length frs)%nat.
Proof.
  intros st ts. induction frs as [|fr frs IH]; intros i k E; [discriminate E|]. cbn [first_from] in E.
  destruct (ts <=? st i (fst fr)); [injection E as <-; cbn; lia|].
  destruct (first_from ts (i + 1) st frs) as [m|] eqn:X; [|discriminate E]. injection E as <-.
  apply IH in X. cbn [length]. lia.
Qed.

Lemma read_end : forall hd c done, iv_mid hd c done [] ->
  exists c', ivf_read alloc c = (None, c') /\ iv_mid hd c' done [] /\ istamp c' = istamp c.
Proof.
  intros hd c done (HL & F & D & P & PS & L).
  assert (E : zlen (f_data (iv_f c)) = f_pos (iv_f c)).
  { rewrite D, app_nil_r, zlen_app. lia. }
  unfold ivf_read, ivf_read_header, fread. change (4 =? 0) with false. cbv beta iota.
  replace (f_pos (iv_f c) + 4 <=? zlen (f_data (iv_f c))) with false by lia.
  eexists. split; [reflexivity|]. split; [|reflexivity].
  unfold iv_mid. cbn [iv_f f_data f_pos iv_broken iv_last_ts iv_step].
  rewrite E, Z.max_id. auto 10.
Qed.

Lemma play_ok : forall ops hd c done rest st frs, (forall n, 0 < n < 2 ^ 32 -> alloc n = true) ->
  iv_mid hd c done rest -> done ++ rest = frs -> iv_mono c frs -> istamp c = st ->
  iv_play c ops = Ok (play st frs (length done) ops).
Proof.
  induction ops as [|[|ts] ops IH]; intros hd c done rest st frs AL V EF M ES; [reflexivity| |]; cbn [iv_play play].
  - destruct rest as [|fr rest].
    + rewrite app_nil_r in EF. subst done.
      destruct (read_end hd c frs V) as (c' & -> & V' & S').
      rewrite (proj2 (nth_error_None frs (length frs))) by lia.
      rewrite (IH hd c' frs [] st frs AL V'); auto using app_nil_r; [unfold iv_mono in *; now rewrite S'|congruence].
    + subst frs. destruct (mid_read hd c done fr rest AL V M) as (c' & -> & V' & S').
      rewrite nth_error_app2, Nat.sub_diag by lia. cbn [nth_error].
      rewrite (IH hd c' (done ++ [fr]) rest st (done ++ fr :: rest) AL V'); auto.
      * cbn [obind]. destruct V as (HL & _ & _ & P & _). rewrite P, ES.
        unfold frame_off. rewrite firstn_app, Nat.sub_diag, firstn_all, app_nil_r by lia. cbn [firstn].
        replace (length (done ++ [fr])) with (S (length done)) by (rewrite app_length; cbn; lia). reflexivity.
      * now rewrite <- app_assoc.
      * unfold iv_mono in *. now rewrite S'.
      * congruence.
  - subst frs. pose proof (seek_ok hd ts c done rest V M) as SK. rewrite from_first in SK. rewrite ES in SK.
    destruct (first_from ts 0 st (done ++ rest)) as [k|] eqn:EK.
    + destruct SK as (c' & done' & -> & V' & AP & LD & _ & S'). cbn [obind].
      rewrite (IH hd c' done' _ st (done ++ rest) AL V' AP); try congruence; [|unfold iv_mono in *; now rewrite S', <- ES].
      cbn [obind]. replace (length done') with k by (unfold zlen in LD; lia). reflexivity.
    + destruct SK as (c' & -> & V' & S'). cbn [obind].
      rewrite (IH hd c' (done ++ rest) [] st (done ++ rest) AL V'); try congruence; [reflexivity|apply app_nil_r|unfold iv_mono in *; now rewrite S', <- ES].
Qed.

Lemma play_file : forall v hl w h t0 t1 d u frs ops, (forall n, 0 < n < 2 ^ 32 -> alloc n = true) ->
  0 <= t0 < 2 ^ 32 -> 0 <= t1 < 2 ^ 32 -> 0 <= d < 2 ^ 32 -> Forall ivf_ok frs -> frs <> [] -> zlen frs < 2 ^ 32 ->
  exists c info, ivf_open (ivf_header v hl w h t0 t1 d u ++ flat_map ivf_frame frs) = Ok (Some (c, info))
  /\ in_frames info = zlen frs /\ in_timebase info = (t0, t1) /\ Ok (in_fps info) = ivf_fps t0 t1 (zlen frs) d
  /\ exists st, iv_play c ops = Ok (play st frs 0 ops)
     /\ (increasing (map fst frs) -> forall i t, st i t = t)
     /\ (~ increasing (map fst frs) -> forall i t, 0 <= i < zlen frs -> st i t = i * (d / zlen frs)).
Proof.
  intros v hl w h t0 t1 d u frs ops AL H0 H1 Hd F N L.
  destruct (open_ok v hl w h t0 t1 d u frs H0 H1 Hd F N L)
    as (c & info & E & D & P & LT & ST & BR & I & FR & TB & FP).
  exists c, info. repeat match goal with |- _ /\ _ => split end; auto.
  exists (istamp c). repeat match goal with |- _ /\ _ => split end.
  - apply (play_ok ops (ivf_header v hl w h t0 t1 d u) c [] frs); auto.
    + unfold iv_mid. cbn [app flat_map]. rewrite zlen_nil. repeat match goal with |- _ /\ _ => split end; auto.
      intros [|j] fr X; discriminate X. congruence.
    + apply mono_ok; eauto.
  - intros IN i t. apply brokenb_ok in IN. unfold istamp. now rewrite BR, IN.
  - intros NI i t Hi. rewrite <- brokenb_ok in NI. apply not_false_is_true in NI. unfold istamp. rewrite BR, NI, ST.
    apply u64_id. pose proof (Z.mul_div_le d (zlen frs) ltac:(lia)). pose proof (Z.div_pos d (zlen frs) ltac:(lia) ltac:(lia)). nia.
Qed.
End IVF.

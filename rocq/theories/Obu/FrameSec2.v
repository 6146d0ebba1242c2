(** Frame header sections: CDEF, loop restoration, skip mode, global motion. *)
From Coq Require Import ZArith List Bool Lia.
From Verif Require Import Base.CInt Base.Lemmas Base.Finite GetBits.Model GetBits.Spec GetBits.Abstract
  GetBits.Proofs GetBits.SpecProg GetBits.Sim GetBits.VarLen GetBits.Reads Obu.SimTac Obu.SeqModel Obu.SeqRel
  Obu.FrameModel Obu.FrameRel Obu.FrameSec.
Import ListNotations.
Open Scope Z_scope.

(** One read of [n + m] bits against two elements. *)
Lemma sim_join : forall A B N n m (p : Z -> rd A) (q : Z -> Z -> sp B) (R : A -> B -> Prop),
  0 < n -> 0 < m -> n + m <= 32 -> n + m <= N ->
  (forall a b, 0 <= a < 2 ^ n -> 0 <= b < 2 ^ m -> sim (N - (n + m)) (p (a * 2 ^ m + b)) (q a b) R) ->
  sim N (rbind (bits (n + m)) p) (sbind (f n) (fun a => sbind (f m) (q a))) R.
Proof.
  intros A B N n m p q R Hn Hm H32 HN H s a Hs Ha Hb.
  rewrite !srun_bind. cbn [f srun]. rewrite srun_bind. cbn [f srun].
  set (x := f_n (st_bit s) (a_pos a) n). set (y := f_n (st_bit s) (a_pos a + n) m).
  pose proof (f_n_range (st_bit s) (proj1 Hs) (a_pos a) n ltac:(lia)) as X1.
  pose proof (f_n_range (st_bit s) (proj1 Hs) (a_pos a + n) m ltac:(lia)) as X2.
  fold x in X1. fold y in X2. specialize (H x y X1 X2).
  rewrite aexec_bind. cbn [bits aexec]. replace ((0 <? n + m) && (n + m <=? 32)) with true by lia.
  unfold a_read. replace (a_pos a + (n + m) <=? st_len s + 2 ^ 31) with true by lia. cbn [obind].
  rewrite f_n_app by lia. fold x. fold y.
  replace (a_pos a + n + m) with (a_pos a + (n + m)) by lia.
  set (a2 := {| a_pos := a_pos a + (n + m); a_err := a_err a || (st_len s <? a_pos a + (n + m)) |}).
  assert (Ha2 : apos_ok s a2) by (apply apos_ok_read; [lia|auto]).
  specialize (H s a2 Hs Ha2 ltac:(unfold a2; cbn [a_pos]; lia)).
  subst a2. cbn [a_pos a_err] in H.
  assert (EQ : forall p'', a_pos a + (n + m) <= p'' ->
     (a_err a || (st_len s <? a_pos a + (n + m))) || (st_len s <? p'') = a_err a || (st_len s <? p'')).
  { intros. destruct (a_err a); simpl; auto.
    destruct (Z.ltb_spec (st_len s) (a_pos a + (n + m))); simpl; auto. symmetry. apply Z.ltb_lt. lia. }
  match type of H with match ?X with _ => _ end => destruct X as [[b|] pos'] end.
  - destruct H as (P & z & E & RR). split; [lia|]. exists z. rewrite E, EQ by lia. auto.
  - destruct H as (P & E). split; [lia|]. rewrite E, EQ by lia. auto.
Qed.

(** * CDEF *)
Lemma sim_strengths : forall n mono N, 0 <= mono <= 1 -> 12 * Z.of_nat n <= N ->
  sim N (parse_strengths n mono) (F.times n (F.cdef_entry mono))
    (fun x l => length l = n /\ fst x = map (fun e => strength (fst e)) l /\
       snd x = map (fun e => strength_uv (snd e)) l /\
       Forall (fun x => 0 <= x <= 63) (fst x) /\ Forall (fun x => 0 <= x <= 63) (snd x)).
Proof.
  induction n; intros mono N Hm HN; cbn [parse_strengths F.times].
  - sret. cbn. auto.
  - unfold F.cdef_entry at 1, F.cdef_pair at 1. change 6 with (4 + 2) at 1. asso.
    apply sim_join; try lia. intros a b Ha Hb. cbv beta. asso.
    bnd 6 (fun x (e : (Z * Z) * option (Z * Z)) => e = ((a, b), snd e) /\ x = strength_uv (snd e) /\ 0 <= x <= 63).
    { flag mono.
      - unfold F.cdef_pair. asso. replace (bits 6) with (rbind (bits (4 + 2)) (fun x => Ret x)) by reflexivity.
        apply sim_join; try lia. intros c d Hc Hd. sret. cbn [snd strength_uv strength fst].
        change (2 ^ 2) with 4 in *. change (2 ^ 4) with 16 in *. unfold strength. cbn [fst snd]. conj; auto; lia.
      - sret. conj; auto; lia. }
    intros uv e (E & Huv & Ruv). 
    eapply sim_bind with (N1 := 12 * Z.of_nat n); [apply IHn; lia| |lia].
    intros [ly luv] l (L & E1 & E2 & F1 & F2). cbn [fst snd] in *. sret. cbn [map fst snd length].
    change (2 ^ 2) with 4 in *. change (2 ^ 4) with 16 in *.
    conj; try lia.
    + rewrite E1. f_equal. rewrite E. unfold strength. cbn [fst snd]. lia.
    + rewrite E2. f_equal. auto.
    + constructor; [lia|auto].
    + constructor; [lia|auto].
Qed.

Lemma pad_length : forall A n (x : A) l, (length l <= n)%nat -> length (pad n x l) = n.
Proof. intros. unfold pad. rewrite app_length, repeat_length. lia. Qed.
Lemma pad_Forall : forall A (P : A -> Prop) n x l, P x -> Forall P l -> Forall P (pad n x l).
Proof.
  intros. unfold pad. apply Forall_app. split; auto. apply Forall_forall. intros y Hy.
  apply repeat_spec in Hy. subst. auto.
Qed.

Lemma sim_cdef : forall sh ss al ibc N, seq_rel sh ss -> seq_wf sh -> 0 <= ibc <= 1 -> 120 <= N ->
  sim N (parse_cdef sh (b2z al) ibc) (F.cdef_params ss al ibc) (fun c s => cdef_rel c s /\ cdef_wf c).
Proof.
  intros sh ss al ibc N HR HW Hi HN. unfold parse_cdef, F.cdef_params.
  assert (Em : monochrome (sh_color sh) = S.mono_chrome (S.color_ ss)) by apply HR.
  assert (Wm : 0 <= monochrome (sh_color sh) <= 1) by apply HW.
  assert (Ec : cdef sh = S.enable_cdef ss) by apply HR.
  assert (Wc : 0 <= cdef sh <= 1) by apply HW. rewrite <- Em, <- Ec.
  rewrite z2b_b2z. clear HR HW Em Ec.
  assert (OFF : cdef_rel (mkCdefp 0 0 (repeat 0 8) (repeat 0 8)) None /\ cdef_wf (mkCdefp 0 0 (repeat 0 8) (repeat 0 8))).
  { split; [reflexivity|]. unfold cdef_wf. cbn [cd_damping cd_n_bits cd_y_strength cd_uv_strength]. conj; try lia; auto; cbn; repeat constructor; lia. }
  destruct al; cbn [negb andb orb]; [sret; auto|].
  assert (cdef sh = 0 \/ cdef sh = 1) as [-> | ->] by lia; flag ibc; try (sret; auto).
  rdn d 2. rdn n 2. rewrite shiftl_mul by lia. rewrite Z.mul_1_l.
  assert (PN : 1 <= 2 ^ n <= 8).
  { assert (n = 0 \/ n = 1 \/ n = 2 \/ n = 3) as [->|[->|[->| ->]]] by lia; cbn; lia. }
  eapply sim_bind with (N1 := 12 * Z.of_nat (Z.to_nat (2 ^ n))); [apply sim_strengths; lia| |lia].
  intros [ly luv] l (L & E1 & E2 & F1 & F2). cbn [fst snd] in *. sret.
  assert (L1 : (length ly <= 8)%nat) by (subst ly; rewrite map_length; lia).
  assert (L2 : (length luv <= 8)%nat) by (subst luv; rewrite map_length; lia).
  split.
  - unfold cdef_rel. cbn [cd_damping cd_n_bits cd_y_strength cd_uv_strength]. conj; auto; try lia; congruence.
  - unfold cdef_wf. cbn [cd_damping cd_n_bits cd_y_strength cd_uv_strength].
    conj; try lia; [apply pad_length; auto|apply pad_length; auto|apply pad_Forall; [lia|auto]|apply pad_Forall; [lia|auto]].
Qed.

(** * Loop restoration *)
Lemma if_negb : forall A (b : bool) (x y : A), (if b then x else y) = if negb b then y else x.
Proof. destruct b; auto. Qed.
Lemma sim_lr : forall sh ss al sren ibc N, seq_rel sh ss -> seq_wf sh -> 0 <= ibc <= 1 -> 0 <= sren <= 1 -> 16 <= N ->
  sim N (parse_lr sh (b2z al) sren ibc) (F.lr_params ss al sren ibc) (fun l s => lr_rel l s /\ lr_wf l).
Proof.
  intros sh ss al sren ibc N HR HW Hi Hs HN. unfold parse_lr, F.lr_params.
  assert (Em : monochrome (sh_color sh) = S.mono_chrome (S.color_ ss)) by apply HR.
  assert (Wm : 0 <= monochrome (sh_color sh) <= 1) by apply HW.
  assert (Ex : ss_hor (sh_color sh) = S.subsampling_x (S.color_ ss)) by apply HR.
  assert (Ey : ss_ver (sh_color sh) = S.subsampling_y (S.color_ ss)) by apply HR.
  assert (Er : restoration sh = S.enable_restoration ss) by apply HR.
  assert (Wr : 0 <= restoration sh <= 1) by apply HW.
  assert (Eb : sb128 sh = S.use_128x128_superblock ss) by apply HR.
  assert (Wb : 0 <= sb128 sh <= 1) by apply HW.
  rewrite <- Em, <- Ex, <- Ey, <- Er, <- Eb, z2b_b2z. clear HR HW Em Ex Ey Er Eb.
  set (mono := monochrome (sh_color sh)) in *. set (hor := ss_hor (sh_color sh)) in *. set (ver := ss_ver (sh_color sh)) in *.
  set (rest := restoration sh) in *. set (sb := sb128 sh) in *. clearbody mono hor ver rest sb.
  rewrite (if_negb _ (_ || (rest =? 0))).
  apply sim_if; [flag ibc; flag sren; flag rest; destruct al; auto| |]; intros _.
  2:{ sret. split; [unfold lr_rel; cbn; auto 10|unfold lr_wf; cbn; lia]. }
  rdn t0 2.
  bnd 4 (fun x y : Z * Z => x = y /\ 0 <= fst x <= 3 /\ 0 <= snd x <= 3).
  { flag mono.
    - rdn a 2. rdn b 2. sret. split; [auto|cbn; lia].
    - sret. cbn. conj; auto; lia. }
  intros [t1 t2] ? (<- & Ht1 & Ht2). cbn [fst snd] in Ht1, Ht2.
  rewrite (z2b_pos t0), (z2b_pos t1), (z2b_pos t2) by lia. apply sim_if; [auto| |]; intros HT.
  2:{ sret. split.
      - unfold lr_rel. cbn. conj; auto; lia.
      - unfold lr_wf. cbn [lr_type0 lr_type1 lr_type2 lr_unit_size0 lr_unit_size1]. conj; lia. }
  assert (FIN : forall u sh, 6 <= u <= 8 -> 0 <= sh <= 1 ->
    let x := mkLrp t0 t1 t2 u (u - sh) in let y := F.mkRestoration t0 t1 t2 (Some (u, u - sh)) in
    lr_rel x y /\ lr_wf x).
  { intros u sh0 Hu Hsh. cbv zeta. unfold lr_rel, lr_wf. cbn. conj; auto; lia. }
  assert (UV : forall u N, 6 <= u <= 8 -> 1 <= N ->
    sim N (rbind (if ((0 <? t1) || (0 <? t2)) && (hor =? 1) && (ver =? 1) then rbind bit (fun b => Ret (u - b)) else Ret u)
                 (fun u1 => Ret (mkLrp t0 t1 t2 u u1)))
          (let* s := (if (hor =? 1) && (ver =? 1) && ((0 <? t1) || (0 <? t2)) then f 1 else SRet 0) in
           SRet (F.mkRestoration t0 t1 t2 (Some (u, u - s))))%sp
          (fun x y => lr_rel x y /\ lr_wf x)).
  { intros u N0 Hu HN0. bnd 1 (fun x y => x = u - y /\ 0 <= y <= 1).
    - apply sim_if; [destruct ((0 <? t1) || (0 <? t2)), (hor =? 1), (ver =? 1); auto| |]; intros _.
      + replace (f 1) with (sbind (f 1) (fun x => SRet x)) by reflexivity. rd1 b. sret. auto.
      + sret. lia.
    - intros u1 y (-> & Hy). sret. apply FIN; auto. }
  flag sb.
  - asso. rd1 b. flag b.
    + apply sim_let. apply sim_bind_ret_r. apply (UV 6); lia.
    + apply rbind_assoc_sim. asso. rd1 b2. apply sim_let.
      flag b2; [apply (UV 7)|apply (UV 8)]; lia.
  - asso. rd1 b. flag b; apply sim_let; apply sim_bind_ret_r; [apply (UV 7)|apply (UV 8)]; lia.
Qed.

(** * Skip mode *)
Lemma poc_diff_eq : forall sh ss a b, seq_rel sh ss -> seq_wf sh ->
  get_poc_diff (order_hint_n_bits (sh_tools sh)) a b = F.get_relative_dist ss a b.
Proof.
  intros sh ss a b HR HW. unfold get_poc_diff, F.get_relative_dist.
  assert (HT : tools_rel (sh_tools sh) (S.tools_ ss)) by apply HR.
  destruct HT as (_ & _ & _ & _ & EO & _ & _ & _ & _ & EN). rewrite <- EO, <- EN.
  destruct HW as (_ & _ & _ & _ & _ & _ & _ & _ & _ & _ & _ & _ & _ & _ & _ & _ & _ & W1 & W2 & W3 & W4 & _).
  assert (order_hint (sh_tools sh) = 0 \/ order_hint (sh_tools sh) = 1) as [E | E] by lia; rewrite E in *.
  - rewrite (W3 eq_refl). reflexivity.
  - specialize (W4 eq_refl). unfold z2b. replace (order_hint_n_bits (sh_tools sh) =? 0) with false by lia.
    cbn [negb Z.eqb]. rewrite shiftl_mul by lia. rewrite Z.mul_1_l. reflexivity.
Qed.

Lemma rel_dist_refl : forall ss a, F.get_relative_dist ss a a = 0.
Proof. intros. unfold F.get_relative_dist. destruct (_ =? 0); auto. rewrite Z.sub_diag. reflexivity. Qed.

Section SkipMode.
Variables (refs : refs_t) (srefs : F.slots) (full : list Z).
Hypothesis HS : slots_rel refs srefs.
Hypothesis HL : length full = 7%nat.
Hypothesis HF : Forall (fun i => 0 <= i <= 7) full.

(** [x] is an index into [full] with the order hint of its slot. *)
Definition hint_idx (x : Z * Z) : Prop :=
  0 <= fst x < 7 /\ exists r, nth (Z.to_nat (nth (Z.to_nat (fst x)) full 0)) srefs None = Some r /\ F.RefOrderHint r = snd x.
Definition ohint_rel (i idx hint : Z) (o : option (Z * Z)) : Prop :=
  match o with None => hint = -1 | Some (j, h) => j = idx /\ h = hint /\ 0 <= hint /\ 0 <= j < i /\ hint_idx (j, h) end.

Lemma drop_at : forall (l : list Z) r t i, 0 <= i -> skipn (Z.to_nat i) l = r :: t ->
  nth (Z.to_nat i) l 0 = r /\ i < zlen l /\ skipn (Z.to_nat (i + 1)) l = t.
Proof.
  intros l r t i Hi. replace (Z.to_nat (i + 1)) with (S (Z.to_nat i)) by lia.
  assert (G : forall n (l : list Z), skipn n l = r :: t -> nth n l 0 = r /\ (n < length l)%nat /\ skipn (S n) l = t).
  { induction n; destruct l0; intros H; cbn in H; try discriminate.
    - inversion H; subst. cbn. repeat split; auto. lia.
    - apply IHn in H. cbn [nth length skipn] in *. destruct H as (A & B & C). repeat split; auto. lia. }
  intros H. apply G in H. unfold zlen. destruct H as (A & B & C). repeat split; auto. lia.
Qed.

Lemma sim_scan : forall sh ss poc l i st fwd bwd N, seq_rel sh ss -> seq_wf sh -> 0 <= i -> 0 <= N ->
  skipn (Z.to_nat i) full = l ->
  (let '(ob, obi, oa, oai) := st in ohint_rel i obi ob fwd /\ ohint_rel i oai oa bwd /\
     match fwd, bwd with Some (a, _), Some (b, _) => a <> b | _, _ => True end) ->
  sim N (scan_poc refs (order_hint_n_bits (sh_tools sh)) poc l i st) (F.nearest ss srefs poc i l fwd bwd)
    (fun st y => let '(ob, obi, oa, oai) := st in let '(fwd, bwd) := y in
       ohint_rel 7 obi ob fwd /\ ohint_rel 7 oai oa bwd /\
       match fwd, bwd with Some (a, _), Some (b, _) => a <> b | _, _ => True end).
Proof.
  intros sh ss poc l. induction l as [|r l IH]; intros i st fwd bwd N HR HW Hi HN HD HI; cbn [scan_poc F.nearest].
  - sret. assert (G : forall idx h o, ohint_rel i idx h o -> ohint_rel 7 idx h o).
    { intros idx h [[j hh]|]; cbn; auto. intros (A & B & C & D & E). pose proof (proj1 E) as E1. cbn [fst] in E1.
      conj; auto; lia. }
    destruct st as [[[ob obi] oa] oai]. destruct HI as (A & B & C). auto.
  - destruct (drop_at full r l i Hi HD) as (D1 & D2 & D3).
    assert (Hr : 0 <= r <= 7).
    { rewrite <- D1. apply (Forall_nth_Z _ (fun i => 0 <= i <= 7)); auto. }
    assert (D2' : i < 7) by (unfold zlen in D2; lia).
    eapply sim_bind with (N1 := 0); [apply sim_slot; eauto; lia| |lia].
    intros h rf (S1 & S2 & S3). destruct st as [[[ob obi] oa] oai]. destruct HI as (A & B & C).
    assert (EH : frame_offset (f_pre h) = F.RefOrderHint rf) by apply S1.
    assert (WH : 0 <= frame_offset (f_pre h) <= 255) by apply S2.
    rewrite !(poc_diff_eq sh ss) by auto. rewrite EH in *.
    set (rp := F.RefOrderHint rf) in *.
    assert (HX : hint_idx (i, rp)).
    { split; [cbn; lia|]. exists rf. cbn [fst snd]. rewrite D1. auto. }
    apply IH; auto; try lia.
    assert (G : forall idx hh o, ohint_rel i idx hh o -> ohint_rel (i + 1) idx hh o).
    { intros idx hh [[j h2]|]; cbn; auto. intros (A1 & A2 & A3 & A4 & A5). conj; auto; lia. }
    assert (NEW : ohint_rel (i + 1) i rp (Some (i, rp))) by (cbn [ohint_rel]; conj; auto; lia).
    assert (NF : match fwd with Some (a, _) => a <> i | None => True end) by (destruct fwd as [[? ?]|]; auto; cbn in A; lia).
    assert (NB : match bwd with Some (a, _) => a <> i | None => True end) by (destruct bwd as [[? ?]|]; auto; cbn in B; lia).
    set (dist := F.get_relative_dist ss rp poc).
    destruct (Z.ltb_spec 0 dist).
    + replace (dist <? 0) with false by lia.
      destruct bwd as [[b hb]|]; cbn [ohint_rel] in B.
      * destruct B as (B1 & B2 & B3 & B4 & B5). subst b hb. replace (oa =? -1) with false by lia. cbn [orb].
        destruct (0 <? F.get_relative_dist ss oa rp).
        -- split; [auto|]. split; [apply NEW|]. destruct fwd as [[? ?]|]; auto.
        -- split; [auto|]. split; [apply G; cbn; auto|]. exact C.
      * rewrite B. cbn [Z.eqb Pos.eqb orb]. split; [auto|]. split; [apply NEW|]. destruct fwd as [[? ?]|]; auto.
    + destruct (Z.ltb_spec dist 0); cbn [andb].
      * destruct fwd as [[b hb]|]; cbn [ohint_rel] in A.
        -- destruct A as (B1 & B2 & B3 & B4 & B5). subst b hb. replace (ob =? -1) with false by lia. cbn [orb].
           destruct (0 <? F.get_relative_dist ss rp ob).
           ++ split; [apply NEW|]. split; [auto|]. destruct bwd as [[? ?]|]; auto.
           ++ split; [apply G; cbn; auto|]. split; [auto|]. exact C.
        -- rewrite A. cbn [Z.eqb Pos.eqb orb]. split; [apply NEW|]. split; [auto|]. destruct bwd as [[? ?]|]; auto.
      * split; [auto|]. split; [auto|]. exact C.
Qed.

Lemma sim_scan2 : forall sh ss ob obi l i st best N, seq_rel sh ss -> seq_wf sh -> 0 <= i -> 0 <= N ->
  hint_idx (obi, ob) -> skipn (Z.to_nat i) full = l ->
  ohint_rel i (snd st) (fst st) best -> match best with Some (j, _) => j <> obi | None => True end ->
  sim N (scan_poc2 refs (order_hint_n_bits (sh_tools sh)) ob l i st) (F.second_nearest ss srefs ob i l best)
    (fun st y => ohint_rel 7 (snd st) (fst st) y /\ match y with Some (j, _) => j <> obi | None => True end).
Proof.
  intros sh ss ob obi l. induction l as [|r l IH]; intros i st best N HR HW Hi HN HO HD HI HB; cbn [scan_poc2 F.second_nearest].
  - sret. split; auto. destruct best as [[j h]|]; cbn in *; auto.
    destruct HI as (A & B & C & D & E). pose proof (proj1 E) as E1. cbn [fst] in E1. conj; auto; lia.
  - destruct (drop_at full r l i Hi HD) as (D1 & D2 & D3).
    assert (Hr : 0 <= r <= 7).
    { rewrite <- D1. apply (Forall_nth_Z _ (fun i => 0 <= i <= 7)); auto. }
    assert (D2' : i < 7) by (unfold zlen in D2; lia).
    eapply sim_bind with (N1 := 0); [apply sim_slot; eauto; lia| |lia].
    intros h rf (S1 & S2 & S3).
    assert (EH : frame_offset (f_pre h) = F.RefOrderHint rf) by apply S1.
    assert (WH : 0 <= frame_offset (f_pre h) <= 255) by apply S2.
    rewrite !(poc_diff_eq sh ss) by auto. rewrite EH in *.
    set (rp := F.RefOrderHint rf) in *.
    assert (HX : hint_idx (i, rp)).
    { split; [cbn; lia|]. exists rf. cbn [fst snd]. rewrite D1. auto. }
    assert (G : forall idx hh o, ohint_rel i idx hh o -> ohint_rel (i + 1) idx hh o).
    { intros idx hh [[j h2]|]; cbn; auto. intros (A1 & A2 & A3 & A4 & A5). conj; auto; lia. }
    assert (NEW : ohint_rel (i + 1) i rp (Some (i, rp))) by (cbn [ohint_rel]; conj; auto; lia).
    assert (NE : F.get_relative_dist ss rp ob < 0 -> i <> obi).
    { intros Hlt ->. destruct HO as (_ & r0 & E1 & E2). cbn [fst snd] in E1, E2. rewrite D1, S3 in E1.
      inversion E1; subst r0. unfold rp in Hlt. rewrite E2, rel_dist_refl in Hlt. lia. }
    destruct st as [sh0 si]. cbn [fst snd] in *.
    destruct (Z.ltb_spec (F.get_relative_dist ss rp ob) 0).
    + specialize (NE H). destruct best as [[b hb]|]; cbn [ohint_rel] in HI.
      * destruct HI as (B1 & B2 & B3 & B4 & B5). subst b hb. replace (sh0 =? -1) with false by lia. cbn [orb].
        destruct (0 <? F.get_relative_dist ss rp sh0).
        -- apply IH; auto; lia.
        -- apply IH; auto; try lia. apply G. cbn. auto.
      * rewrite HI. cbn [Z.eqb Pos.eqb orb]. apply IH; auto; lia.
    + apply IH; auto; lia.
Qed.
End SkipMode.

Definition intra_eq (ft : Z) : Prop := is_inter_or_switch ft = negb (F.FrameIsIntra ft).
Lemma intra_spec : forall ft, 0 <= ft <= 3 -> intra_eq ft.
Proof. intros. assert (ft = 0 \/ ft = 1 \/ ft = 2 \/ ft = 3) as [->|[->|[->| ->]]] by lia; reflexivity. Qed.

Lemma sim_skip_mode : forall sh ss p g refs srefs ridx sidx scr N, seq_rel sh ss -> seq_wf sh ->
  slots_rel refs srefs -> prefix_rel p g -> prefix_wf p -> length ridx = 7%nat ->
  Forall (fun i => 0 <= i <= 7) ridx -> (is_inter_or_switch (frame_type p) = true -> ridx = sidx) ->
  0 <= scr <= 1 -> 0 <= N ->
  sim N (skip_mode sh refs p ridx scr) (F.skip_mode_params ss srefs g sidx scr)
    (fun x y => x = y /\ match x with Some (a, b) => 0 <= a < b /\ b <= 6 | None => True end).
Proof.
  intros sh ss p g refs srefs ridx sidx scr N HR HW HS HP WP HL HF HE Hs HN. unfold skip_mode, F.skip_mode_params.
  assert (EF : frame_type p = F.frame_type g) by apply HP.
  assert (EO : frame_offset p = F.OrderHint g) by apply HP.
  assert (WF : 0 <= frame_type p <= 3) by apply WP.
  assert (Eh : order_hint (sh_tools sh) = S.enable_order_hint (S.tools_ ss)) by apply HR.
  assert (Wh : 0 <= order_hint (sh_tools sh) <= 1) by apply HW.
  pose proof (intra_spec _ WF) as EI. unfold intra_eq in EI. rewrite <- EF, <- EO, <- Eh.
  rewrite (if_negb _ (F.FrameIsIntra (frame_type p) || _ || _)).
  apply sim_if; [rewrite EI; destruct (F.FrameIsIntra (frame_type p)); assert (order_hint (sh_tools sh) = 0 \/ order_hint (sh_tools sh) = 1) as [-> | ->] by lia; flag scr; auto| |]; intros HC.
  2:{ sret. auto. }
  assert (HI : is_inter_or_switch (frame_type p) = true).
  { destruct (is_inter_or_switch (frame_type p)); auto. rewrite andb_false_r in HC. discriminate. }
  specialize (HE HI). subst sidx.
  eapply sim_bind with (N1 := 0); [apply (sim_scan refs srefs ridx); auto; try lia; cbn; auto| |lia].
  intros [[[ob obi] oa] oai] [fwd bwd] (A & B & C). replace (N - 0) with N by lia.
  destruct fwd as [[a ha]|]; destruct bwd as [[b hb]|]; cbn [ohint_rel] in A, B.
  - destruct A as (-> & -> & A1 & A2 & A3). destruct B as (-> & -> & B1 & B2 & B3).
    replace (ob =? -1) with false by lia. replace (oa =? -1) with false by lia. cbn [negb andb].
    sret. split; [auto|]. lia.
  - destruct A as (-> & -> & A1 & A2 & A3). rewrite B.
    replace (ob =? -1) with false by lia. cbn [negb andb Z.eqb Pos.eqb].
    eapply sim_bind with (N1 := 0); [apply (sim_scan2 refs srefs ridx) with (obi := obi); auto; try lia; cbn; auto| |lia].
    intros [ob2 ob2i] y (D & E). cbn [fst snd] in D. destruct y as [[c hc]|]; cbn [ohint_rel] in D.
    + destruct D as (-> & -> & D1 & D2 & D3). replace (ob2 =? -1) with false by lia. cbn [negb].
      sret. split; [auto|]. lia.
    + rewrite D. cbn [negb Z.eqb Pos.eqb]. sret. auto.
  - rewrite A. cbn [negb andb Z.eqb Pos.eqb]. sret. auto.
  - rewrite A. cbn [negb andb Z.eqb Pos.eqb]. sret. auto.
Qed.

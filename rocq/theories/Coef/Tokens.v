(** The levels of the coefficients. *)
From Coq Require Import ZArith List Bool Lia Permutation.
From Verif Require Import Base.CInt Base.Lemmas Itx.ScanTables Itx.Txfm2d Itx.Spec2d Itx.Proofs2d Itx.ScanProofs
  Coef.Prog Coef.Model Coef.Ctx Coef.Types Coef.Geo.
From Verif Require Coef.Spec.
Import ListNotations.
Open Scope Z_scope.

Definition lo_row_ok (tx : nat) (t : list (list Z)) (r c : nat) : bool :=
  match rd_at t (Z.of_nat r) with
  | Ok row => match rd_at row (Z.of_nat c) with
    | Ok v => v =? (if Nat.ltb (width tx) (height tx) && Nat.ltb r 2 then 11
                    else if Nat.ltb (height tx) (width tx) && Nat.ltb c 2 then 16
                    else if Nat.ltb (r + c) 2 then 1 else if Nat.ltb (r + c) 4 then 6 else 21)
    | Undef => false end
  | Undef => false end.
Lemma lo_table : forall tx, (tx < 19)%nat ->
  exists t, rd_at lo_ctx_offsets_tbl (b2z (RTX_4X8 <=? Z.of_nat tx) + Z.land (Z.of_nat tx) (b2z (RTX_4X8 <=? Z.of_nat tx))) = Ok t /\
  forall r c, (r <= 4)%nat -> (c <= 4)%nat -> (r + c <> 0)%nat -> lo_row_ok tx t r c = true.
Proof.
  intros tx H.
  assert (G : exists t, rd_at lo_ctx_offsets_tbl (b2z (RTX_4X8 <=? Z.of_nat tx) + Z.land (Z.of_nat tx) (b2z (RTX_4X8 <=? Z.of_nat tx))) = Ok t /\
    forallb (fun r => forallb (fun c => Nat.eqb (r + c) 0 || lo_row_ok tx t r c) (seq 0 5)) (seq 0 5) = true).
  { do 19 (destruct tx as [|tx]; [eexists; split; [reflexivity|vm_compute; reflexivity]|]). lia. }
  destruct G as (t & G1 & G2). exists t. split; auto. intros r c R C N. rewrite forallb_forall in G2.
  specialize (G2 r ltac:(apply in_seq; lia)). cbv beta in G2. rewrite forallb_forall in G2.
  specialize (G2 c ltac:(apply in_seq; lia)). cbv beta in G2. apply orb_prop in G2. destruct G2 as [G2|G2]; auto.
  apply Nat.eqb_eq in G2. lia.
Qed.

Ltac change_mag := match goal with |- context [if 512 <? ?m then 4 else Z.shiftr (?m + 64) 7] =>
  change (if 512 <? m then 4 else Z.shiftr (m + 64) 7) with (mag5 m) end.

Lemma ctx5_range : forall a b c d e, 0 <= a <= 15 -> 0 <= b <= 15 -> 0 <= c <= 15 -> 0 <= d <= 15 -> 0 <= e <= 15 ->
  0 <= Z.min ((Z.min a 3 + (Z.min b 3 + (Z.min c 3 + (Z.min d 3 + (Z.min e 3 + 0)))) + 1) / 2) 4 <= 4.
Proof.
  intros. split; [|apply Z.le_min_r]. apply Z.min_glb; [|lia].
  assert (G : forall q, 0 <= q <= 15 -> 0 <= Z.min q 3) by (intros; lia).
  pose proof (G a). pose proof (G b). pose proof (G c). pose proof (G d). pose proof (G e). apply Z.div_pos; [|lia].
  set (Z.min a 3) in *. set (Z.min b 3) in *. set (Z.min c 3) in *. set (Z.min d 3) in *. set (Z.min e 3) in *. lia.
Qed.
Lemma one_d : forall a b c d e (y : nat), 0 <= a <= 15 -> 0 <= b <= 15 -> 0 <= c <= 15 -> 0 <= d <= 15 -> 0 <= e <= 15 ->
  let ctx := Z.min ((Z.min a 3 + (Z.min b 3 + (Z.min c 3 + (Z.min d 3 + (Z.min e 3 + 0)))) + 1) / 2) 4 in
  exists hi, Ok (26 + (if 1 <? Z.of_nat y then 10 else Z.of_nat y * 5) + ctx, lvl a + lvl b + lvl c) =
    Ok (ctx + 26 + 5 * Z.of_nat (Nat.min y 2), hi) /\
  Z.land hi 63 = Z.min a 15 + (Z.min b 15 + (Z.min c 15 + 0)) /\ 0 <= ctx + 26 + 5 * Z.of_nat (Nat.min y 2) < 41.
Proof.
  intros a b c d e y A B C D E ctx. assert (CT : 0 <= ctx <= 4).
  { apply ctx5_range; auto. }
  clearbody ctx. eexists. split; [|split; [apply mag_hi; auto|lia]]. f_equal. f_equal. destruct (Z.ltb_spec 1 (Z.of_nat y)); lia.
Qed.

(** *** The bytes and words that are written *)
Lemma lor_gt1 : forall a b : nat, (1 <? Z.lor (Z.of_nat a) (Z.of_nat b)) = negb (Nat.ltb a 2 && Nat.ltb b 2).
Proof.
  intros a b. assert (E : (Z.lor (Z.of_nat a) (Z.of_nat b)) / 2 = Z.lor (Z.of_nat a / 2) (Z.of_nat b / 2)).
  { rewrite <- !Z.div2_div, !Z.div2_spec. apply Z.shiftr_lor. }
  assert (P : 0 <= Z.lor (Z.of_nat a) (Z.of_nat b)) by (apply Z.lor_nonneg; lia).
  destruct (Nat.ltb_spec a 2), (Nat.ltb_spec b 2); cbn [andb negb].
  - rewrite (Z.div_small (Z.of_nat a)), (Z.div_small (Z.of_nat b)) in E by lia. change (Z.lor 0 0) with 0 in E. apply Z.ltb_ge. lia.
  - assert (Z.of_nat b / 2 <> 0) by lia. assert (Z.lor (Z.of_nat a / 2) (Z.of_nat b / 2) <> 0) by (rewrite Z.lor_eq_0_iff; tauto). apply Z.ltb_lt. lia.
  - assert (Z.of_nat a / 2 <> 0) by lia. assert (Z.lor (Z.of_nat a / 2) (Z.of_nat b / 2) <> 0) by (rewrite Z.lor_eq_0_iff; tauto). apply Z.ltb_lt. lia.
  - assert (Z.of_nat a / 2 <> 0) by lia. assert (Z.lor (Z.of_nat a / 2) (Z.of_nat b / 2) <> 0) by (rewrite Z.lor_eq_0_iff; tauto). apply Z.ltb_lt. lia.
Qed.
Lemma hi_mag_ctx : forall m, 0 <= m -> (if 12 <? m then 6 else Z.shiftr (m + 1) 1) = Z.min ((m + 1) / 2) 6.
Proof. intros m H. rewrite shiftr_div by lia. change (2 ^ 1) with 2. destruct (Z.ltb_spec 12 m); lia. Qed.
Lemma small_tok : forall tok rc, 0 <= tok <= 2 -> 0 <= rc < 1024 ->
  Z.land (Z.shiftr (tok * 0x17ff41) 9) (u32 (rc + u32 (Z.lnot 0x7ff))) = if tok =? 0 then 0 else tok * 2048 + rc.
Proof.
  intros tok rc T R.
  assert (G : forallb (fun t => forallb (fun r => Z.land (Z.shiftr (Z.of_nat t * 0x17ff41) 9) (u32 (Z.of_nat r + u32 (Z.lnot 0x7ff))) =?
                 if Z.of_nat t =? 0 then 0 else Z.of_nat t * 2048 + Z.of_nat r) (seq 0 1024)) (seq 0 3) = true) by (vm_compute; reflexivity).
  rewrite forallb_forall in G. specialize (G (Z.to_nat tok) ltac:(apply in_seq; lia)). cbv beta in G.
  rewrite forallb_forall in G. specialize (G (Z.to_nat rc) ltac:(apply in_seq; lia)). cbv beta in G.
  rewrite !Z2Nat.id in G by lia. apply Z.eqb_eq. exact G.
Qed.
Lemma small_level : forall tok, 0 <= tok <= 2 -> u8 (tok * 0x17ff41) = lvl tok /\ u8 (tok * 0x41) = lvl tok.
Proof. intros tok T. assert (E : tok = 0 \/ tok = 1 \/ tok = 2) by lia. destruct E as [ -> |[ -> | -> ]]; split; reflexivity. Qed.
Lemma big_level : forall tok, 3 <= tok <= 15 -> u8 (tok + Z.shiftl 3 6) = lvl tok.
Proof. intros tok T. change (Z.shiftl 3 6) with 192. unfold u8, lvl. rewrite Z.mod_small by lia. lia. Qed.
Lemma to_coef_small : forall e v, 0 <= v < 32768 -> to_coef e v = v.
Proof. intros e v V. unfold to_coef. destruct (_ =? _); [unfold s16|unfold s32]; apply sN_id; lia. Qed.
Lemma big_tok : forall e tok rc, 0 <= tok <= 15 -> 0 <= rc < 1024 -> to_coef e (Z.lor (Z.shiftl tok 11) rc) = tok * 2048 + rc.
Proof. intros e tok rc T R. rewrite shiftl_mul by lia. rewrite lor_shift_add by lia. apply to_coef_small. change (2 ^ 11) with 2048. lia. Qed.

Section TOKENS.
Variables (I : Spec.info) (e : env) (txtp : Z) (ty : nat).
Hypothesis M : matches I e txtp.
Local Notation tx := (Spec.i_tx I).
Local Notation tw := (scan_w tx).
Local Notation th := (scan_h tx).
Local Notation cls := (Spec.get_tx_class ty).
Local Notation N := (tw * th)%nat.
Local Notation s := (str cls th).
Local Notation pos := (pos I ty).
Local Notation cx := (cx I ty).
Local Notation cy := (cy I ty).
Hypothesis TY : (ty < 16)%nat.
Hypothesis AL : allowed tx ty = true.
Let TX : (tx < 19)%nat := m_tx _ _ _ M.

(** the table of context offsets *)
Definition lo_ok (lo : option (list (list Z))) : Prop :=
  cls = Spec.TX_CLASS_2D -> exists t, lo = Some t /\
    forall r c, (r <= 4)%nat -> (c <= 4)%nat -> (r + c <> 0)%nat -> lo_row_ok tx t r c = true.

Lemma min_of_nat : forall n, Z.min (Z.of_nat n) 4 = Z.of_nat (Nat.min n 4).
Proof. intros. lia. Qed.
Lemma cxy_2d : forall c, cls <> Spec.TX_CLASS_HORIZ -> cx c = (pos c mod tw)%nat /\ cy c = (pos c / tw)%nat.
Proof. intros c H. unfold Geo.cx, Geo.cy, px, py. destruct cls; auto; congruence. Qed.
Lemma cxy_h : forall c, cls = Spec.TX_CLASS_HORIZ -> cx c = (pos c / tw)%nat /\ cy c = (pos c mod tw)%nat.
Proof. intros c H. unfold Geo.cx, Geo.cy, px, py. rewrite H. auto. Qed.

Lemma lo_ctx_spec : forall levels Q lo c, LV I ty levels Q -> (c < N)%nat -> seen I ty Q c -> levels_ok Q -> lo_ok lo ->
  (cls = Spec.TX_CLASS_2D -> pos c <> 0%nat) ->
  exists hi, get_lo_ctx levels (Z.of_nat (cx c) * Z.of_nat s + Z.of_nat (cy c)) (mcls ty) lo (Z.of_nat (cx c)) (Z.of_nat (cy c)) (Z.of_nat s) =
    Ok (Spec.base_ctx I ty Q (pos c), hi) /\
    Z.land hi 63 = Spec.near I Q 15 (pos c / Spec.tw I) (pos c mod Spec.tw I) (Spec.mag_ref ty) /\
    0 <= Spec.base_ctx I ty Q (pos c) < 41.
Proof.
  intros levels Q lo c L C SE QO LO NZ.
  assert (R : forall dx dy, step_ok ty dx dy -> rd_at levels (Z.of_nat (cx c) * Z.of_nat s + Z.of_nat (cy c) + Z.of_nat dx * Z.of_nat s + Z.of_nat dy) =
     Ok (lvl (nbv I ty Q (cx c + dx) (cy c + dy)))).
  { intros dx dy K. apply nb_read; auto. }
  assert (NR : forall x y, 0 <= nbv I ty Q x y <= 15) by (intros; apply (nbv_range I ty TX TY AL); auto).
  unfold Spec.base_ctx. rewrite (near_xy I ty TX TY AL Q 3 c) by (auto; lia).
  rewrite (near_xy I ty TX TY AL Q 15 c) by (auto; lia). change (Spec.tw I) with tw.
  set (a := Z.of_nat (cx c) * Z.of_nat s + Z.of_nat (cy c)) in *. unfold get_lo_ctx.
  assert (R1 : step_ok ty 0 1 -> rd_at levels (a + 0 * Z.of_nat s + 1) = Ok (lvl (nbv I ty Q (cx c + 0) (cy c + 1)))) by (exact (R 0%nat 1%nat)).
  assert (R2 : step_ok ty 1 0 -> rd_at levels (a + 1 * Z.of_nat s + 0) = Ok (lvl (nbv I ty Q (cx c + 1) (cy c + 0)))) by (exact (R 1%nat 0%nat)).
  assert (R3 : step_ok ty 1 1 -> rd_at levels (a + 1 * Z.of_nat s + 1) = Ok (lvl (nbv I ty Q (cx c + 1) (cy c + 1)))) by (exact (R 1%nat 1%nat)).
  assert (R4 : step_ok ty 0 2 -> rd_at levels (a + 0 * Z.of_nat s + 2) = Ok (lvl (nbv I ty Q (cx c + 0) (cy c + 2)))) by (exact (R 0%nat 2%nat)).
  assert (R5 : step_ok ty 2 0 -> rd_at levels (a + 2 * Z.of_nat s + 0) = Ok (lvl (nbv I ty Q (cx c + 2) (cy c + 0)))) by (exact (R 2%nat 0%nat)).
  assert (R6 : step_ok ty 0 3 -> rd_at levels (a + 0 * Z.of_nat s + 3) = Ok (lvl (nbv I ty Q (cx c + 0) (cy c + 3)))) by (exact (R 0%nat 3%nat)).
  assert (R7 : step_ok ty 0 4 -> rd_at levels (a + 0 * Z.of_nat s + 4) = Ok (lvl (nbv I ty Q (cx c + 0) (cy c + 4)))) by (exact (R 0%nat 4%nat)).
  clear R. unfold mcls, Spec.mag_ref, Spec.sig_ref, step_ok in *. unfold lo_ok in LO. clearbody a.
  pose proof (cxy_2d c) as C2. pose proof (cxy_h c) as CH.
  pose proof (pos_lt I ty TX TY AL c C) as PL. destruct (split_pos tw th (pos c) PL) as (i & j & Hi & Hj & EP).
  destruct (div_mod_pos tw i j Hj) as [D1 D2]. rewrite <- EP in D1, D2. rewrite D1, D2 in *.
  destruct cls; cbn [fold_right fst snd].
  - destruct (C2 ltac:(discriminate)) as [E1 E2]. clear C2 CH. rewrite E1, E2 in *. clear E1 E2.
    rewrite R1, R2, R3, R4, R5 by lia. cbn [obind]. destruct (LO eq_refl) as (t & -> & LT). clear LO.
    rewrite !min_of_nat. specialize (LT (Nat.min i 4) (Nat.min j 4) ltac:(lia) ltac:(lia)).
    assert (NN : (Nat.min i 4 + Nat.min j 4 <> 0)%nat) by (intros E; apply (NZ eq_refl); lia).
    specialize (LT NN). unfold lo_row_ok in LT. destruct (rd_at t _) as [row|]; [|discriminate]. cbn [obind].
    destruct (rd_at row _) as [v|]; [|discriminate]. cbn [obind]. apply Z.eqb_eq in LT. cbv zeta.
    change_mag.
    rewrite mag_base by auto.
    replace (Nat.eqb i 0 && Nat.eqb j 0) with false by (destruct (Nat.eqb_spec i 0), (Nat.eqb_spec j 0); cbn; auto; lia).
    unfold Spec.base_offset. change (Nat.min i 4) with (Nat.min i 4) in *. rewrite <- LT.
    eexists. split; [|split].
    + f_equal. f_equal.
      match goal with |- _ + Z.min ((?a + (?b + (?c + (?d + (?e + 0)))) + 1) / 2) 4 = _ =>
        rewrite (Z.add_comm v); f_equal; f_equal; f_equal end. ring.
    + rewrite mag_hi by auto. ring.
    + assert (VB : 0 <= v <= 21) by (rewrite LT; clear; repeat match goal with |- context [if ?b then _ else _] => destruct b end; lia).
      match goal with |- 0 <= ?z + v < 41 => assert (0 <= z <= 4) by (apply ctx5_range; auto); set (zz := z) in *; clearbody zz end. clear - VB H. lia.
  - destruct (CH eq_refl) as [E1 E2]. clear C2 CH. rewrite E1, E2 in *. clear E1 E2.
    rewrite R1, R2, R4, R6, R7 by lia. cbn [obind]. cbv zeta. change_mag. rewrite mag_base by auto.
    apply (one_d _ _ _ _ _ j); auto.
  - destruct (C2 ltac:(discriminate)) as [E1 E2]. clear C2 CH. rewrite E1, E2 in *. clear E1 E2.
    rewrite R1, R2, R4, R6, R7 by lia. cbn [obind]. cbv zeta. change_mag. rewrite mag_base by auto.
    match goal with |- exists hi, Ok (26 + (if 1 <? Z.of_nat i then _ else _) + Z.min ((Z.min ?a 3 + (Z.min ?b 3 + (Z.min ?c 3 + (Z.min ?d 3 + (Z.min ?e 3 + 0)))) + 1) / 2) 4, _) = _ /\ _ =>
      destruct (one_d a b c d e i) as (hi & H1 & H2 & H3); auto end.
    exists hi. split; [exact H1|]. split; [rewrite H2; ring|exact H3].
Qed.

Definition tok_post (a b : Z) : Prop := a = b /\ 3 <= a <= 15.
Lemma hi_tok_spec : forall ctx, sim cdf_of tok_post
  (decode_hi_tok (C_br_tok (Z.min (Spec.txSzCtx I) 3) (chroma e) ctx)) (Spec.read_br I 4 ctx 3).
Proof.
  intros ctx. rewrite (m_chroma _ _ _ M). unfold decode_hi_tok. cbn [Spec.read_br].
  repeat (cbn [bind read]; constructor; [reflexivity|]; intros ? ?; cbn [bind];
    match goal with |- context [?v =? 3] => destruct (Z.eqb_spec v 3) as [ -> |];
      [change (3 <? 3) with false; cbv iota|rewrite (proj2 (Z.ltb_lt v 3)) by lia; constructor; unfold tok_post; lia] | _ => idtac end).
  match goal with |- context [?v <? 3] => destruct (v <? 3) end; constructor; unfold tok_post; lia.
Qed.

End TOKENS.

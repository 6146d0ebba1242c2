(** After a sequence header and a key frame all decoders agree. *)
From Coq Require Import ZArith List Bool Lia.
From Verif Require Import Base.CInt GetBits.Model GetBits.Sim Obu.SeqModel Obu.ObuSpec Obu.FrameModel Obu.FrameKey Dec.State Dec.Submit Dec.ObuModel Dec.LibModel
  Dec.Front Dec.Wf Dec.Inv Dec.Step Dec.OutSpec Dec.RecoverSpec Dec.Agree Dec.Parse Dec.Micro.
Import ListNotations.
Open Scope Z_scope.
Local Open Scope outcome_scope.

Ltac ag := unfold agree in *; dsimp; intuition congruence.
(** The same sequence. *)
Definition same_seq (d1 d2 : dec) : Prop :=
  d_idc d1 = d_idc d2 /\ d_max_sid d1 = d_max_sid d2 /\ d_seq d1 = d_seq d2 /\ d_jobs d1 = d_jobs d2.
(** ... and at most a key frame pending, the same one. *)
Definition keyed (d1 d2 : dec) : Prop :=
  same_seq d1 d2 /\ d_fhdr d1 = d_fhdr d2 /\ d_tiles d1 = d_tiles d2 /\ d_n_tiles d1 = d_n_tiles d2 /\
  forall h, d_fhdr d1 = Some h -> key_hdr h.
Ltac kd := unfold keyed, same_seq, agree in *; dsimp; intuition congruence.

Section Recover.
Variables (o : oracle) (s : settings).
Hypothesis BL : blind o.

(** Fields that output does not touch. *)
Definition still (d1 d2 : dec) : Prop := agree d1 d2 /\ d_refs d1 = d_refs d2.
Lemma still_refl : forall d, still d d. Proof. intros d. split; [apply agree_refl|reflexivity]. Qed.
Lemma keyed_still : forall a b a2 b2, keyed a b -> still a a2 -> still b b2 -> keyed a2 b2.
Proof.
  intros a b a2 b2 K (A & _) (B & _). unfold keyed, same_seq, agree in *. destruct K as (K1 & K2 & K3 & K4 & K5).
  split; [intuition congruence|]. split; [intuition congruence|]. split; [intuition congruence|]. split; [intuition congruence|].
  intros h E. apply K5. intuition congruence.
Qed.
Lemma refresh_all : forall x l, length l = 8%nat -> refresh_slots 0 255 (fun _ => x) l = repeat x 8.
Proof. intros x l E. destruct (eight _ l E) as (a & b & c & d & e & f & g & h & ->). reflexivity. Qed.
Lemma agree_refs_eq : forall a b l1 l2, keyed a b -> map bare_slot l1 = map bare_slot l2 -> agree (w_refs l1 a) (w_refs l2 b).
Proof. intros a b l1 l2 K E. kd. Qed.

Lemma submit_keyed : forall sq h m d1 d2 r1 r2 d1' d2' e1 e2, keyed d1 d2 -> key_hdr h -> length (d_refs d1) = 8%nat -> length (d_refs d2) = 8%nat ->
  submit_frame o s sq h m d1 = Ok (r1, d1', e1) -> submit_frame o s sq h m d2 = Ok (r2, d2', e2) ->
  r1 = r2 /\ keyed d1' d2' /\ work e1 = work e2 /\ (agree d1' d2' \/ forall j r, ~ In (Decoded j r) (work e1)).
Proof.
  intros sq h m d1 d2 r1 r2 d1' d2' e1 e2 A [KS KT KV KR KP KM] L1 L2 E1 E2. unfold submit_frame in *. cbv zeta in *.
  rewrite KT, KR, KP in *. change (is_inter_or_switch FT_KEY) with false in *. cbn [andb orb PRIMARY_REF_NONE Z.eqb Pos.eqb] in E1, E2.
  destruct (if s_n_fc s =? 1 then Ok (d1, []) else ring_take s d1) as [[a x1]|] eqn:R1; [|discriminate].
  destruct (if s_n_fc s =? 1 then Ok (d2, []) else ring_take s d2) as [[b x2]|] eqn:R2; [|discriminate]. cbn [obind] in *.
  assert (C : (still d1 a /\ still d2 b) /\ work x1 = [] /\ work x2 = []).
  { destruct (s_n_fc s =? 1); [injection R1 as <- <-; injection R2 as <- <-; auto using still_refl|].
    apply ring_core in R1. apply ring_core in R2. destruct R1 as (X1 & Y1 & Z1), R2 as (X2 & Y2 & Z2). unfold still. auto. }
  clear R1 R2. destruct C as ((S1 & S2) & W1 & W2). generalize dependent (d_next d1). generalize dependent (d_next d2). intros i2 E2 i1 E1.
  pose proof (keyed_still _ _ _ _ A S1 S2) as K. destruct S1 as (_ & S1), S2 as (_ & S2). rewrite S1 in L1. rewrite S2 in L2. clear A S1 S2 d1 d2.
  assert (A0 : keyed (w_fhdr None a) (w_fhdr None b)) by (unfold keyed, same_seq in *; dsimp; intuition congruence).
  change (d_refs a) with (d_refs (w_fhdr None a)) in L1. change (d_refs b) with (d_refs (w_fhdr None b)) in L2. revert E1 E2.
  set (a0 := w_fhdr None a) in *. set (b0 := w_fhdr None b) in *. clearbody a0 b0. clear K a b. intros E1 E2.
  assert (FK : forall i m d, still d (submit_fail s i m d)).
  { intros i mm d. split; [apply agree_sym, fail_core|]. unfold submit_fail. destruct (_ =? 1); reflexivity. }
  assert (RF : forall r a b, keyed a b -> Ok (r, submit_fail s i1 m a, x1 ++ [EvRefuse h r]) = Ok (r1, d1', e1) ->
     Ok (r, submit_fail s i2 m b, x2 ++ [EvRefuse h r]) = Ok (r2, d2', e2) ->
     r1 = r2 /\ keyed d1' d2' /\ work e1 = work e2 /\ (agree d1' d2' \/ forall j r, ~ In (Decoded j r) (work e1))).
  { intros r a b AB F1 F2. injection F1 as <- <- <-. injection F2 as <- <- <-. split; [reflexivity|]. split; [|split].
    - eapply keyed_still; eauto.
    - rewrite !work_app, W1, W2. reflexivity.
    - right. rewrite work_app, W1. cbn. intuition discriminate. }
  pose proof A0 as ((_ & _ & _ & AJ) & _ & AT & _). rewrite <- AT, <- AJ in E2. clear AT AJ. revert E1 E2.
  assert (A1 : keyed (w_jobs (d_jobs a0 + 1) (w_tiles [] a0)) (w_jobs (d_jobs a0 + 1) (w_tiles [] b0))).
  { unfold keyed, same_seq in *; dsimp; intuition congruence. }
  change (d_refs a0) with (d_refs (w_jobs (d_jobs a0 + 1) (w_tiles [] a0))) in L1.
  change (d_refs b0) with (d_refs (w_jobs (d_jobs a0 + 1) (w_tiles [] b0))) in L2.
  set (a1 := w_jobs (d_jobs a0 + 1) (w_tiles [] a0)) in *. set (b1 := w_jobs (d_jobs a0 + 1) (w_tiles [] b0)) in *. clearbody a1 b1.
  generalize (d_tiles a0) (d_jobs a0). clear a0 b0 A0. intros tl id E1 E2.
  destruct tl as [|t0 tl]; [discriminate|].
  destruct (o_alloc o id sq h <? 0); [eapply RF; eauto|].
  assert (AC : forall d, still d (pic_alloc_ctx s h d)).
  { intros d. split; [apply agree_sym, alloc_core|]. unfold pic_alloc_ctx. cbv zeta. destruct (z2b (show_frame _)); reflexivity. }
  pose proof (keyed_still _ _ _ _ A1 (AC a1) (AC b1)) as A2.
  rewrite (proj2 (AC a1)) in L1. rewrite (proj2 (AC b1)) in L2.
  assert (NP : forall bad, bare (new_pic s sq h id (tg_props t0) bad a1) = bare (new_pic s sq h id (tg_props t0) bad b1)) by (intros; apply new_pic_bare).
  revert E1 E2.
  set (a2 := pic_alloc_ctx s h a1) in *. set (b2 := pic_alloc_ctx s h b1) in *. clearbody a2 b2.
  intros E1 E2. cbv beta in *.
  destruct (_ && _); [eapply RF; eauto|]. clear RF.
  assert (SG : take_segmap a2 h [] id = take_segmap b2 h [] id /\ exists x, take_segmap a2 h [] id = Ok x).
  { unfold take_segmap. destruct (z2b (sg_enabled (f_seg h))); [|eauto]. destruct (KM eq_refl) as (-> & ->). cbn. eauto. }
  destruct SG as (SG & ((prev & cur) & SX)). rewrite <- SG in E2. rewrite SX in E1, E2. cbn [obind] in *. cbv beta iota in *.
  set (j1 := mkJob _ _ _ _ _ _ _ _ _) in *. clearbody j1.
  assert (RS : forall x y, bare x = bare y -> forall a b c, map bare_slot (repeat (mkSlot (Some x) a b c) 8) = map bare_slot (repeat (mkSlot (Some y) a b c) 8)).
  { intros x y E u v w. cbn [map repeat]. unfold bare_slot at 1 2 3 4 5 6 7 8 9 10 11 12 13 14 15 16. cbn. rewrite E. reflexivity. }
  destruct (s_n_fc s =? 1).
  - destruct (if _ || _ then put_out _ a2 else _) as [a3|] eqn:P1; [|discriminate].
    destruct (if _ || _ then put_out _ b2 else _) as [b3|] eqn:P2; [|discriminate]. cbn [obind] in *. cbv beta iota in *.
    assert (A3 : (still a2 a3 /\ still b2 b3)).
    { destruct (_ || _); [|injection P1 as <-; injection P2 as <-; auto using still_refl].
      apply put_core in P1. apply put_core in P2. destruct P1 as (P1 & P3), P2 as (P2 & P4). unfold still. auto. }
    clear P1 P2. destruct A3 as (S1 & S2). pose proof (keyed_still _ _ _ _ A2 S1 S2) as A3. rewrite (proj2 S1) in L1. rewrite (proj2 S2) in L2.
    destruct (dr_ret (o_decode o j1) <? 0).
    + injection E1 as <- <- <-. injection E2 as <- <- <-. split; [reflexivity|].
      assert (AG : agree (submit_fail s i1 m (w_refs (refresh_slots 0 255 (fun _ => slot0) (d_refs a3)) (w_out None a3)))
                         (submit_fail s i2 m (w_refs (refresh_slots 0 255 (fun _ => slot0) (d_refs b3)) (w_out None b3)))).
      { eapply agree_trans; [apply fail_core|]. eapply agree_trans; [|apply agree_sym, fail_core].
        rewrite !refresh_all by assumption. clear - A3. kd. }
      split; [|split; [|left; exact AG]].
      * clear - A3 AG FK. destruct A3 as ((K1 & K2 & K3 & K4) & K5 & K6 & K7 & K8). unfold keyed. split; [unfold same_seq; clear - AG; ag|].
        split; [clear - AG; ag|]. split; [clear - AG; ag|]. split; [clear - AG; ag|]. intros h0 E. apply K8.
        rewrite <- E. pose proof (proj1 (FK i1 m (w_refs (refresh_slots 0 255 (fun _ => slot0) (d_refs a3)) (w_out None a3)))) as (_ & _ & _ & F & _).
        rewrite <- F. reflexivity.
      * rewrite !work_app, W1, W2. reflexivity.
    + injection E1 as <- <- <-. injection E2 as <- <- <-. split; [reflexivity|]. split; [|split].
      * clear - A3. unfold keyed, same_seq in *. dsimp. intuition congruence.
      * rewrite !work_app, W1, W2. cbn. destruct (_ || _); reflexivity.
      * left. apply agree_refs_eq; [exact A3|]. rewrite !refresh_all by assumption. apply RS, NP.
  - cbn [obind] in *. cbv beta iota in *. injection E1 as <- <- <-. injection E2 as <- <- <-. split; [reflexivity|]. split; [|split].
    + clear - A2. unfold keyed, same_seq in *. dsimp. intuition congruence.
    + rewrite !work_app, W1, W2. reflexivity.
    + left. apply agree_refs_eq; [clear - A2; unfold keyed, same_seq in *; dsimp; intuition congruence|].
      dsimp. rewrite !refresh_all by assumption. apply RS, NP.
Qed.

Lemma after_keyed : forall n m d1 d2 r1 r2 d1' d2' e1 e2, keyed d1 d2 -> length (d_refs d1) = 8%nat -> length (d_refs d2) = 8%nat ->
  after_switch o s n m d1 = Ok (r1, d1', e1) -> after_switch o s n m d2 = Ok (r2, d2', e2) ->
  r1 = r2 /\ keyed d1' d2' /\ work e1 = work e2 /\ (agree d1' d2' \/ forall j r, ~ In (Decoded j r) (work e1)).
Proof.
  intros n m d1 d2 r1 r2 d1' d2' e1 e2 K L1 L2 E1 E2. unfold after_switch in *.
  pose proof K as ((_ & _ & AS & _) & AH & AT & AN & KH). rewrite <- AS, <- AH, <- AN in E2.
  assert (Q : forall r a b, keyed a b -> Ok (r, a, []) = Ok (r1, d1', e1) -> Ok (r, b, []) = Ok (r2, d2', e2) ->
    r1 = r2 /\ keyed d1' d2' /\ work e1 = work e2 /\ (agree d1' d2' \/ forall j r, ~ In (Decoded j r) (work e1))).
  { intros r a b AB F1 F2. injection F1 as <- <- <-. injection F2 as <- <- <-. split; [reflexivity|]. split; [exact AB|]. split; [reflexivity|].
    right. auto. }
  destruct (d_seq d1) as [q|]; [|eapply Q; eauto]. destruct (d_fhdr d1) as [h|]; [|eapply Q; eauto].
  pose proof (KH h eq_refl) as KY. rewrite (kh_show h KY) in E1, E2. change (z2b 0) with false in *. cbv iota in *.
  destruct (_ =? _); [|eapply Q; eauto]. unfold frame_complete in *.
  assert (DD : dft_drops s h = false) by (unfold dft_drops; rewrite (kh_type h KY); reflexivity).
  rewrite DD in *. rewrite <- AT in E2. destruct (is_none _).
  { unfold obu_error in *. eapply Q; [|exact E1|exact E2]. clear - K. unfold keyed, same_seq in *. dsimp. intuition congruence. }
  destruct (submit_frame o s q h m d1) as [[[ra a2] f1]|] eqn:S1; [|discriminate].
  destruct (submit_frame o s q h m d2) as [[[rb b2] f2]|] eqn:S2; [|discriminate]. cbn [obind] in *.
  destruct (submit_keyed _ _ _ _ _ _ _ _ _ _ _ K KY L1 L2 S1 S2) as (<- & K2 & W & D).
  destruct (ra <? 0); [injection E1 as <- <- <-; injection E2 as <- <- <-; auto|].
  destruct (is_none (hd_error (d_tiles a2))); [|discriminate]. destruct (is_none (hd_error (d_tiles b2))); [|discriminate].
  injection E1 as <- <- <-. injection E2 as <- <- <-. split; [reflexivity|]. split; [|split; [exact W|]].
  - clear - K2. unfold keyed, same_seq in *. dsimp. intuition congruence.
  - destruct D as [D|D]; [left; clear - D; ag|auto].
Qed.

Definition sw_keyed (x y : sw) : Prop :=
  match x, y with
  | SwGo a, SwGo b => keyed a b
  | SwErr a, SwErr b => keyed a b
  | SwRet r a, SwRet q b => r = q /\ keyed a b
  | _, _ => False
  end.
Ltac kq := unfold keyed, same_seq in *; dsimp; intuition congruence.
Lemma tile_keyed : forall m c d1 d2 x y, keyed d1 d2 -> tile_group m c d1 = Ok x -> tile_group m c d2 = Ok y -> sw_keyed x y.
Proof.
  intros m c d1 d2 x y A E1 E2. unfold tile_group in *. pose proof A as (_ & AH & AT & AN & KH). rewrite <- AH, <- AT, <- AN in E2.
  destruct (d_fhdr d1) as [h|] eqn:EH; [|injection E1 as <-; injection E2 as <-; exact A]. pose proof (KH h eq_refl) as KY.
  destruct (exec (parse_tile_hdr h) c) as [[[[st en]|] c1]|]; cbn [obind] in *; try discriminate.
  destruct (gb_align c1) as [c2|]; cbn [obind] in *; [|discriminate].
  destruct (gb_err c2); [injection E1 as <-; injection E2 as <-; exact A|].
  destruct (_ || _); injection E1 as <-; injection E2 as <-; cbn [sw_keyed]; kq.
Qed.
Lemma key_header : forall type tid sid m c d1 d2 x y q h c', same_seq d1 d2 -> d_seq d1 = Some q ->
  exec (parse_frame_hdr q (repeat None 8) (s_strict s) tid sid) c = Ok (inl h, c') -> show_existing_frame h = 0 ->
  frame_type (f_pre h) = FT_KEY -> z2b (show_frame (f_pre h)) = true ->
  frame_header s type tid sid m c d1 = Ok x -> frame_header s type tid sid m c d2 = Ok y -> sw_keyed x y.
Proof.
  intros type tid sid m c d1 d2 x y q h c' A ES EX H1 H2 H3 E1 E2. unfold frame_header in *. pose proof A as (_ & _ & AS & _). rewrite <- AS, ES in E2.
  rewrite ES in E1.
  destruct (hdr_key _ _ (slot_hdrs d1) _ _ _ _ _ _ EX H1 H2 H3) as (X1 & KY). destruct (hdr_key _ _ (slot_hdrs d2) _ _ _ _ _ _ EX H1 H2 H3) as (X2 & _).
  rewrite X1 in E1. rewrite X2 in E2. cbn [obind] in *.
  destruct (if type =? OBU_FRAME then _ else _) as [[ok c2]|]; cbn [obind] in *; [|discriminate].
  destruct (negb ok); [injection E1 as <-; injection E2 as <-; cbn [sw_keyed]; kq|].
  destruct (_ && _); [injection E1 as <-; injection E2 as <-; cbn [sw_keyed]; split; [reflexivity|kq]|].
  destruct (negb _); [injection E1 as <-; injection E2 as <-; cbn [sw_keyed]; kq|].
  rewrite H1 in E1, E2. change (z2b 0) with false in *. cbv iota in E1, E2.
  destruct (gb_align c2) as [c3|]; cbn [obind] in *; [|discriminate].
  refine (tile_keyed _ _ _ _ _ _ _ E1 E2). kq.
Qed.

(** Types of OBUs that are no headers. *)
Definition no_header (type : Z) : Prop :=
  type <> OBU_SEQ_HDR /\ type <> OBU_FRAME_HDR /\ type <> OBU_FRAME /\ type <> OBU_REDUNDANT_FRAME_HDR.
Lemma other_keyed : forall type tid sid m c d1 d2 x y, keyed d1 d2 -> no_header type ->
  obu_switch s type tid sid m c d1 = Ok x -> obu_switch s type tid sid m c d2 = Ok y -> sw_keyed x y.
Proof.
  intros type tid sid m c d1 d2 x y A (N1 & N2 & N3 & N4) E1 E2. unfold obu_switch in *.
  apply Z.eqb_neq in N1, N2, N3, N4. rewrite N1, N2, N3, N4 in *. cbn [orb andb] in *.
  destruct (type =? OBU_TILE_GRP); [exact (tile_keyed _ _ _ _ _ _ A E1 E2)|].
  destruct (type =? OBU_METADATA).
  { unfold metadata in *. destruct (exec get_uleb128 c) as [[[t|] c1]|]; cbn [obind] in *; try discriminate.
    destruct (gb_err c1); [injection E1 as <-; injection E2 as <-; exact A|].
    destruct (t =? META_HDR_CLL).
    { destruct (exec _ c1) as [[[u|] c2]|]; cbn [obind] in *; try discriminate; injection E1 as <-; injection E2 as <-; cbn [sw_keyed]; kq. }
    destruct (t =? META_HDR_MDCV).
    { destruct (exec _ c1) as [[[u|] c2]|]; cbn [obind] in *; try discriminate; injection E1 as <-; injection E2 as <-; cbn [sw_keyed]; kq. }
    destruct (t =? META_ITUT_T35); [|injection E1 as <-; injection E2 as <-; exact A].
    destruct (parse_itut c1) as [[u|]|]; cbn [obind] in *; try discriminate; injection E1 as <-; injection E2 as <-; cbn [sw_keyed]; kq. }
  destruct (type =? OBU_TD); injection E1 as <-; injection E2 as <-; cbn [sw_keyed]; kq.
Qed.

(** One OBU. *)
Definition first_type (buf : list Z) (type : Z) : Prop := exists h a b, next_obu buf 0 = Some (h, a, b) /\ obu_type h = type.
Definition starts_key (q : seq_hdr) (buf : list Z) : Prop :=
  exists type ext tid sid c h c', obu_open (s_strict s) buf = Ok (Some (type, ext, tid, sid, c)) /\
    (type = OBU_FRAME \/ type = OBU_FRAME_HDR) /\
    exec (parse_frame_hdr q (repeat None 8) (s_strict s) tid sid) c = Ok (inl h, c') /\ show_existing_frame h = 0 /\
    frame_type (f_pre h) = FT_KEY /\ z2b (show_frame (f_pre h)) = true.
Lemma sw_refs8 : forall type tid sid m c d x, dec_inv s d -> 
  obu_switch s type tid sid m c d = Ok x -> length (d_refs (sw_dec x)) = 8%nat.
Proof.
  intros type tid sid m c d x I E. pose proof (inv_refs _ _ I) as L.
  assert (TG : forall m c d x, tile_group m c d = Ok x -> d_refs (sw_dec x) = d_refs d).
  { clear. intros m c d x E. unfold tile_group in E. destruct (d_fhdr d); [|injection E as <-; reflexivity].
    destruct (exec _ c) as [[[[st en]|] c1]|]; cbn [obind] in *; try discriminate.
    destruct (gb_align c1); cbn [obind] in *; [|discriminate]. destruct (gb_err _); [injection E as <-; reflexivity|].
    destruct (_ || _); injection E as <-; reflexivity. }
  unfold obu_switch in E.
  destruct (type =? OBU_SEQ_HDR).
  { destruct (exec _ c) as [[[q|] c2]|]; cbn [obind] in *; try discriminate; injection E as <-; cbn [sw_dec]; [|exact L].
    unfold new_seq_hdr. cbv zeta. dsimp. destruct (d_seq d); [|exact L]. destruct (negb _); [reflexivity|]. destruct (negb _); exact L. }
  destruct (_ && _); [injection E as <-; exact L|].
  destruct (_ || _).
  { unfold frame_header in E. destruct (d_seq d); [|injection E as <-; exact L].
    destruct (exec _ c) as [[[h|] c1]|]; cbn [obind] in *; [| |discriminate]; [|injection E as <-; exact L].
    destruct (if type =? OBU_FRAME then _ else _) as [[ok c2]|]; cbn [obind] in *; [|discriminate].
    destruct (negb ok); [injection E as <-; exact L|]. destruct (_ && _); [injection E as <-; exact L|].
    destruct (negb _); [injection E as <-; exact L|]. destruct (z2b _); [injection E as <-; exact L|].
    destruct (gb_align c2) as [c3|]; cbn [obind] in *; [|discriminate]. rewrite (TG _ _ _ _ E). exact L. }
  destruct (type =? OBU_TILE_GRP); [rewrite (TG _ _ _ _ E); exact L|].
  destruct (type =? OBU_METADATA).
  { unfold metadata in *. destruct (exec get_uleb128 c) as [[[t|] c1]|]; cbn [obind] in *; try discriminate.
    destruct (gb_err c1); [injection E as <-; exact L|].
    destruct (t =? META_HDR_CLL).
    { destruct (exec _ c1) as [[[u|] c2]|]; cbn [obind] in *; try discriminate; injection E as <-; exact L. }
    destruct (t =? META_HDR_MDCV).
    { destruct (exec _ c1) as [[[u|] c2]|]; cbn [obind] in *; try discriminate; injection E as <-; exact L. }
    destruct (t =? META_ITUT_T35); [|injection E as <-; exact L].
    destruct (parse_itut c1) as [[u|]|]; cbn [obind] in *; try discriminate; injection E as <-; exact L. }
  destruct (type =? OBU_TD); injection E as <-; exact L.
Qed.
Lemma keyed_end : forall n m x y d1' d2' r1 r2 e1 e2, sw_keyed x y -> length (d_refs (sw_dec x)) = 8%nat -> length (d_refs (sw_dec y)) = 8%nat ->
  match x with SwErr d => obu_error m d [] | SwRet r d => Ok (r, d, []) | SwGo d => after_switch o s n m d end = Ok (r1, d1', e1) ->
  match y with SwErr d => obu_error m d [] | SwRet r d => Ok (r, d, []) | SwGo d => after_switch o s n m d end = Ok (r2, d2', e2) ->
  r1 = r2 /\ keyed d1' d2' /\ work e1 = work e2 /\ (agree d1' d2' \/ forall j r, ~ In (Decoded j r) (work e1)).
Proof.
  intros n m x y d1' d2' r1 r2 e1 e2 K L1 L2 E1 E2. destruct x as [a|a|ra a], y as [b|b|rb b]; try contradiction; cbn [sw_keyed sw_dec] in *.
  - exact (after_keyed _ _ _ _ _ _ _ _ _ _ K L1 L2 E1 E2).
  - unfold obu_error in *. injection E1 as <- <- <-. injection E2 as <- <- <-. split; [reflexivity|]. split; [kq|]. split; [reflexivity|right; auto].
  - destruct K as (<- & K). injection E1 as <- <- <-. injection E2 as <- <- <-. split; [reflexivity|]. split; [exact K|]. split; [reflexivity|right; auto].
Qed.
Lemma other_step : forall buf m d1 d2 type r1 r2 d1' d2' e1 e2, keyed d1 d2 -> dec_inv s d1 -> dec_inv s d2 ->
  Forall is_byte buf -> 0 < zlen buf -> first_type buf type -> no_header type ->
  parse_obus o s buf m d1 = Ok (r1, d1', e1) -> parse_obus o s buf m d2 = Ok (r2, d2', e2) ->
  r1 = r2 /\ keyed d1' d2' /\ work e1 = work e2 /\ (agree d1' d2' \/ forall j r, ~ In (Decoded j r) (work e1)).
Proof.
  intros buf m d1 d2 type r1 r2 d1' d2' e1 e2 K I1 I2 HB HL (h & a & b & N & T) NH E1 E2. unfold parse_obus in *.
  destruct (obu_open_ok (s_strict s) buf HB HL) as (x & X & Y). rewrite X in *. cbn [obind] in *.
  destruct x as [[[[[ty ext] tid] sid] c]|].
  2:{ unfold obu_error in *. injection E1 as <- <- <-. injection E2 as <- <- <-. split; [reflexivity|]. split; [kq|]. split; [reflexivity|right; auto]. }
  destruct Y as (h' & st & sp & N' & _ & -> & _). rewrite N in N'. injection N' as <- <- <-. rewrite T in *.
  pose proof K as ((AI & _) & _). rewrite <- AI in E2. destruct (layer_dropped _ _ _ _ _).
  { injection E1 as <- <- <-. injection E2 as <- <- <-. split; [reflexivity|]. split; [exact K|]. split; [reflexivity|right; auto]. }
  destruct (obu_switch s type tid sid m c d1) as [x|] eqn:X1; [|discriminate].
  destruct (obu_switch s type tid sid m c d2) as [y|] eqn:X2; [|discriminate]. cbn [obind] in *.
  refine (keyed_end _ _ _ _ _ _ _ _ _ _ (other_keyed _ _ _ _ _ _ _ _ _ K NH X1 X2) (sw_refs8 _ _ _ _ _ _ _ I1 X1) (sw_refs8 _ _ _ _ _ _ _ I2 X2) E1 E2).
Qed.
Lemma key_step : forall buf m d1 d2 q r1 r2 d1' d2' e1 e2, same_seq d1 d2 -> d_seq d1 = Some q -> dec_inv s d1 -> dec_inv s d2 ->
  starts_key q buf ->
  parse_obus o s buf m d1 = Ok (r1, d1', e1) -> parse_obus o s buf m d2 = Ok (r2, d2', e2) ->
  r1 = r2 /\ work e1 = work e2 /\ ((d1' = d1 /\ d2' = d2 /\ work e1 = []) \/ keyed d1' d2' /\ (agree d1' d2' \/ forall j r, ~ In (Decoded j r) (work e1))).
Proof.
  intros buf m d1 d2 q r1 r2 d1' d2' e1 e2 K ES I1 I2 (type & ext & tid & sid & c & h & c' & X & T & EX & H1 & H2 & H3) E1 E2.
  unfold parse_obus in *. rewrite X in *. cbn [obind] in *.
  pose proof K as (AI & _). rewrite <- AI in E2. destruct (layer_dropped _ _ _ _ _).
  { injection E1 as <- <- <-. injection E2 as <- <- <-. auto 6. }
  destruct (obu_switch s type tid sid m c d1) as [x|] eqn:X1; [|discriminate].
  destruct (obu_switch s type tid sid m c d2) as [y|] eqn:X2; [|discriminate]. cbn [obind] in *.
  pose proof (sw_refs8 _ _ _ _ _ _ _ I1 X1) as L1. pose proof (sw_refs8 _ _ _ _ _ _ _ I2 X2) as L2.
  assert (SK : sw_keyed x y).
  { unfold obu_switch in X1, X2. destruct T as [-> | ->]; cbn in X1, X2; eapply key_header; eauto. }
  destruct (keyed_end _ _ _ _ _ _ _ _ _ _ SK L1 L2 E1 E2) as (A & B & C & D). auto.
Qed.
End Recover.

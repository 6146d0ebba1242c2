(** Decoders that agree on the state decoding depends on do the same work. *)
From Coq Require Import ZArith List Bool Lia.
From Verif Require Import Base.CInt GetBits.Model GetBits.Sim Obu.SeqModel Obu.FrameModel Dec.State Dec.Submit Dec.ObuModel Dec.LibModel
  Dec.Inv Dec.Step Dec.OutSpec Dec.RecoverSpec Dec.Micro.
Import ListNotations.
Open Scope Z_scope.
Local Open Scope outcome_scope.

Lemma some_inj : forall A (x y : A), Some x = Some y -> x = y. Proof. intros A x y E. injection E as E. exact E. Qed.
Lemma cons_inj : forall A (x y : A) l k, x :: l = y :: k -> x = y /\ l = k. Proof. intros A x y l k E. injection E as E F. auto. Qed.

Section Agree.
Variables (o : oracle) (s : settings).
Hypothesis BL : blind o.

Lemma agree_slot : forall d1 d2 i, agree d1 d2 -> bare_slot (slot_at d1 i) = bare_slot (slot_at d2 i).
Proof.
  intros d1 d2 i (_ & _ & _ & _ & _ & _ & R & _). unfold slot_at. change slot0 with (bare_slot slot0) at 1 2.
  rewrite <- !(map_nth bare_slot). change (bare_slot slot0) with slot0. rewrite R. reflexivity.
Qed.
Lemma slot_parts : forall x y, bare_slot x = bare_slot y ->
  option_map bare (r_pic x) = option_map bare (r_pic y) /\ r_cdf x = r_cdf y /\ r_segmap x = r_segmap y /\ r_refmvs x = r_refmvs y.
Proof. intros x y H. unfold bare_slot in H. injection H as A B C D. auto. Qed.
Lemma bare_parts : forall p q, bare p = bare q -> tp_hdr p = tp_hdr q /\ tp_seq p = tp_seq q /\ tp_buf p = tp_buf q /\
  tp_showable p = tp_showable q /\ tp_bad p = tp_bad q.
Proof. intros p q H. unfold bare in H. injection H as A B C D E. auto. Qed.
Lemma agree_hdrs : forall d1 d2, agree d1 d2 -> slot_hdrs d1 = slot_hdrs d2.
Proof.
  intros d1 d2 (_ & _ & _ & _ & _ & _ & R & _). unfold slot_hdrs.
  assert (E : forall l, map slot_hdr l = map slot_hdr (map bare_slot l)).
  { intros l. rewrite map_map. apply map_ext. intros x. unfold slot_hdr, bare_slot. cbn [r_pic]. destruct (r_pic x); reflexivity. }
  rewrite (E (d_refs d1)), (E (d_refs d2)), R. reflexivity.
Qed.

Definition sw_agree (x y : sw) : Prop :=
  match x, y with
  | SwGo a, SwGo b => agree a b
  | SwErr a, SwErr b => agree a b
  | SwRet r a, SwRet q b => r = q /\ agree a b
  | _, _ => False
  end.
Ltac ag := unfold agree in *; dsimp; intuition congruence.

Lemma tile_agree : forall m c d1 d2 x y, agree d1 d2 -> tile_group m c d1 = Ok x -> tile_group m c d2 = Ok y -> sw_agree x y.
Proof.
  intros m c d1 d2 x y A E1 E2. unfold tile_group in *. pose proof A as (_ & _ & _ & AH & AT & AN & _). rewrite <- AH, <- AT, <- AN in E2.
  destruct (d_fhdr d1) as [h|]; [|injection E1 as <-; injection E2 as <-; exact A].
  destruct (exec (parse_tile_hdr h) c) as [[[[st en]|] c1]|]; cbn [obind] in *; try discriminate.
  destruct (gb_align c1) as [c2|]; cbn [obind] in *; [|discriminate].
  destruct (gb_err c2); [injection E1 as <-; injection E2 as <-; exact A|].
  destruct (_ || _); injection E1 as <-; injection E2 as <-; cbn [sw_agree]; ag.
Qed.
Lemma header_agree : forall type tid sid m c d1 d2 x y, agree d1 d2 ->
  frame_header s type tid sid m c d1 = Ok x -> frame_header s type tid sid m c d2 = Ok y -> sw_agree x y.
Proof.
  intros type tid sid m c d1 d2 x y A E1 E2. unfold frame_header in *. pose proof A as (_ & _ & AS & _). rewrite <- AS in E2.
  rewrite <- (agree_hdrs _ _ A) in E2. destruct (d_seq d1) as [q|]; [|injection E1 as <-; injection E2 as <-; exact A].
  destruct (exec (parse_frame_hdr _ _ _ _ _) c) as [[[h|] c1]|]; cbn [obind] in *; [| |discriminate].
  2:{ injection E1 as <-; injection E2 as <-. cbn [sw_agree]. ag. }
  destruct (if type =? OBU_FRAME then _ else _) as [[ok c2]|]; cbn [obind] in *; [|discriminate].
  destruct (negb ok); [injection E1 as <-; injection E2 as <-; cbn [sw_agree]; ag|].
  destruct (_ && _); [injection E1 as <-; injection E2 as <-; cbn [sw_agree]; split; [reflexivity|ag]|].
  destruct (negb _); [injection E1 as <-; injection E2 as <-; cbn [sw_agree]; ag|].
  destruct (z2b _); [injection E1 as <-; injection E2 as <-; cbn [sw_agree]; ag|].
  destruct (gb_align c2) as [c3|]; cbn [obind] in *; [|discriminate].
  refine (tile_agree _ _ _ _ _ _ _ E1 E2). ag.
Qed.
Lemma meta_agree : forall c d1 d2 x y, agree d1 d2 -> metadata s c d1 = Ok x -> metadata s c d2 = Ok y -> sw_agree x y.
Proof.
  intros c d1 d2 x y A E1 E2. unfold metadata in *.
  destruct (exec get_uleb128 c) as [[[t|] c1]|]; cbn [obind] in *; try discriminate.
  destruct (gb_err c1); [injection E1 as <-; injection E2 as <-; exact A|].
  destruct (t =? META_HDR_CLL).
  { destruct (exec _ c1) as [[[u|] c2]|]; cbn [obind] in *; try discriminate; injection E1 as <-; injection E2 as <-; cbn [sw_agree]; ag. }
  destruct (t =? META_HDR_MDCV).
  { destruct (exec _ c1) as [[[u|] c2]|]; cbn [obind] in *; try discriminate; injection E1 as <-; injection E2 as <-; cbn [sw_agree]; ag. }
  destruct (t =? META_ITUT_T35); [|injection E1 as <-; injection E2 as <-; exact A].
  destruct (parse_itut c1) as [[u|]|]; cbn [obind] in *; try discriminate; injection E1 as <-; injection E2 as <-; cbn [sw_agree]; ag.
Qed.
Lemma seq_agree : forall q d1 d2, agree d1 d2 -> agree (new_seq_hdr s q d1) (new_seq_hdr s q d2).
Proof.
  intros q d1 d2 A. unfold new_seq_hdr. cbv zeta. pose proof A as (_ & _ & AS & _). dsimp. rewrite <- AS.
  destruct (d_seq d1) as [old|]; [|ag]. destruct (negb (same_sequence q old)); [ag|]. destruct (negb _); ag.
Qed.
Lemma switch_agree : forall type tid sid m c d1 d2 x y, agree d1 d2 ->
  obu_switch s type tid sid m c d1 = Ok x -> obu_switch s type tid sid m c d2 = Ok y -> sw_agree x y.
Proof.
  intros type tid sid m c d1 d2 x y A E1 E2. unfold obu_switch in *. pose proof A as (_ & _ & _ & AH & _). rewrite <- AH in E2.
  destruct (type =? OBU_SEQ_HDR).
  { destruct (exec _ c) as [[[q|] c2]|]; cbn [obind] in *; try discriminate; injection E1 as <-; injection E2 as <-; cbn [sw_agree];
    [apply seq_agree; exact A|exact A]. }
  destruct (_ && _); [injection E1 as <-; injection E2 as <-; exact A|].
  destruct (_ || _); [exact (header_agree _ _ _ _ _ _ _ _ _ A E1 E2)|].
  destruct (type =? OBU_TILE_GRP); [exact (tile_agree _ _ _ _ _ _ A E1 E2)|].
  destruct (type =? OBU_METADATA); [exact (meta_agree _ _ _ _ _ A E1 E2)|].
  destruct (type =? OBU_TD); injection E1 as <-; injection E2 as <-; cbn [sw_agree]; ag.
Qed.

(** The ring does not touch the agreed state. *)
Lemma agree_refl : forall d, agree d d. Proof. intros d. unfold agree. auto 10. Qed.
Lemma agree_sym : forall d1 d2, agree d1 d2 -> agree d2 d1. Proof. intros d1 d2. ag. Qed.
Lemma agree_trans : forall d1 d2 d3, agree d1 d2 -> agree d2 d3 -> agree d1 d3. Proof. intros d1 d2 d3. ag. Qed.
Lemma put_core : forall p d d1, put_out p d = Ok d1 -> agree d d1 /\ d_refs d1 = d_refs d.
Proof. intros p d d1 E. unfold put_out in E. destruct (is_none _); [|discriminate]. injection E as <-. split; [ag|reflexivity]. Qed.
Lemma ring_core : forall d d1 e, ring_take s d = Ok (d1, e) -> agree d d1 /\ work e = [] /\ d_refs d1 = d_refs d.
Proof.
  intros d d1 e E. unfold ring_take in E. destruct (_ <? _)%nat; [|discriminate].
  destruct (negb _); [injection E as <- <-; split; [ag|split; reflexivity]|].
  destruct (fc_out _) as [p|]; [|injection E as <- <-; split; [ag|split; reflexivity]].
  destruct (_ && _); [|injection E as <- <-; split; [ag|split; reflexivity]].
  destruct (put_out _ _) as [d2|] eqn:EP; [|discriminate]. cbn [obind] in E. injection E as <- <-.
  destruct (put_core _ _ _ EP) as (A & B). split; [ag|split; [reflexivity|exact B]].
Qed.
Lemma work_app : forall a b, work (a ++ b) = work a ++ work b.
Proof. intros a b. unfold work. apply flat_map_app. Qed.

Lemma refresh_bare : forall x y mask l1 l2 i, (forall a b, bare_slot a = bare_slot b -> bare_slot (x a) = bare_slot (y b)) ->
  map bare_slot l1 = map bare_slot l2 ->
  map bare_slot (refresh_slots i mask x l1) = map bare_slot (refresh_slots i mask y l2).
Proof.
  intros x y mask l1. induction l1 as [|a l1 IH]; intros [|b l2] i H E; cbn [map] in E; try discriminate; [reflexivity|].
  apply cons_inj in E. destruct E as (E1 & E2). cbn [refresh_slots map]. rewrite (IH l2 (S i) H E2). destruct (Z.testbit _ _); f_equal; auto.
Qed.
Lemma skip_agree : forall q h d1 d2, agree d1 d2 -> agree (skip_frame q h d1) (skip_frame q h d2).
Proof.
  intros q h d1 d2 A. unfold skip_frame. unfold agree in *. dsimp. destruct A as (A1 & A2 & A3 & A4 & A5 & A6 & A7 & A8).
  repeat (apply conj; [assumption || reflexivity|]); try assumption. apply conj; [|assumption].
  apply refresh_bare; [|assumption]. intros a b E. apply slot_parts in E. unfold bare_slot. cbn [r_pic r_cdf r_segmap r_refmvs].
  destruct E as (_ & -> & -> & ->). reflexivity.
Qed.
Lemma key_agree : forall r p1 p2 d1 d2, agree d1 d2 -> bare p1 = bare p2 -> agree (key_refresh r p1 d1) (key_refresh r p2 d2).
Proof.
  intros r p1 p2 d1 d2 A B. unfold key_refresh. destruct (slot_parts _ _ (agree_slot d1 d2 r A)) as (_ & S1 & S2 & S3).
  unfold agree in *. dsimp. destruct A as (A1 & A2 & A3 & A4 & A5 & A6 & A7 & A8).
  repeat (apply conj; [assumption|]). apply conj; [|assumption].
  assert (U : bare (unshowable p1) = bare (unshowable p2)).
  { apply bare_parts in B. unfold bare, unshowable. cbn. destruct B as (-> & -> & -> & _ & ->). reflexivity. }
  assert (L : length (d_refs d1) = length (d_refs d2)) by (rewrite <- (map_length bare_slot), A7; apply map_length).
  unfold upd_nth. rewrite !map_app. cbn [map]. rewrite <- !firstn_map, <- !skipn_map, !map_map. unfold bare_slot at 1 2 3 4 5 6.
  cbn [r_pic r_cdf r_segmap r_refmvs option_map]. rewrite S1, S2, S3, U.
  assert (M : forall (x : slot) l1 l2, length l1 = length l2 -> map (fun _ : slot => x) l1 = map (fun _ : slot => x) l2).
  { intros x l1. induction l1; intros [|? ?] E; try discriminate; [reflexivity|]. cbn [map]. f_equal. apply IHl1. injection E as E. exact E. }
  rewrite (M _ _ _ L). reflexivity.
Qed.

Lemma show_agree : forall n q h m d1 d2 r1 r2 d1' d2' e1 e2, agree d1 d2 ->
  show_existing s n q h m d1 = Ok (r1, d1', e1) -> show_existing s n q h m d2 = Ok (r2, d2', e2) ->
  r1 = r2 /\ agree d1' d2' /\ work e1 = work e2.
Proof.
  intros n q h m d1 d2 r1 r2 d1' d2' e1 e2 A E1 E2. unfold show_existing in *. cbv zeta in *.
  destruct (slot_parts _ _ (agree_slot d1 d2 (existing_frame_idx h) A)) as (SP & _).
  destruct (r_pic (slot_at d1 _)) as [p1|]; destruct (r_pic (slot_at d2 _)) as [p2|]; try discriminate SP.
  2:{ injection E1 as <- <- <-. injection E2 as <- <- <-. split; [reflexivity|]. split; [ag|reflexivity]. }
  apply some_inj in SP. pose proof SP as SB. apply bare_parts in SP. destruct SP as (P1 & P2 & P3 & P4 & P5).
  assert (HD : has_data p1 = has_data p2) by (unfold has_data; rewrite P3; reflexivity).
  rewrite <- P1, <- P4, <- HD in E2.
  destruct (dft_drops_shown _ _).
  { injection E1 as <- <- <-. injection E2 as <- <- <-. split; [reflexivity|]. split; [apply skip_agree; exact A|reflexivity]. }
  destruct (negb (has_data p1)); [injection E1 as <- <- <-; injection E2 as <- <- <-; split; [reflexivity|split; [ag|reflexivity]]|].
  destruct (_ && _); [injection E1 as <- <- <-; injection E2 as <- <- <-; split; [reflexivity|split; [ag|reflexivity]]|].
  assert (F : forall a b, agree a b -> agree
     (w_fhdr None (if frame_type (f_pre (tp_hdr p1)) =? FT_KEY then key_refresh (existing_frame_idx h) p1 (w_itut [] a) else w_itut [] a))
     (w_fhdr None (if frame_type (f_pre (tp_hdr p1)) =? FT_KEY then key_refresh (existing_frame_idx h) p2 (w_itut [] b) else w_itut [] b))).
  { intros a b AB. destruct (_ =? FT_KEY); [|ag].
    assert (AB2 : agree (w_itut [] a) (w_itut [] b)) by ag. pose proof (key_agree (existing_frame_idx h) _ _ _ _ AB2 SB) as K. ag. }
  destruct (s_n_fc s =? 1).
  - destruct (put_out _ d1) as [d3|] eqn:EP1; [|discriminate]. destruct (put_out _ d2) as [d4|] eqn:EP2; [|discriminate].
    cbn [obind] in *. injection E1 as <- <- <-. injection E2 as <- <- <-. split; [reflexivity|]. split.
    + apply F. apply put_core in EP1. apply put_core in EP2. destruct EP1 as (EP1 & _), EP2 as (EP2 & _). ag.
    + cbn. rewrite SB. reflexivity.
  - destruct (ring_take s d1) as [[d3 x3]|] eqn:EP1; [|discriminate]. destruct (ring_take s d2) as [[d4 x4]|] eqn:EP2; [|discriminate].
    cbn [obind] in *. injection E1 as <- <- <-. injection E2 as <- <- <-. split; [reflexivity|].
    apply ring_core in EP1. apply ring_core in EP2. destruct EP1 as (EP1 & W1 & _), EP2 as (EP2 & W2 & _). split.
    + apply F. ag.
    + rewrite !work_app, W1, W2. cbn. rewrite SB. reflexivity.
Qed.

Lemma take_refs_agree : forall d1 d2 sq h l, agree d1 d2 ->
  option_map (map bare) (take_refs d1 sq h l) = option_map (map bare) (take_refs d2 sq h l).
Proof.
  intros d1 d2 sq h l A. induction l as [|i l IH]; cbn [take_refs]; [reflexivity|].
  destruct (slot_parts _ _ (agree_slot d1 d2 i A)) as (SP & _).
  destruct (r_pic (slot_at d1 i)) as [p1|]; destruct (r_pic (slot_at d2 i)) as [p2|]; try discriminate SP; [|reflexivity].
  apply some_inj in SP. assert (U : ref_usable sq h p1 = ref_usable sq h p2).
  { apply bare_parts in SP. destruct SP as (P1 & P2 & P3 & _). unfold ref_usable, has_data. rewrite P1, P2, P3. reflexivity. }
  rewrite U. destruct (ref_usable sq h p2); [|reflexivity].
  destruct (take_refs d1 sq h l) as [l1|]; destruct (take_refs d2 sq h l) as [l2|]; try discriminate IH; [|reflexivity].
  apply some_inj in IH. cbn [option_map map]. rewrite SP, IH. reflexivity.
Qed.
Lemma blocks_bare : forall h p q, bare p = bare q -> same_blocks h p = same_blocks h q.
Proof. intros h p q E. apply bare_parts in E. unfold same_blocks. destruct E as (-> & _). reflexivity. Qed.
Lemma mvs_agree : forall d1 d2 h l1 l2, agree d1 d2 -> map bare l1 = map bare l2 -> take_mvs d1 h l1 = take_mvs d2 h l2.
Proof.
  intros d1 d2 h l1 l2 A E. unfold take_mvs. destruct (z2b _); [|reflexivity]. generalize (refidx (f_refs h)). intros idx.
  revert idx l2 E. induction l1 as [|p l1 IH]; intros idx [|q l2] E; try discriminate.
  - destruct idx; reflexivity.
  - apply cons_inj in E. destruct E as (E1 & E2). destruct idx as [|i idx]; [reflexivity|]. cbn [combine map fst snd]. rewrite (IH idx l2 E2), (blocks_bare h p q E1).
    destruct (slot_parts _ _ (agree_slot d1 d2 i A)) as (_ & _ & _ & ->). reflexivity.
Qed.
Lemma nth_bare : forall l1 l2 i, map bare l1 = map bare l2 ->
  option_map bare (nth_error l1 i) = option_map bare (nth_error l2 i).
Proof. intros l1 l2 i E. rewrite <- !nth_error_map, E. reflexivity. Qed.
Lemma segmap_agree : forall d1 d2 h l1 l2 id, agree d1 d2 -> map bare l1 = map bare l2 -> take_segmap d1 h l1 id = take_segmap d2 h l2 id.
Proof.
  intros d1 d2 h l1 l2 id A E. unfold take_segmap. destruct (z2b (sg_enabled _)); [|reflexivity].
  destruct (_ || _); [|reflexivity]. destruct (negb (_ =? PRIMARY_REF_NONE)); [|reflexivity].
  pose proof (nth_bare l1 l2 (Z.to_nat (primary_ref_frame (f_pre h))) E) as N.
  destruct (nth_error l1 _) as [p1|]; destruct (nth_error l2 _) as [p2|]; try discriminate N; [|reflexivity].
  apply some_inj in N. destruct (nth_error (refidx _) _) as [i|]; [|reflexivity]. rewrite (blocks_bare h p1 p2 N).
  destruct (slot_parts _ _ (agree_slot d1 d2 i A)) as (_ & _ & -> & _). reflexivity.
Qed.

Lemma refs_core : forall d x y, d_refs d = d_refs d -> agree x y -> map bare_slot (d_refs x) = map bare_slot (d_refs y).
Proof. intros d x y _ (_ & _ & _ & _ & _ & _ & R & _). exact R. Qed.
Lemma fail_core : forall i m d, agree (submit_fail s i m d) d.
Proof. intros i m d. unfold submit_fail. destruct (_ =? 1); ag. Qed.
Lemma alloc_core : forall h d, agree (pic_alloc_ctx s h d) d.
Proof. intros h d. unfold pic_alloc_ctx. cbv zeta. destruct (z2b (show_frame _)); ag. Qed.
Lemma new_pic_bare : forall sq h id m b d1 d2, bare (new_pic s sq h id m b d1) = bare (new_pic s sq h id m b d2).
Proof. reflexivity. Qed.

Lemma agree_refs : forall d1 d2 l1 l2, agree d1 d2 -> map bare_slot l1 = map bare_slot l2 -> agree (w_refs l1 d1) (w_refs l2 d2).
Proof. intros d1 d2 l1 l2 A E. ag. Qed.

Lemma submit_agree : forall sq h m d1 d2 r1 r2 d1' d2' e1 e2, agree d1 d2 ->
  submit_frame o s sq h m d1 = Ok (r1, d1', e1) -> submit_frame o s sq h m d2 = Ok (r2, d2', e2) ->
  r1 = r2 /\ agree d1' d2' /\ work e1 = work e2.
Proof.
  intros sq h m d1 d2 r1 r2 d1' d2' e1 e2 A E1 E2. unfold submit_frame in *. cbv zeta in *.
  destruct (if s_n_fc s =? 1 then Ok (d1, []) else ring_take s d1) as [[a x1]|] eqn:R1; [|discriminate].
  destruct (if s_n_fc s =? 1 then Ok (d2, []) else ring_take s d2) as [[b x2]|] eqn:R2; [|discriminate]. cbn [obind] in *.
  assert (C : agree a b /\ work x1 = [] /\ work x2 = []).
  { destruct (s_n_fc s =? 1); [injection R1 as <- <-; injection R2 as <- <-; auto|].
    apply ring_core in R1. apply ring_core in R2. destruct R1 as (X1 & Y1 & _), R2 as (X2 & Y2 & _). split; [ag|auto]. }
  clear R1 R2 A. destruct C as (A & W1 & W2). generalize dependent (d_next d1). generalize dependent (d_next d2). intros i2 E2 i1 E1.
  assert (A0 : agree (w_fhdr None a) (w_fhdr None b)) by ag. revert E1 E2.
  set (a0 := w_fhdr None a) in *. set (b0 := w_fhdr None b) in *. clearbody a0 b0. clear A a b. intros E1 E2.
  assert (RF : forall r a b x y, agree a b -> Ok (r, submit_fail s i1 m a, x1 ++ [EvRefuse h r]) = Ok (r1, d1', e1) ->
     Ok (r, submit_fail s i2 m b, x2 ++ [EvRefuse h r]) = Ok (r2, d2', e2) -> x = tt -> y = tt -> r1 = r2 /\ agree d1' d2' /\ work e1 = work e2).
  { intros r a b x y AB F1 F2 _ _. injection F1 as <- <- <-. injection F2 as <- <- <-. split; [reflexivity|]. split.
    - eapply agree_trans; [apply fail_core|]. eapply agree_trans; [exact AB|]. apply agree_sym, fail_core.
    - rewrite !work_app, W1, W2. reflexivity. }
  destruct (slot_parts _ _ (agree_slot a0 b0 (nth (Z.to_nat (primary_ref_frame (f_pre h))) (refidx (f_refs h)) 0) A0)) as (SP & SC & _).
  rewrite <- SC in E2.
  assert (HD : match r_pic (slot_at a0 (nth (Z.to_nat (primary_ref_frame (f_pre h))) (refidx (f_refs h)) 0)) with Some p => has_data p | None => false end =
     match r_pic (slot_at b0 (nth (Z.to_nat (primary_ref_frame (f_pre h))) (refidx (f_refs h)) 0)) with Some p => has_data p | None => false end).
  { destruct (r_pic (slot_at a0 _)) as [p1|]; destruct (r_pic (slot_at b0 _)) as [p2|]; try discriminate SP; [|reflexivity].
    apply some_inj in SP. apply bare_parts in SP. destruct SP as (_ & _ & P3 & _). unfold has_data. rewrite P3. reflexivity. }
  rewrite <- HD in E2. clear HD.
  destruct (_ && _ && _); [eapply RF; eauto|].
  assert (TR : option_map (map bare) (if is_inter_or_switch (frame_type (f_pre h)) then take_refs a0 sq h (refidx (f_refs h)) else Some []) =
               option_map (map bare) (if is_inter_or_switch (frame_type (f_pre h)) then take_refs b0 sq h (refidx (f_refs h)) else Some [])).
  { destruct (is_inter_or_switch _); [apply take_refs_agree; exact A0|reflexivity]. }
  destruct (if is_inter_or_switch _ then take_refs a0 _ _ _ else _) as [l1|];
    destruct (if is_inter_or_switch _ then take_refs b0 _ _ _ else _) as [l2|]; try discriminate TR; [|eapply RF; eauto].
  apply some_inj in TR.
  destruct (if _ =? PRIMARY_REF_NONE then Ok _ else _) as [cdf|]; [|discriminate]. cbn [obind] in *.
  pose proof A0 as (_ & _ & _ & _ & AT & _ & _ & AJ). rewrite <- AT, <- AJ in E2. clear AT AJ. revert E1 E2.
  assert (A1 : agree (w_jobs (d_jobs a0 + 1) (w_tiles [] a0)) (w_jobs (d_jobs a0 + 1) (w_tiles [] b0))) by (clear - A0; ag).
  set (a1 := w_jobs (d_jobs a0 + 1) (w_tiles [] a0)) in *. set (b1 := w_jobs (d_jobs a0 + 1) (w_tiles [] b0)) in *. clearbody a1 b1.
  generalize (d_tiles a0) (d_jobs a0). clear a0 b0 A0 SP SC. intros tl id E1 E2.
  destruct tl as [|t0 tl]; [discriminate|].
  destruct (o_alloc o id sq h <? 0); [eapply RF; eauto|].
  assert (A2 : agree (pic_alloc_ctx s h a1) (pic_alloc_ctx s h b1)).
  { eapply agree_trans; [apply alloc_core|]. eapply agree_trans; [exact A1|]. apply agree_sym, alloc_core. }
  assert (NP : forall bad, bare (new_pic s sq h id (tg_props t0) bad a1) = bare (new_pic s sq h id (tg_props t0) bad b1)) by (intros; apply new_pic_bare).
  revert E1 E2.
  set (a2 := pic_alloc_ctx s h a1) in *. set (b2 := pic_alloc_ctx s h b1) in *. clearbody a2 b2.
  intros E1 E2. cbv beta in *.
  destruct (_ && _); [eapply RF; eauto|]. clear RF.
  rewrite <- (segmap_agree a2 b2 h l1 l2 id A2 TR) in E2.
  destruct (take_segmap a2 h l1 id) as [[prev cur]|]; [|discriminate]. cbn [obind] in *. cbv beta iota in *.
  set (j1 := mkJob _ _ _ _ l1 _ _ _ _) in *. set (j2 := mkJob _ _ _ _ l2 _ _ _ _) in *.
  assert (J : bare_job j1 = bare_job j2).
  { unfold bare_job, j1, j2. cbn. rewrite TR. f_equal. destruct (is_inter_or_switch _); [apply mvs_agree; assumption|reflexivity]. }
  rewrite <- (BL j1 j2 J) in E2. clearbody j1 j2.
  assert (RS : forall x y, bare x = bare y -> forall a b c (_ _ : slot), bare_slot (mkSlot (Some x) a b c) = bare_slot (mkSlot (Some y) a b c)).
  { intros x y E a b c _ _. unfold bare_slot. cbn. rewrite E. reflexivity. }
  destruct (s_n_fc s =? 1).
  - destruct (if _ || _ then put_out _ a2 else _) as [a3|] eqn:P1; [|discriminate].
    destruct (if _ || _ then put_out _ b2 else _) as [b3|] eqn:P2; [|discriminate]. cbn [obind] in *. cbv beta iota in *.
    assert (A3 : agree a3 b3).
    { destruct (_ || _); [|injection P1 as <-; injection P2 as <-; exact A2].
      apply put_core in P1. apply put_core in P2. destruct P1 as (P1 & _), P2 as (P2 & _). ag. }
    destruct (dr_ret (o_decode o j1) <? 0).
    + injection E1 as <- <- <-. injection E2 as <- <- <-. split; [reflexivity|]. split.
      * eapply agree_trans; [apply fail_core|]. eapply agree_trans; [|apply agree_sym, fail_core].
        apply agree_refs; [ag|]. apply refresh_bare; [reflexivity|]. exact (refs_core a3 _ _ eq_refl A3).
      * rewrite !work_app, W1, W2. cbn. rewrite J. reflexivity.
    + injection E1 as <- <- <-. injection E2 as <- <- <-. split; [reflexivity|]. split.
      * apply agree_refs; [exact A3|]. apply refresh_bare; [|exact (refs_core a3 _ _ eq_refl A3)]. intros. apply RS; auto.
      * rewrite !work_app, W1, W2. cbn. rewrite J. destruct (_ || _); reflexivity.
  - cbn [obind] in *. cbv beta iota in *. injection E1 as <- <- <-. injection E2 as <- <- <-. split; [reflexivity|]. split.
    + apply agree_refs; [ag|]. apply refresh_bare; [intros; apply RS; auto|exact (refs_core a2 _ _ eq_refl A2)].
    + rewrite !work_app, W1, W2. cbn. rewrite J. reflexivity.
Qed.

Theorem parse_agree : forall buf m d1 d2 r1 r2 d1' d2' e1 e2, agree d1 d2 ->
  parse_obus o s buf m d1 = Ok (r1, d1', e1) -> parse_obus o s buf m d2 = Ok (r2, d2', e2) ->
  r1 = r2 /\ agree d1' d2' /\ work e1 = work e2.
Proof.
  intros buf m d1 d2 r1 r2 d1' d2' e1 e2 A E1 E2. unfold parse_obus in *.
  assert (ER : forall a b, agree a b -> obu_error m a [] = Ok (r1, d1', e1) -> obu_error m b [] = Ok (r2, d2', e2) ->
     r1 = r2 /\ agree d1' d2' /\ work e1 = work e2).
  { intros a b AB F1 F2. injection F1 as <- <- <-. injection F2 as <- <- <-. split; [reflexivity|]. split; [ag|reflexivity]. }
  destruct (obu_open _ _) as [[[[[[type ext] tid] sid] c]|]|]; cbn [obind] in *; [| |discriminate]; [|eapply ER; eauto].
  pose proof A as (AI & _). rewrite <- AI in E2.
  destruct (layer_dropped _ _ _ _ _); [injection E1 as <- <- <-; injection E2 as <- <- <-; auto|].
  destruct (obu_switch s type tid sid m c d1) as [x|] eqn:X1; [|discriminate].
  destruct (obu_switch s type tid sid m c d2) as [y|] eqn:X2; [|discriminate]. cbn [obind] in *.
  pose proof (switch_agree _ _ _ _ _ _ _ _ _ A X1 X2) as SA.
  destruct x as [a|a|ra a], y as [b|b|rb b]; try contradiction; cbn [sw_agree] in SA.
  2:{ eapply ER; eauto. }
  2:{ destruct SA as (-> & SA). injection E1 as <- <- <-. injection E2 as <- <- <-. auto. }
  clear X1 X2 A AI. unfold after_switch in *. pose proof SA as (_ & _ & AS & AH & AT & AN & _). rewrite <- AS, <- AH, <- AN in E2.
  destruct (d_seq a) as [q|]; [|injection E1 as <- <- <-; injection E2 as <- <- <-; auto].
  destruct (d_fhdr a) as [h|]; [|injection E1 as <- <- <-; injection E2 as <- <- <-; auto].
  destruct (z2b (show_existing_frame h)); [exact (show_agree _ _ _ _ _ _ _ _ _ _ _ _ SA E1 E2)|].
  destruct (_ =? _); [|injection E1 as <- <- <-; injection E2 as <- <- <-; auto].
  unfold frame_complete in *. rewrite <- AT in E2.
  destruct (dft_drops s h); [injection E1 as <- <- <-; injection E2 as <- <- <-; split; [reflexivity|split; [apply skip_agree; exact SA|reflexivity]]|].
  destruct (is_none _); [eapply ER; eauto|].
  destruct (submit_frame o s q h m a) as [[[ra a2] f1]|] eqn:S1; [|discriminate].
  destruct (submit_frame o s q h m b) as [[[rb b2] f2]|] eqn:S2; [|discriminate]. cbn [obind] in *.
  destruct (submit_agree _ _ _ _ _ _ _ _ _ _ _ SA S1 S2) as (<- & A2 & W).
  destruct (ra <? 0); [injection E1 as <- <- <-; injection E2 as <- <- <-; auto|].
  destruct (is_none (hd_error (d_tiles a2))); [|discriminate]. destruct (is_none (hd_error (d_tiles b2))); [|discriminate].
  injection E1 as <- <- <-. injection E2 as <- <- <-. split; [reflexivity|]. split; [ag|exact W].
Qed.
End Agree.

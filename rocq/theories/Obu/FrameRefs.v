(** Short reference signalling: the slot searches of the C code are the
    set_frame_refs() process of the specification (7.8). *)
From Coq Require Import ZArith List Bool Lia.
From Verif Require Import Base.CInt Base.Lemmas Obu.SeqModel Obu.SeqRel
  Obu.FrameModel Obu.FrameRel Obu.FrameSec Obu.FrameSec2.
Import ListNotations.
Open Scope Z_scope.

Definition used_rel (u : list bool) (l : list Z) : Prop :=
  length u = 8%nat /\ forall i, (i < 8)%nat -> used_at u i = F.in_list (Z.of_nat i) l.
Lemma used_mark : forall u l j, used_rel u l -> 0 <= j <= 7 -> used_rel (mark u j) (j :: l).
Proof.
  intros u l j (L & H) Hj. unfold used_rel, mark. rewrite upd_nat_length. split; [auto|]. intros i Hi.
  unfold used_at. rewrite upd_nat_nth by lia. cbn [F.in_list existsb].
  destruct (Nat.eqb_spec i (Z.to_nat j)).
  - replace (Z.of_nat i =? j) with true by lia. reflexivity.
  - replace (Z.of_nat i =? j) with false by lia. apply H. auto.
Qed.

(** One search: (refidx, best value) and the slot found. *)
Definition found (i0 sent : Z) (st : Z * Z) (o : option (Z * Z)) : Prop :=
  match o with None => st = (i0, sent) | Some (i, h) => st = (i, h) end.
Lemma find_range : forall hints i cand better best j h, F.find_slot i hints cand better best = Some (j, h) ->
  best = Some (j, h) \/ (i <= j < i + zlen hints /\ In h hints /\ cand j h = true).
Proof.
  induction hints as [|x l IH]; intros i cand better best j h H; cbn [F.find_slot] in H; auto.
  apply IH in H. unfold zlen in *. cbn [length In].
  destruct H as [H|(H1 & H2 & H3)]; [|right; conj; auto; lia].
  destruct (cand i x && _) eqn:E; [|auto]. injection H as <- <-. right. apply andb_prop in E. destruct E.
  conj; auto; lia.
Qed.

Lemma scan_found : forall hints used ul ok better cand i0 sent,
  length hints = 8%nat -> used_rel used ul ->
  (forall i h, (i < 8)%nat -> cand (Z.of_nat i) h = negb (F.in_list (Z.of_nat i) ul) && ok h) ->
  (forall h, In h hints -> better h sent = true) ->
  found i0 sent (scan hints used ok better (i0, sent)) (F.find_slot 0 hints cand better None).
Proof.
  intros hints used ul ok better cand i0 sent HL (_ & HU) HC HB.
  assert (STEP : forall i h st best, (i < 8)%nat -> In h hints -> found i0 sent st best ->
    found i0 sent
      (if negb (used_at used i) && ok h && better h (snd st) then (Z.of_nat i, h) else st)
      (if cand (Z.of_nat i) h && match best with None => true | Some (_, b) => better h b end
       then Some (Z.of_nat i, h) else best)).
  { intros i h st best Hi Hin HF. rewrite HC, HU by auto.
    destruct best as [[j b]|]; cbn [found] in HF; subst st; cbn [snd].
    - destruct (_ && better h b); cbn [found]; reflexivity.
    - rewrite (HB h Hin). destruct (_ && true); cbn [found]; reflexivity. }
  unfold scan, idx8, hint_at. cbn [fold_left].
  do 8 (destruct hints as [|? hints]; [discriminate|]). destruct hints; [|discriminate].
  cbn [nth F.find_slot]. cbn [Z.add Pos.add Pos.succ].
  apply (STEP 7%nat); [lia|cbn; tauto|]. apply (STEP 6%nat); [lia|cbn; tauto|].
  apply (STEP 5%nat); [lia|cbn; tauto|]. apply (STEP 4%nat); [lia|cbn; tauto|].
  apply (STEP 3%nat); [lia|cbn; tauto|]. apply (STEP 2%nat); [lia|cbn; tauto|].
  apply (STEP 1%nat); [lia|cbn; tauto|]. apply (STEP 0%nat _ (i0, sent) None); [lia|cbn; tauto|]. reflexivity.
Qed.

Lemma upd_nat_same : forall A (l : list A) i d, (i < length l)%nat -> upd_nat l i (nth i l d) = l.
Proof.
  induction l; intros [|i] d H; cbn [length upd_nat nth] in *; try lia; auto. f_equal. apply IHl. lia.
Qed.

(** The value of an index that may be unset (-1). *)
Definition oidx (o : option Z) : Z := match o with Some i => i | None => -1 end.
Definition orange (o : option Z) : Prop := match o with Some i => 0 <= i <= 7 | None => True end.

Section Refs.
Variables (hints : list Z) (cur : Z).
Hypothesis (HL : length hints = 8%nat) (HH : Forall (fun h => 0 <= h < INT_MAX) hints).

Lemma hint_in : forall h, In h hints -> 0 <= h < INT_MAX.
Proof. intros h Hin. rewrite Forall_forall in HH. auto. Qed.

Lemma search : forall used ul ok better sent,
  used_rel used ul -> (forall h, In h hints -> better h sent = true /\ h <> sent) ->
  let o := F.find_slot 0 hints (fun i h => negb (F.in_list i ul) && ok h) better None in
  let '(r, b) := scan hints used ok better (-1, sent) in
  let '(o', ul') := F.assign o ul in
  r = oidx o' /\ orange o' /\ used_rel (if b =? sent then used else mark used r) ul'.
Proof.
  intros used ul ok better sent HU HB. cbv zeta.
  pose proof (scan_found hints used ul ok better (fun i h => negb (F.in_list i ul) && ok h) (-1) sent HL HU
    ltac:(reflexivity) ltac:(intros h Hh; apply (HB h Hh))) as S.
  destruct (F.find_slot 0 hints _ better None) as [[i h]|] eqn:E; cbn [found] in S; rewrite S; cbn [F.assign oidx orange].
  - apply find_range in E. destruct E as [E|(R & Hin & _)]; [discriminate|].
    unfold zlen in R. rewrite HL in R. destruct (HB h Hin) as (_ & NE).
    replace (h =? sent) with false by lia. conj; auto; try lia. apply used_mark; auto; lia.
  - rewrite Z.eqb_refl. auto.
Qed.

Lemma fill_one : forall ridx used ul o i,
  used_rel used ul -> nth i ridx 0 = oidx o -> orange o -> (i < length ridx)%nat ->
  let '(ridx', used') := fill_forward hints cur (ridx, used) i in
  let '(o', ul') := F.set_if_unset hints cur o ul in
  ridx' = upd_nat ridx i (oidx o') /\ orange o' /\ used_rel used' ul'.
Proof.
  intros ridx used ul o i HU HN HO Hi. unfold fill_forward, F.set_if_unset. rewrite HN.
  destruct o as [j|]; cbn [oidx orange] in *.
  - replace (j <? 0) with false by lia. conj; auto; try lia.
    rewrite <- HN. symmetry. apply upd_nat_same. auto.
  - replace (-1 <? 0) with true by lia.
    pose proof (search used ul (fun h => h <? cur) (fun h b => b <=? h) (-1) HU) as S. cbv zeta in S.
    unfold F.find_latest_forward.
    destruct (scan _ _ _ _ _) as [r b]. destruct (F.assign _ _) as [o' ul'].
    destruct S as (-> & S2 & S3).
    + intros h Hin. pose proof (hint_in h Hin). lia.
    + auto.
Qed.

Lemma set_frame_refs_eq : forall last gold, 0 <= last <= 7 -> 0 <= gold <= 7 ->
  FrameModel.set_frame_refs hints cur last gold = F.set_frame_refs hints cur last gold /\
  length (F.set_frame_refs hints cur last gold) = 7%nat /\
  Forall (fun i => 0 <= i <= 7) (F.set_frame_refs hints cur last gold).
Proof.
  intros last gold Hl Hg. unfold FrameModel.set_frame_refs, F.set_frame_refs. cbv zeta.
  assert (U0 : used_rel (mark (mark (repeat false 8) last) gold) [gold; last]).
  { apply used_mark; auto. apply used_mark; auto. split; [reflexivity|]. intros i Hi. unfold used_at.
    cbn [F.in_list existsb]. do 8 (destruct i; [reflexivity|]). lia. }
  assert (P1 : forall h, In h hints -> (fun h b => b <=? h) h (-1) = true /\ h <> -1)
    by (intros h Hin; pose proof (hint_in h Hin); lia).
  assert (P2 : forall h, In h hints -> (fun h b => h <? b) h INT_MAX = true /\ h <> INT_MAX)
    by (intros h Hin; pose proof (hint_in h Hin); lia).
  pose proof (search _ _ (fun h => cur <=? h) (fun h b => b <=? h) (-1) U0 P1) as S. cbv zeta in S.
  unfold F.find_latest_backward.
  destruct (scan _ _ _ _ (-1, -1)) as [r6 l6]. destruct (F.assign _ _) as [a6 ul6]. destruct S as (-> & O6 & U6).
  set (u6 := if l6 =? -1 then _ else _) in *. clearbody u6. clear U0 l6.
  pose proof (search _ _ (fun h => cur <=? h) (fun h b => h <? b) INT_MAX U6 P2) as S. cbv zeta in S.
  unfold F.find_earliest_backward at 1.
  destruct (scan hints u6 _ _ (-1, INT_MAX)) as [r4 e4]. destruct (F.assign _ _) as [a4 ul4]. destruct S as (-> & O4 & U4).
  set (u4 := if e4 =? INT_MAX then _ else _) in *. clearbody u4. clear U6 e4.
  pose proof (search _ _ (fun h => cur <=? h) (fun h b => h <? b) INT_MAX U4 P2) as S. cbv zeta in S.
  unfold F.find_earliest_backward.
  destruct (scan hints u4 _ _ (-1, INT_MAX)) as [r5 e5]. destruct (F.assign _ _) as [a5 ul5]. destruct S as (-> & O5 & U5).
  set (u5 := if e5 =? INT_MAX then _ else _) in *. clearbody u5. clear U4 e5.
  cbn [fold_left].
  pose proof (fill_one [last; -1; -1; gold; oidx a4; oidx a5; oidx a6] u5 ul5 None 1 U5 eq_refl I ltac:(cbn; lia)) as S.
  destruct (fill_forward _ _ _ _) as [? v1]. destruct (F.set_if_unset _ _ None ul5) as [b1 w1]. destruct S as (-> & B1 & V1). cbn [upd_nat].
  pose proof (fill_one [last; oidx b1; -1; gold; oidx a4; oidx a5; oidx a6] v1 w1 None 2 V1 eq_refl I ltac:(cbn; lia)) as S.
  destruct (fill_forward _ _ _ _) as [? v2]. destruct (F.set_if_unset _ _ None w1) as [b2 w2]. destruct S as (-> & B2 & V2). cbn [upd_nat].
  pose proof (fill_one [last; oidx b1; oidx b2; gold; oidx a4; oidx a5; oidx a6] v2 w2 (Some gold) 3 V2 eq_refl ltac:(cbn; lia) ltac:(cbn; lia)) as S.
  destruct (fill_forward _ _ _ _) as [? v3]. cbn [F.set_if_unset] in S. destruct S as (-> & _ & V3). cbn [upd_nat oidx].
  pose proof (fill_one [last; oidx b1; oidx b2; gold; oidx a4; oidx a5; oidx a6] v3 w2 a4 4 V3 eq_refl O4 ltac:(cbn; lia)) as S.
  destruct (fill_forward _ _ _ _) as [? v4]. destruct (F.set_if_unset _ _ a4 w2) as [b4 w4]. destruct S as (-> & B4 & V4). cbn [upd_nat].
  pose proof (fill_one [last; oidx b1; oidx b2; gold; oidx b4; oidx a5; oidx a6] v4 w4 a5 5 V4 eq_refl O5 ltac:(cbn; lia)) as S.
  destruct (fill_forward _ _ _ _) as [? v5]. destruct (F.set_if_unset _ _ a5 w4) as [b5 w5]. destruct S as (-> & B5 & V5). cbn [upd_nat].
  pose proof (fill_one [last; oidx b1; oidx b2; gold; oidx b4; oidx b5; oidx a6] v5 w5 a6 6 V5 eq_refl O6 ltac:(cbn; lia)) as S.
  destruct (fill_forward _ _ _ _) as [? v6]. destruct (F.set_if_unset _ _ a6 w5) as [b6 w6]. destruct S as (-> & B6 & V6). cbn [upd_nat].
  pose proof (scan_found hints (repeat false 8) [] (fun _ => true) (fun h b => h <? b) (fun _ _ => true) (-1) INT_MAX HL) as S.
  unfold F.find_earliest.
  destruct (F.find_slot 0 hints (fun _ _ => true) (fun h b => h <? b) None) as [[i h]|] eqn:E; cbn [found] in S.
  - rewrite S; [| |reflexivity|intros; apply P2; auto].
    2:{ split; [reflexivity|]. intros k Hk. do 8 (destruct k; [reflexivity|]). lia. }
    apply find_range in E. destruct E as [E|(R & _)]; [discriminate|]. unfold zlen in R. rewrite HL in R.
    assert (G : forall o, orange o -> (if oidx o <? 0 then i else oidx o) = match o with Some i => i | None => i end /\
      0 <= match o with Some i => i | None => i end <= 7).
    { intros [j|] HO; cbn [oidx orange] in *; [|split; [reflexivity|lia]]. replace (j <? 0) with false by lia. auto. }
    cbn [map length]. replace (last <? 0) with false by lia. replace (gold <? 0) with false by lia.
    conj; [|reflexivity|].
    + repeat f_equal; apply G; auto.
    + repeat (apply Forall_cons; [first [apply G; assumption | lia]|]). constructor.
  - exfalso. destruct hints as [|x l]; [discriminate|]. cbn [F.find_slot andb] in E. clear - E.
    revert E. generalize (0 + 1). generalize x 0. induction l; intros; cbn [F.find_slot] in E; [discriminate|].
    destruct (true && (a <? x0)); eauto.
Qed.
End Refs.

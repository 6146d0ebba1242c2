(** C28: segment ids decode bijectively and in range. *)
From Coq Require Import ZArith List Bool Lia.
From Verif Require Import Base.CInt Base.Lemmas Seg.Model Seg.Spec Seg.Proofs.
Import ListNotations.
Open Scope Z_scope.

(** With [m] legal ids and any legal prediction, the codes 0..m-1 stand for each of
    the ids 0..m-1 exactly once. *)
Theorem C28_in_range : forall m pred diff, 0 <= pred < m -> 0 <= diff < m -> 0 <= neg_deinterleave diff pred m < m.
Proof. intros. rewrite nd_spec. apply dei_range; auto. Qed.
Theorem C28_injective : forall m pred d1 d2, 0 <= pred < m -> 0 <= d1 < m -> 0 <= d2 < m ->
  neg_deinterleave d1 pred m = neg_deinterleave d2 pred m -> d1 = d2.
Proof.
  intros m pred d1 d2 P A B E. rewrite !nd_spec in E.
  rewrite <- (dei_inter d1 pred m), <- (dei_inter d2 pred m) by auto. now rewrite E.
Qed.
Theorem C28_surjective : forall m pred id, 0 <= pred < m -> 0 <= id < m ->
  exists diff, 0 <= diff < m /\ neg_deinterleave diff pred m = id.
Proof.
  intros m pred id P I. exists (interleave id pred m). rewrite nd_spec.
  split; [apply inter_range|apply inter_dei]; auto.
Qed.
(** Code 0 is the prediction, and the mapping is the specification's for all arguments. *)
Theorem C28_zero : forall m pred, 0 <= pred < m -> neg_deinterleave 0 pred m = pred.
Proof.
  intros m pred P. rewrite nd_spec. unfold deinterleave. cbn. ifs; bools; lia.
Qed.
Theorem C28_mapping : forall diff pred m, neg_deinterleave diff pred m = deinterleave diff pred m.
Proof. exact nd_spec. Qed.
(** The decoded id is the specification's for every code the specification can
    produce (at most the last active id), and always a legal id. *)
Theorem C28_conformant : forall diff pred last, 0 <= last <= 7 -> 0 <= pred <= last -> 0 <= diff <= last ->
  coded_seg_id diff pred last = spec_coded diff pred last.
Proof. exact coded_in_range. Qed.
Theorem C28_legal : forall diff pred last, 0 <= last <= 7 -> 0 <= pred <= last -> 0 <= diff <= 7 ->
  0 <= coded_seg_id diff pred last <= last.
Proof. exact coded_range. Qed.
(** For a code past the last active id the specification clamps; the decoder uses 0. *)
Theorem C28_clamped_refuted : exists diff pred last, 0 <= last <= 7 /\ 0 <= pred <= last /\ 0 <= diff <= 7 /\
  coded_seg_id diff pred last <> spec_coded diff pred last.
Proof. exists 7, 0, 3. vm_compute. repeat split; discriminate. Qed.
(** When segmentation is on but no feature is active, the frame header parser leaves
    the last active id at -1 (the specification: 0, hence every id 0); the
    decoder then returns the code itself. *)
Theorem C28_no_feature_refuted : exists diff, 0 <= diff <= 7 /\ spec_coded diff 0 0 = 0 /\ coded_seg_id diff 0 (-1) <> 0.
Proof. exists 5. vm_compute. repeat split; discriminate. Qed.

(** Spatial prediction and context are the specification's, for a map of ids 0..7,
    with the neighbours inside the frame. *)
Section Maps.
Variables (map : list Z) (stride rows : Z).
Hypothesis (ST : 0 < stride) (LEN : zlen map = stride * rows) (RNG : Forall (fun v => 0 <= v <= 7) map).
Let id_at (y x : Z) : Z := nth (Z.to_nat (y * stride + x)) map 0.
Theorem C28_prediction : forall y x (top left : bool), 0 <= y < rows -> 0 <= x < stride ->
  (top = true -> 1 <= y) -> (left = true -> 1 <= x) ->
  let u := if top then id_at (y - 1) x else -1 in
  let l := if left then id_at y (x - 1) else -1 in
  let ul := if top && left then id_at (y - 1) (x - 1) else -1 in
  cur_segid y x top left map stride = Ok (spec_pred ul u l, spec_ctx ul u l).
Proof. exact (cur_ok map stride rows ST LEN RNG). Qed.
(** Temporal prediction is the smallest id of the block in the previous map. *)
Theorem C28_temporal : forall y x w h, 0 <= y -> 0 < h -> y + h <= rows -> 0 <= x -> 0 < w -> x + w <= stride ->
  exists v, prev_segid y x w h map stride = Ok v /\ 0 <= v <= 7 /\ smallest id_at y x h w v.
Proof. exact (prev_ok map stride rows ST LEN RNG). Qed.
End Maps.

(** Every block of a frame gets a legal id (0..7), without an undefined operation: the
    current and the previous map keep holding ids 0..7. *)
Theorem C28_block : forall g y x w h (top left : bool) cur prev stride rows skip sp diff,
  0 < stride -> zlen cur = stride * rows -> Forall (fun v => 0 <= v <= 7) cur ->
  match prev with Some p => zlen p = stride * rows /\ Forall (fun v => 0 <= v <= 7) p | None => True end ->
  0 <= y -> 0 < h -> y + h <= rows -> 0 <= x -> 0 < w -> x + w <= stride ->
  (top = true -> 1 <= y) -> (left = true -> 1 <= x) -> 0 <= diff <= 7 ->
  exists id, seg_id g y x w h top left cur prev stride skip sp diff = Ok id /\ 0 <= id <= 7.
Proof.
  intros g y x w h top left cur prev stride rows skip sp diff ST LC RC LP Y H1 H2 X W XW T L D.
  assert (FP : exists id, from_prev y x w h prev stride = Ok id /\ 0 <= id <= 7).
  { destruct prev as [p|]; cbn [from_prev]; [|exists 0; split; [auto|lia]]. destruct LP as (LP & RP).
    destruct (prev_ok p stride rows ST LP RP y x w h Y H1 H2 X W XW) as (v & E & V & _). eauto. }
  assert (CI : exists p c, cur_segid y x top left cur stride = Ok (p, c) /\ 0 <= p <= 7).
  { pose proof (cur_ok cur stride rows ST LC RC y x top left ltac:(lia) ltac:(lia) T L) as E. cbv zeta in E.
    eexists _, _. split; [exact E|].
    assert (RT : top = true -> 0 <= at_map cur stride (y - 1) x <= 7) by (intros Q; specialize (T Q); apply (at_range cur stride rows); auto; lia).
    assert (RL : left = true -> 0 <= at_map cur stride y (x - 1) <= 7) by (intros Q; specialize (L Q); apply (at_range cur stride rows); auto; lia).
    unfold spec_pred. destruct top, left; cbn [andb]; repeat match goal with H : true = true -> _ |- _ => specialize (H eq_refl) end; ifs; lia. }
  assert (CO : forall p, 0 <= coded_seg_id diff p (g_last g) <= 7).
  { intros p. unfold coded_seg_id. match goal with |- context [u8 ?a] => pose proof (u8_range a) as U; set (q := u8 a) in * end.
    clearbody q. destruct (u32 (g_last g) <? q); cbn; [lia|]. destruct (Z.leb_spec 8 q); lia. }
  destruct FP as (i1 & F1 & F2), CI as (p & c & C1 & C2). unfold seg_id, seg_id_preskip, seg_id_postskip.
  rewrite F1, C1. cbn [obind].
  assert (U8 : (if 8 <=? u8 p then 0 else u8 p) = p).
  { rewrite u8_id by (change (2 ^ 8) with 256; lia). destruct (Z.leb_spec 8 p); lia. }
  destruct (g_enabled g); cbn [obind]; [|exists 0; split; [auto|lia]].
  destruct (g_update_map g); cbn [negb obind]; [|eauto].
  destruct (g_preskip g); cbn [obind].
  - destruct (g_temporal g && sp); cbn [obind]; eauto.
  - destruct (negb skip && g_temporal g && sp); cbn [obind]; [eauto|]. destruct skip; [rewrite U8; eauto|eauto].
Qed.

(** Three active segments of a 4x2 map, second row. *)
Example C28_example : let map := [0; 1; 2; 2;  1; 1; 0; 0] in
  cur_segid 1 2 true true map 4 = Ok (1, 1) /\ List.map (fun d => coded_seg_id d 1 2) [0; 1; 2] = [1; 2; 0] /\
  prev_segid 0 1 2 2 map 4 = Ok 0 /\
  seg_id (mkSegcfg true true false false 2) 1 2 1 1 true true map None 4 false false 2 = Ok 0.
Proof. vm_compute. auto. Qed.

Print Assumptions C28_in_range.
Print Assumptions C28_injective.
Print Assumptions C28_surjective.
Print Assumptions C28_zero.
Print Assumptions C28_mapping.
Print Assumptions C28_conformant.
Print Assumptions C28_legal.
Print Assumptions C28_clamped_refuted.
Print Assumptions C28_no_feature_refuted.
Print Assumptions C28_prediction.
Print Assumptions C28_temporal.
Print Assumptions C28_block.

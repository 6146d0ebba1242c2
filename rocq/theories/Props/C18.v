(** C18: with spatial layers, one picture per temporal unit is output, of the highest
    layer there is. *)
From Coq Require Import ZArith List Bool Lia.
From Verif Require Import Base.CInt Obu.SeqModel Obu.FrameModel Dec.State Dec.Submit Dec.ObuModel Dec.LibModel
  Dec.Inv Dec.OutSpec Dec.Micro Dec.Api Dec.Trace Dec.Fifo Dec.Session Dec.Runs Dec.Again Dec.Layers Dec.Samples.
Import ListNotations.
Open Scope Z_scope.

(** What is delivered is chosen from the pictures decoding produces (C17_order) as
    [sel_all] says: a picture is held until the next one; it is delivered if it is of
    the highest layer, if the next one starts a temporal unit, or when the caller has
    to wait for data. *)
Theorem C18_choice : forall o s l d rs d' e, 1 <= s_n_fc s -> live o s d -> fresh s d -> Forall call_ok l -> ~ In Flush l ->
  calls o s l d = Ok (rs, d', e) ->
  sel_all (s_all_layers s) e (mkSel (top s d) [] None) = seen s (takes e) d' /\
  pics rs = filter (fun p => negb (lost o s p)) (takes e).
Proof. intros o s l d rs d' e NF. exact (run_choice o s NF l d rs d' e). Qed.

(** With all_layers every picture is output. *)
Theorem C18_all_layers : forall o s l d rs d' e, 1 <= s_n_fc s -> live o s d -> fresh s d -> Forall call_ok l -> ~ In Flush l ->
  calls o s l d = Ok (rs, d', e) -> s_all_layers s = true -> takes e ++ opt_list (d_out d') = outs_of e.
Proof.
  intros o s l d rs d' e NF L F HC HF E AL. destruct (run_choice o s NF l d rs d' e L F HC HF E) as (S & P).
  assert (T : top s d = 0) by (unfold top; rewrite AL; reflexivity).
  rewrite (sel_zero s e (mkSel (top s d) [] None) (or_introl AL) T) in S. apply (seen_zero s (takes e) d' (outs_of e)). symmetry. exact S.
Qed.

(** While the highest layer is [M] and the pictures come in temporal units, each
    starting with a picture marked as such and of rising layers, and the caller runs
    out of data only between units: exactly one picture per unit, of its highest
    layer. *)
Theorem C18_units : forall o s l d rs d' e1 e2 M us, 1 <= s_n_fc s -> live o s d -> fresh s d -> Forall call_ok l -> ~ In Flush l ->
  calls o s l d = Ok (rs, d', e1 ++ e2) -> s_all_layers s = false -> M <> 0 ->
  outs_of e1 = [] -> top_from M e2 -> marks e2 = flat_map tu_marks us -> Forall (tu_ok M) us ->
  (exists more, takes (e1 ++ e2) ++ more = map tu_best us) /\ (exhausted s d' -> takes (e1 ++ e2) = map tu_best us).
Proof. exact run_units. Qed.

(** Being out of data means that every packet has been read completely. *)
Theorem C18_cut_after_packets : forall o s l d rs d' e1 e2, 1 <= s_n_fc s -> live o s d -> Forall call_ok l ->
  calls o s l d = Ok (rs, d', e1 ++ EvCut :: e2) -> feed_all e1 (d_in d) = Some None.
Proof.
  intros o s l d rs d' e1 e2 NF L HC E. pose proof (run_input o s NF l d rs d' _ L HC E) as H. rewrite feed_all_app in H.
  destruct (feed_all e1 (d_in d)) as [[u|]|]; [discriminate|reflexivity|discriminate].
Qed.

(** Sessions in layers. *)
Definition tu1 : list Z := p_td ++ p_layers ++ in_layer 0 p_key ++ in_layer 1 p_inter.
Definition tu2 : list Z := p_td ++ in_layer 0 p_inter ++ in_layer 1 p_inter.
Definition delivered (s : settings) (l : list call) : option (list (option Z * Z)) :=
  match calls o_fine s l (dec0 s) with
  | Ok (rs, d, e) => Some (map (fun p => (tp_buf p, layer p)) (pics rs))
  | Undef => None
  end.
(** Both layers of both units are decoded (buffers 0 to 3); layer 1 is output. *)
Example C18_session :
  delivered s_top1 [send (tu1 ++ tu2); Get; Get; Get] = Some [(Some 1, 1); (Some 3, 1)] /\
  delivered s_top2 [send (tu1 ++ tu2); Get; Get; Get; Get] = Some [(Some 1, 1); (Some 3, 1)] /\
  delivered s_one [send (tu1 ++ tu2); Get; Get; Get; Get; Get] = Some [(Some 0, 0); (Some 1, 1); (Some 2, 0); (Some 3, 1)].
Proof. vm_compute. repeat split. Qed.
(** The hypotheses of C18_units hold for this session. *)
Definition ran := outcome (list reply * dec * list ev).
Definition evs (r : ran) : list ev := match r with Ok (_, _, e) => e | Undef => [] end.
Definition last (r : ran) : dec := match r with Ok (_, d, _) => d | Undef => dec0 s_top1 end.
Definition units2 (r : ran) : list tu :=
  match outs_of (evs r) with [a; b; c; d] => [mkTu a [b] 0; mkTu c [d] 2] | _ => [] end.
Definition parse_top (x : ev) : bool := match x with EvParse _ _ _ sid => sid =? 1 | _ => true end.
Definition tu_okb (u : tu) : bool :=
  match tu_more u with
  | [q] => new_unit (tu_first u) && (layer (tu_first u) <? layer q) && negb (new_unit q) && (layer q <=? 1)
  | _ => false
  end.
Lemma met : forall r : ran,
  match r with Ok _ => true | Undef => false end = true -> outs_of (firstn 2 (evs r)) = [] ->
  match skipn 2 (evs r) with EvParse _ _ _ sid :: _ => sid =? 1 | _ => false end = true ->
  forallb parse_top (skipn 2 (evs r)) = true -> marks (skipn 2 (evs r)) = flat_map tu_marks (units2 r) ->
  forallb tu_okb (units2 r) = true ->
  match d_in (last r), d_out (last r), d_cache (last r) with None, None, None => true | _, _, _ => false end = true ->
  length (units2 r) = 2%nat ->
  exists rs e1 e2, r = Ok (rs, last r, e1 ++ e2) /\
  outs_of e1 = [] /\ top_from 1 e2 /\ marks e2 = flat_map tu_marks (units2 r) /\
  Forall (tu_ok 1) (units2 r) /\ exhausted s_top1 (last r) /\ length (units2 r) = 2%nat.
Proof.
  intros r A B C D F G H I. exists (match r with Ok (rs, _, _) => rs | Undef => [] end), (firstn 2 (evs r)), (skipn 2 (evs r)).
  split; [rewrite firstn_skipn; destruct r as [[[? ?] ?]|]; [reflexivity|discriminate]|]. split; [exact B|]. split; [|split; [exact F|]].
  { split.
    - destruct (skipn 2 (evs r)) as [|[] t]; try discriminate. apply Z.eqb_eq in C. subst. do 4 eexists. reflexivity.
    - intros b m q sid X. apply (proj1 (forallb_forall _ _) D) in X. apply Z.eqb_eq in X. exact X. }
  split.
  { apply Forall_forall. intros u X. apply (proj1 (forallb_forall _ _) G) in X. revert X. unfold tu_okb, tu_ok.
    destruct (tu_more u) as [|q [|? ?]]; cbn [rising]; intros X; try discriminate.
    apply andb_prop in X. destruct X as (X & X1). apply andb_prop in X. destruct X as (X & X2). apply andb_prop in X. destruct X as (X & X3).
    split; [exact X|]. split; [lia|]. split; [|lia]. destruct (new_unit q); [discriminate|reflexivity]. }
  split; [|exact I]. unfold exhausted. destruct (d_in (last r)); [discriminate|]. destruct (d_out (last r)); [discriminate|].
  destruct (d_cache (last r)); [discriminate|]. auto.
Qed.
Example C18_units_met : let r := calls o_fine s_top1 [send (tu1 ++ tu2); Get; Get; Get] (dec0 s_top1) in
  exists rs e1 e2, r = Ok (rs, last r, e1 ++ e2) /\
  outs_of e1 = [] /\ top_from 1 e2 /\ marks e2 = flat_map tu_marks (units2 r) /\
  Forall (tu_ok 1) (units2 r) /\ exhausted s_top1 (last r) /\ length (units2 r) = 2%nat.
Proof. cbv zeta. apply met; vm_compute; reflexivity. Qed.

(** Without frame threads a unit that is sent in two packets gives two pictures, the
    lower layer first, if the caller asks in between. *)
Theorem C18_split_unit_refuted :
  delivered s_top1 [send (p_td ++ p_layers ++ in_layer 0 p_key); Get; send (in_layer 1 p_inter); Get] =
  Some [(Some 0, 0); (Some 1, 1)].
Proof. vm_compute. reflexivity. Qed.
(** The mark of a new unit is lost if its first frame is hidden: the picture of the
    unit before (buffer 0) is dropped. *)
Theorem C18_hidden_first_refuted :
  delivered s_top1 [send (p_td ++ p_layers ++ in_layer 0 p_key ++ p_td ++ in_layer 0 p_hid ++ in_layer 1 p_inter); Get; Get; Get] =
  Some [(Some 2, 1)].
Proof. vm_compute. reflexivity. Qed.
(** The last picture of a sequence with layers (buffer 1) is not output if a sequence
    without layers follows in the same packet. *)
Theorem C18_new_sequence_refuted :
  delivered s_top1 [send (tu1 ++ p_td ++ p_seq ++ p_key); Get; Get; Get] = Some [(Some 2, 0)].
Proof. vm_compute. reflexivity. Qed.

Print Assumptions C18_choice.
Print Assumptions C18_all_layers.
Print Assumptions C18_units.
Print Assumptions C18_cut_after_packets.
Print Assumptions C18_new_sequence_refuted.

(** C17: packets are taken and parsed exactly once, pictures come out in order. *)
From Coq Require Import ZArith List Bool Lia.
From Verif Require Import Base.CInt Obu.SeqModel Obu.FrameModel Dec.State Dec.Submit Dec.ObuModel Dec.LibModel
  Dec.Inv Dec.OutSpec Dec.Micro Dec.Api Dec.Trace Dec.Fifo Dec.Session Dec.Runs Dec.Again Dec.Tidy Dec.Sending Dec.Samples.
Import ListNotations.
Open Scope Z_scope.

(** dav1d_send_data: an empty packet is rejected; while a packet is pending EAGAIN is
    returned and nothing happens; otherwise the packet becomes the pending one.  The
    caller's packet is consumed exactly when 0 is returned; a negative result is
    that of the parser. *)
Theorem C17_send : forall o s d pkt r taken d' e, 1 <= s_n_fc s -> live o s d -> call_ok (Send pkt) ->
  send_data o s pkt d = Ok (r, taken, d', e) ->
  (taken = true <-> r = 0) /\
  match pkt with
  | Some ([], _) => r = EINVAL_ /\ d' = d /\ e = []
  | _ =>
    match d_in d with
    | Some _ => r = EAGAIN_ /\ e = [] /\ d' = match pkt with Some _ => w_drain false d | None => d end
    | None =>
      (exists e', e = match pkt with Some (buf, m) => [EvIn buf m] | None => [] end ++ e') /\
      (r <> 0 -> exists pre buf m sid post, e = pre ++ EvParse buf m r sid :: post /\ Forall plain post)
    end
  end.
Proof. exact send_contract. Qed.

(** Over any calls: the parser is given every packet that was accepted, from its
    first byte on, each time exactly what it left of it the time before, until
    nothing is left, an error or a flush. *)
Theorem C17_input : forall o s l d rs d' e, 1 <= s_n_fc s -> live o s d -> Forall call_ok l ->
  calls o s l d = Ok (rs, d', e) -> feed_all e (d_in d) = Some (d_in d').
Proof. intros o s l d rs d' e NF. exact (run_input o s NF l d rs d' e). Qed.
(** No call is ever undefined. *)
Theorem C17_total : forall o s l d, 1 <= s_n_fc s -> live o s d -> Forall call_ok l ->
  exists rs d' e, calls o s l d = Ok (rs, d', e) /\ live o s d'.
Proof.
  intros o s l d NF L H. destruct (live_ok o s d NF L) as (LI & OP).
  destruct (calls_steps o s l d LI OP H) as (rs & d1 & e & E & _). exists rs, d1, e. split; [exact E|].
  exact (calls_live o s l d rs d1 e L H E).
Qed.

(** A decoder is fresh when opened and after dav1d_flush. *)
Theorem C17_fresh : forall s, fresh s (dec0 s) /\ forall d, fresh s (flush s d).
Proof. intros s. split; [apply fresh_start|apply fresh_flush]. Qed.

(** From then on frames come out in the order in which they were handed to the
    decoder (or shown again): those that are to be shown become pictures, with frame
    threads errors are reported in the same order, and the last ones, at most as many
    as there are frame threads, are in flight. *)
Theorem C17_order : forall o s l d rs d' e, 1 <= s_n_fc s -> live o s d -> fresh s d -> Forall call_ok l -> ~ In Flush l ->
  calls o s l d = Ok (rs, d', e) ->
  exists out waiting, made_all o s e = out ++ waiting /\ ids (outs_of e) = wanted out /\
    Z.of_nat (length waiting) <= s_n_fc s /\
    (s_n_fc s = 1 \/ Forall empty_fc (d_fc d') -> waiting = []) /\
    (s_n_fc s <> 1 -> errs e ++ nonzero [d_cached_error d'] = nonzero (map mk_ret out)).
Proof. intros o s l d rs d' e NF. exact (run_order o s NF l d rs d' e). Qed.

(** Without a choice among spatial layers all these pictures are delivered, in that
    order and once each; the last one may not have been collected yet.  The replies
    carry exactly the pictures delivered, but for those whose copy for film grain
    could not be allocated. *)
Theorem C17_pictures : forall o s l d rs d' e, 1 <= s_n_fc s -> live o s d -> fresh s d -> Forall call_ok l -> ~ In Flush l ->
  calls o s l d = Ok (rs, d', e) -> flat s e -> top s d = 0 ->
  takes e ++ opt_list (d_out d') = outs_of e /\ pics rs = filter (fun p => negb (lost o s p)) (takes e).
Proof.
  intros o s l d rs d' e NF L F HC HF E FL T. destruct (run_choice o s NF l d rs d' e L F HC HF E) as (S & P). split; [|exact P].
  rewrite (sel_zero s e (mkSel (top s d) [] None) FL T) in S. apply (seen_zero s (takes e) d' (outs_of e)). symmetry. exact S.
Qed.

(** dav1d_get_picture asks for more only when all input is read and no picture is
    ready ... *)
Theorem C17_again : forall o s d p d' e, 1 <= s_n_fc s -> live o s d ->
  get_picture o s d = Ok (EAGAIN_, p, d', e) -> no_error e ->
  d_in d' = None /\ d_out d' = None /\ (s_n_fc s = 1 \/ d_drain d = true -> top s d' = 0 \/ d_cache d' = None).
Proof.
  intros o s d p d' e NF L E NE. destruct (get_again o s NF d p d' e L E NE) as (A & B & C & _). auto.
Qed.
(** ... and, with frame threads, for a caller that asks once per packet and at the
    end until nothing is left, no frame is left in flight, if none was refused. *)
Theorem C17_drained : forall o s l n d rs d1 e p d2 e2, 1 < s_n_fc s -> live o s d -> d_drain d = false -> all_quiet s d ->
  paced true l -> Forall call_ok l -> calls o s (l ++ repeat Get (S n)) d = Ok (rs, d1, e) ->
  get_picture o s d1 = Ok (EAGAIN_, p, d2, e2) -> no_refuse (e ++ e2) -> no_error e2 -> Forall empty_fc (d_fc d2).
Proof. intros o s l n d rs d1 e p d2 e2 NF. exact (paced_empty o s NF l n d rs d1 e p d2 e2). Qed.

(** A caller that drains, goes on, and drains again may be told that nothing is left
    although a frame is in flight: a call that finds a hidden frame stops at the next
    slot that was emptied before (lib.c:375).  The next call delivers the frame. *)
Theorem C17_drained_refuted :
  let l := [send (p_td ++ p_seq ++ p_key); send p_inter; send p_hid; Get; Get; send (p_td ++ p_inter); Get; Get; Get] in
  match calls o_fine s_four l (dec0 s_four) with
  | Ok (rs, d, e) =>
    map reply_of rs = [(0, true, None); (0, true, None); (0, true, None); (EAGAIN_, false, None); (0, false, Some 0);
                       (0, true, None); (0, false, Some 1); (EAGAIN_, false, None); (0, false, Some 3)]
  | Undef => False
  end.
Proof. vm_compute. reflexivity. Qed.
(** The same after a frame that was refused, which marks its slot for good
    (decode.c:3720). *)
Definition o_refuse : oracle :=
  mkOracle (fun id _ _ => if id =? 0 then ENOMEM_ else 0) (fun _ _ _ => 0) (fun _ => mkDres 0 false false) (fun _ => 0).
Theorem C17_drained_refused_refuted :
  let l := [send (p_td ++ p_seq ++ p_key); send (p_td ++ p_seq ++ p_key); Get; Get; send p_inter; Get; Get; Get] in
  match calls o_refuse s_four l (dec0 s_four) with
  | Ok (rs, d, e) =>
    map reply_of rs = [(ENOMEM_, false, None); (0, true, None); (EAGAIN_, false, None); (0, false, Some 1);
                       (0, true, None); (EAGAIN_, false, None); (EAGAIN_, false, None); (0, false, Some 2)]
  | Undef => False
  end.
Proof. vm_compute. reflexivity. Qed.
(** An error of the parser is not reported when the frame in the same OBU pushed a
    finished picture out. *)
Theorem C17_error_lost_refuted :
  let o := mkOracle (fun id _ _ => if id =? 2 then ENOMEM_ else 0) (fun _ _ _ => 0) (fun _ => mkDres 0 false false) (fun _ => 0) in
  let l := [send (p_td ++ p_seq ++ p_key); send p_inter; send p_inter; Get; Get; Get] in
  match calls o s_two l (dec0 s_two) with
  | Ok (rs, d, e) =>
    map reply_of rs = [(0, true, None); (0, true, None); (0, true, None); (0, false, Some 0); (0, false, Some 1); (EAGAIN_, false, None)] /\
    In (2, ENOMEM_) (map ev_kind e)
  | Undef => False
  end.
Proof. vm_compute. split; [reflexivity|]. tauto. Qed.

(** The hypotheses can be met. *)
Definition demo : list call := [send (p_td ++ p_seq ++ p_key); Get; send p_inter; Get; send p_hid; Get; send p_inter].
Example C17_live : live o_fine s_two (dec0 s_two) /\ Forall call_ok demo /\ paced true demo /\ all_quiet s_two (dec0 s_two) /\ d_drain (dec0 s_two) = false.
Proof.
  split; [apply live_start|]. split; [apply okcalls_ok; reflexivity|]. split.
  { unfold demo, send. repeat first [apply paced_send; [|discriminate] | apply paced_get | apply paced_nil]. }
  split; [|reflexivity]. vm_compute. repeat (constructor; [split; [reflexivity|split; reflexivity]|]). constructor.
Qed.
Example C17_run : 
  match calls o_fine s_two (demo ++ repeat Get 5) (dec0 s_two) with
  | Ok (rs, d, e) => map (fun p => tp_buf p) (pics rs) = [Some 0; Some 1; Some 3] /\ made_all o_fine s_two e =
      [mkMade (Some 0) 0 true; mkMade (Some 1) 0 true; mkMade (Some 2) 0 false; mkMade (Some 3) 0 true]
  | Undef => False
  end.
Proof. vm_compute. split; reflexivity. Qed.
Example C17_flat : match calls o_fine s_two (demo ++ repeat Get 5) (dec0 s_two) with
  | Ok (rs, d, e) => flat s_two e /\ top s_two (dec0 s_two) = 0 | Undef => False end.
Proof. vm_compute. split; [left|]; reflexivity. Qed.

Print Assumptions C17_send.
Print Assumptions C17_input.
Print Assumptions C17_total.
Print Assumptions C17_order.
Print Assumptions C17_pictures.
Print Assumptions C17_again.
Print Assumptions C17_drained.
Print Assumptions C17_drained_refuted.

(** C35: a decoder recovers after an error. *)
From Coq Require Import ZArith List Bool Lia.
From Verif Require Import Base.CInt GetBits.Model GetBits.Sim Obu.SeqModel Obu.ObuSpec Obu.FrameModel Dec.State Dec.Submit Dec.ObuModel Dec.LibModel
  Dec.Inv Dec.OutSpec Dec.RecoverSpec Dec.Micro Dec.Recover Dec.Api Dec.Session Dec.Rejoin Dec.Stuck Dec.Samples.
Import ListNotations.
Open Scope Z_scope.

(** From a temporal delimiter, sequence header and key frame on, every OBU is dealt
    with as a new decoder would: the same return values, and the same frames decoded
    (from the same data, headers, references and contexts, with the same results),
    refused, dropped or shown; at the end the decoders agree.  The calls by which the
    packets are passed may differ. *)
Theorem C35_restart : forall o s l1 l2 d rs1 rs2 a1 a2 e1 e2, blind o -> 1 <= s_n_fc s -> live o s d ->
  unstuck d -> Forall call_ok l1 -> Forall call_ok l2 -> ~ In Flush l1 -> ~ In Flush l2 ->
  calls o s l1 d = Ok (rs1, a1, e1) -> calls o s l2 (dec_from s (d_jobs d)) = Ok (rs2, a2, e2) ->
  d_in d = None -> d_in a1 = None -> d_in a2 = None -> packets e1 = packets e2 -> sequence_start s (trail e2) ->
  trail e1 = trail e2 /\ agree a1 a2.
Proof. intros o s l1 l2 d rs1 rs2 a1 a2 e1 e2 BL NF. exact (restart o s BL NF l1 l2 d rs1 rs2 a1 a2 e1 e2). Qed.

(** The same for any two decoders. *)
Theorem C35_histories : forall o s l1 l2 d1 d2 rs1 rs2 a1 a2 e1 e2, blind o -> 1 <= s_n_fc s -> live o s d1 -> live o s d2 ->
  unstuck d1 -> unstuck d2 -> d_jobs d1 = d_jobs d2 -> Forall call_ok l1 -> Forall call_ok l2 -> ~ In Flush l1 -> ~ In Flush l2 ->
  calls o s l1 d1 = Ok (rs1, a1, e1) -> calls o s l2 d2 = Ok (rs2, a2, e2) ->
  d_in d1 = None -> d_in a1 = None -> d_in d2 = None -> d_in a2 = None -> packets e1 = packets e2 -> sequence_start s (trail e2) ->
  trail e1 = trail e2 /\ agree a1 a2.
Proof.
  intros o s l1 l2 d1 d2 rs1 rs2 a1 a2 e1 e2 BL NF L1 L2. destruct (live_ok o s d1 NF L1) as (LI1 & OP1). destruct (live_ok o s d2 NF L2) as (LI2 & OP2).
  exact (rejoin o s BL l1 l2 d1 d2 rs1 rs2 a1 a2 e1 e2 LI1 OP1 LI2 OP2).
Qed.

(** Every decoder is unstuck, or has the header of a frame left over that was to be
    shown again and cannot be shown; it enters the second state only with an error. *)
Theorem C35_states : forall o s d, 1 <= s_n_fc s -> live o s d -> unstuck d \/ stuck s d.
Proof. exact live_pend. Qed.
Theorem C35_only_by_error : forall o s buf m d r d' e, 1 <= s_n_fc s -> live o s d -> d_out d = None -> Forall is_byte buf -> 0 < zlen buf ->
  parse_obus o s buf m d = Ok (r, d', e) -> unstuck d -> stuck s d' -> r = EINVAL_ /\ work e = [].
Proof.
  intros o s buf m d r d' e NF L EO HB HL E U S. destruct (live_ok o s d NF L) as ((I & _) & _).
  destruct (parse_pend o s buf m d r d' e I EO HB HL E (or_introl U)) as [U2|(_ & [S2|R])]; [|exfalso; eapply stuck_not; eauto|exact R].
  exfalso. eapply stuck_not; eauto.
Qed.
Theorem C35_flush : forall o s d r d' e, api o s Flush d = Ok (r, d', e) -> unstuck d'.
Proof. intros o s d r d' e E. cbn in E. injection E as _ <- _. unfold flush, unstuck. cbv zeta. destruct (s_n_fc s =? 1); exact I. Qed.

(** In the second state packets that start with a temporal delimiter are rejected,
    whatever they contain and however many there are. *)
Theorem C35_stuck_refuted : forall o s l d rs d' e, 1 <= s_n_fc s -> live o s d -> stuck s d -> Forall call_ok l -> ~ In Flush l ->
  calls o s l d = Ok (rs, d', e) -> d_in d = None -> d_in d' = None -> Forall (fun p => first_type (fst p) OBU_TD) (packets e) ->
  trail e = map rejected (packets e) /\ stuck s d'.
Proof. intros o s l d rs d' e NF. exact (stuck_session o s NF l d rs d' e). Qed.

(** The state is reached by a frame header that shows an empty slot.  A key frame
    after that is decoded only if no delimiter comes first, or after a flush. *)
Definition rets (s : settings) (l : list call) : option (list (Z * bool * option Z)) :=
  match calls o_fine s l (dec0 s) with Ok (rs, _, _) => Some (map reply_of rs) | Undef => None end.
Definition good : list Z := p_td ++ p_seq ++ p_key.
Example C35_stuck_reached :
  rets s_one [send (p_td ++ p_seq ++ p_show); send good; send good; Get] =
    Some [(EINVAL_, false, None); (EINVAL_, false, None); (EINVAL_, false, None); (EAGAIN_, false, None)] /\
  rets s_one [send (p_td ++ p_seq ++ p_show); send p_key; Get] =
    Some [(EINVAL_, false, None); (0, true, None); (0, false, Some 0)] /\
  rets s_one [send (p_td ++ p_seq ++ p_show); Flush; send good; Get] =
    Some [(EINVAL_, false, None); (0, false, None); (0, true, None); (0, false, Some 0)].
Proof. vm_compute. repeat split. Qed.
Definition at_end (s : settings) (l : list call) (d : dec) : dec := match calls o_fine s l d with Ok (_, d, _) => d | Undef => d end.
Definition evs (s : settings) (l : list call) (d : dec) : list ev := match calls o_fine s l d with Ok (_, _, e) => e | Undef => [] end.
Example C35_stuck_there : stuck s_one (at_end s_one [send (p_td ++ p_seq ++ p_show)] (dec0 s_one)).
Proof.
  set (d := at_end _ _ _).
  assert (H : match d_fhdr d with Some h => (show_existing_frame h =? 1) && is_none (r_pic (slot_at d (existing_frame_idx h))) | None => false end = true)
    by (vm_compute; reflexivity).
  unfold stuck. destruct (d_fhdr d) as [h|]; [|discriminate]. exists h. apply andb_prop in H. destruct H as (H1 & H2).
  split; [reflexivity|]. split; [lia|]. unfold refused. destruct (r_pic _); [discriminate|exact I].
Qed.

(** The hypotheses of C35_restart hold after a packet that is broken in its frame
    header. *)
Definition check (s : settings) (t : list entry) : bool :=
  match t with
  | [x1; x2; x3] =>
    match next_obu (en_buf x1) 0 with Some (h, _, _) => obu_type h =? OBU_TD | None => false end &&
    match obu_open (s_strict s) (en_buf x2) with
    | Ok (Some (t, _, _, _, c)) => (t =? OBU_SEQ_HDR) &&
      match exec (parse_seq_hdr (s_strict s)) c with
      | Ok (inl q, _) =>
        match obu_open (s_strict s) (en_buf x3) with
        | Ok (Some (t, ext, tid, sid, c)) => (t =? OBU_FRAME) && negb (layer_dropped (selected s q) t ext tid sid) &&
          match exec (parse_frame_hdr q (repeat None 8) (s_strict s) tid sid) c with
          | Ok (inl h, _) => (show_existing_frame h =? 0) && (frame_type (f_pre h) =? FT_KEY) && z2b (show_frame (f_pre h))
          | _ => false
          end
        | _ => false
        end
      | _ => false
      end
    | _ => false
    end &&
    match en_work x3 with [Decoded _ _] => true | _ => false end
  | _ => false
  end.
Lemma check_start : forall s t, check s t = true -> sequence_start s t.
Proof.
  intros s [|x1 [|x2 [|x3 [|? ?]]]] H; try discriminate. unfold check in H.
  apply andb_prop in H. destruct H as (H & H3). apply andb_prop in H. destruct H as (H1 & H2).
  destruct (next_obu (en_buf x1) 0) as [[[h a] b]|] eqn:N; [|discriminate].
  destruct (obu_open (s_strict s) (en_buf x2)) as [[[[[[t2 ext2] tid2] sid2] c2]|]|] eqn:O2; try discriminate.
  apply andb_prop in H2. destruct H2 as (T2 & H2). apply Z.eqb_eq in T2. subst t2.
  destruct (exec (parse_seq_hdr (s_strict s)) c2) as [[[q|] c2']|] eqn:X2; try discriminate.
  destruct (obu_open (s_strict s) (en_buf x3)) as [[[[[[t3 ext3] tid3] sid3] c3]|]|] eqn:O3; try discriminate.
  apply andb_prop in H2. destruct H2 as (T3 & H2). apply andb_prop in T3. destruct T3 as (T3 & LD). apply Z.eqb_eq in T3. subst t3.
  destruct (exec (parse_frame_hdr _ _ _ _ _) c3) as [[[h3|] c3']|] eqn:X3; try discriminate.
  apply andb_prop in H2. destruct H2 as (H2 & H6). apply andb_prop in H2. destruct H2 as (H4 & H5).
  exists x1, x2, x3, [], [], q. split; [reflexivity|]. split; [exists h, a, b; split; [exact N|lia]|].
  split; [unfold starts_seq; eauto 10|]. split; [exists OBU_FRAME, ext3, tid3, sid3, c3, h3, c3'; repeat (split; [first [assumption|auto; lia]|]); assumption|].
  split; [intros ? ? ? ? ? Z; rewrite O3 in Z; injection Z as <- <- <- <- <-; destruct (layer_dropped _ _ _ _ _); [discriminate|reflexivity]|].
  split; [constructor|]. destruct (en_work x3) as [|[j r| | |] [|? ?]]; try discriminate. exists j, r. left. reflexivity.
Qed.
Definition broken : list call := [send (p_td ++ p_seq ++ [50; 2; 16; 5])].
Definition plain_calls : list call := [send good; Get; Get].
Example C35_restart_met : let d := after_calls o_fine s_one broken in
  live o_fine s_one d /\ unstuck d /\ d_in d = None /\ d_in (at_end s_one plain_calls d) = None /\
  d_in (at_end s_one plain_calls (dec_from s_one (d_jobs d))) = None /\
  packets (evs s_one plain_calls d) = packets (evs s_one plain_calls (dec_from s_one (d_jobs d))) /\
  sequence_start s_one (trail (evs s_one plain_calls (dec_from s_one (d_jobs d)))) /\
  rets s_one broken = Some [(EINVAL_, false, None)].
Proof.
  cbv zeta. split; [apply after_live; vm_compute; reflexivity|]. split; [vm_compute; split; [reflexivity|discriminate]|].
  do 4 (split; [vm_compute; reflexivity|]). split; [apply check_start; vm_compute; reflexivity|vm_compute; reflexivity].
Qed.

Print Assumptions C35_restart.
Print Assumptions C35_histories.
Print Assumptions C35_states.
Print Assumptions C35_only_by_error.
Print Assumptions C35_flush.
Print Assumptions C35_stuck_refuted.

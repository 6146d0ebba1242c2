(** C06: packet parsing makes progress and stays inside the packet.

    [live o s d]: state [d] is reachable by API calls (and the parsing steps inside
    them) with settings [s], where [o] decides about allocation failures and the
    outcome of tile decoding.  [parse_obus] is dav1d_parse_obus; all its buffer
    accesses are checked operations whose failure is [Undef]. *)
From Coq Require Import ZArith List Bool Lia.
From Verif Require Import Base.CInt GetBits.Model GetBits.Spec GetBits.SpecProg
  Obu.SeqModel Obu.SeqRel Obu.ObuSpec Obu.FrameModel
  Dec.State Dec.Submit Dec.ObuModel Dec.LibModel Dec.Front Dec.Wf Dec.Inv Dec.Meta Dec.Step Dec.SubmitProofs
  Dec.Parse Dec.Api Dec.Facts Dec.TileSteps Dec.Samples.
Import ListNotations.
Open Scope Z_scope.

(** A step is defined for every packet in every reachable state, and consumes
    between one byte and all of them or fails. *)
Theorem C06_progress : forall o s d buf m, 1 <= s_n_fc s -> live o s d -> d_out d = None ->
  Forall is_byte buf -> 0 < zlen buf ->
  exists r d' e, parse_obus o s buf m d = Ok (r, d', e) /\ (r < 0 \/ 1 <= r <= zlen buf).
Proof.
  intros o s d buf m HN HL HO HB HZ. destruct (live_ok o s d HN HL) as ((I & _) & _).
  destruct (parse_obus_ok o s buf m d I HO HB HZ) as (r & d' & e & E & _ & _ & R & _). eauto.
Qed.

(** What it consumes is exactly one OBU: header, size field and payload; a packet
    that does not start with a complete OBU is an error. *)
Theorem C06_one_obu : forall o s d buf m r d' e, 1 <= s_n_fc s -> live o s d -> d_out d = None ->
  Forall is_byte buf -> 0 < zlen buf -> parse_obus o s buf m d = Ok (r, d', e) ->
  match next_obu buf 0 with
  | Some (h, start, stop) => r = stop \/ r < 0
  | None => r = EINVAL_ /\ e = [] /\ d' = w_err_props m d
  end.
Proof.
  intros o s d buf m r d' e HN HL HO HB HZ HP. destruct (the_step o s buf m d d' r e HN HL HO HB HZ HP) as (S & R & _).
  destruct S as [(-> & -> & -> & S)|(h & start & stop & N & _ & B1 & B2 & S)].
  - destruct (next_obu buf 0) as [[[h a] b]|]; [right; reflexivity|auto].
  - rewrite N. destruct S as [(_ & -> & _)|(_ & x & H & X)]; [auto|].
    destruct R as [R|R]; [auto|left].
    destruct x as [d1|d1|r1 d1].
    + destruct X as [(-> & _)|[(q & h1 & _ & _ & _ & _ & [(-> & _)|(p & _ & -> & _)])|(q & h1 & _ & _ & _ & _ & [(_ & -> & _)|(_ & r0 & d2 & _ & _ & X)])]]; auto.
      * unfold EINVAL_ in R. lia.
      * destruct X as [(A & -> & _)|(_ & -> & _)]; [lia|auto].
    + destruct X as (-> & _). unfold EINVAL_ in R. lia.
    + destruct X as (-> & _).
      assert (TS : 0 <= temporal_id h /\ 0 <= spatial_id h).
      { destruct (obu_open_ok (s_strict s) buf HB HZ) as (x0 & E0 & X0). destruct x0 as [[[[[ty ex] ti] si] c]|].
        - destruct X0 as (h0 & a & b & N0 & _ & _ & _ & -> & -> & _ & _ & T1 & T2 & _). rewrite N in N0. injection N0 as <- <- <-. lia.
        - exfalso. unfold parse_obus in HP. rewrite E0 in HP. cbn in HP. injection HP as <- _ _. unfold EINVAL_ in R. lia. }
      destruct (live_ok o s d HN HL) as ((I & _) & _).
      assert (HST : 0 <= start <= zlen (firstn (Z.to_nat stop) buf)) by (rewrite zlen_firstn; lia).
      destruct (switch_inv s _ _ _ m _ _ d _ I HST (proj1 TS) (proj2 TS) H) as (_ & _ & _ & J).
      specialize (J _ _ eq_refl). unfold ERANGE_ in J. lia.
Qed.

(** Hence a packet is used up in at most as many steps as it has bytes, whatever is
    done with the pictures in between. *)
Inductive uses (o : oracle) (s : settings) (m : props) : list Z -> dec -> nat -> Prop :=
| uses_end : forall d, uses o s m [] d 0
| uses_error : forall buf d r d' e, parse_obus o s buf m d = Ok (r, d', e) -> r < 0 -> buf <> [] -> uses o s m buf d 1
| uses_step : forall buf d r d' e n, parse_obus o s buf m d = Ok (r, d', e) -> 0 <= r -> buf <> [] ->
    uses o s m (skipn (Z.to_nat r) buf) (w_out None d') n -> uses o s m buf d (S n).
Theorem C06_packet : forall o s m buf d, 1 <= s_n_fc s -> live o s d -> d_out d = None -> Forall is_byte buf ->
  exists n, uses o s m buf d n /\ (n <= length buf)%nat.
Proof.
  intros o s m buf d HN HL HO HB. destruct (live_ok o s d HN HL) as ((I & _) & _). clear HL.
  remember (length buf) as k eqn:EK. assert (K : (length buf <= k)%nat) by lia. clear EK. revert buf d HO HB I K.
  induction k; intros buf d HO HB I K.
  - destruct buf; [|cbn in K; lia]. exists 0%nat. split; [constructor|lia].
  - destruct buf as [|b buf]; [exists 0%nat; split; [constructor|lia]|].
    assert (HZ : 0 < zlen (b :: buf)) by (unfold zlen; cbn [length]; lia).
    destruct (parse_obus_ok o s (b :: buf) m d I HO HB HZ) as (r & d' & e & E & I' & _ & R & _).
    destruct R as [R|R].
    + exists 1%nat. split; [eapply uses_error; eauto; discriminate|lia].
    + destruct (IHk (skipn (Z.to_nat r) (b :: buf)) (w_out None d')) as (n & U & L).
      * reflexivity.
      * apply Forall_skipn; auto.
      * destruct (inv_pending _ _ I') as (P1 & P2). apply (inv_eq s d' _ I'); try reflexivity; dsimp; [discriminate|auto].
      * rewrite skipn_length. cbn [length] in K |- *. lia.
      * exists (S n). split; [|lia]. eapply uses_step; eauto; [lia|discriminate].
Qed.

(** Every API call is defined in every reachable state. *)
Theorem C06_api_total : forall o s d c, 1 <= s_n_fc s -> live o s d -> call_ok c ->
  exists r d' e, api o s c d = Ok (r, d', e).
Proof.
  intros o s d c HN HL HC. destruct (live_ok o s d HN HL) as (I & OP).
  destruct (api_ok o s c d I OP HC) as (r & d' & e & E & _). eauto.
Qed.

Definition C06_d : dec := after_calls o_fine s_one [send p_seq].
Example C06_example : live o_fine s_one C06_d /\ d_out C06_d = None /\ d_seq C06_d <> None /\
  step_kind o_fine s_one (p_key ++ p_inter) C06_d = Some (10, [(1, 0); (5, 0)]).
Proof. split; [apply after_live; reflexivity|]. split; [vm_compute; reflexivity|]. split; [vm_compute; discriminate|vm_compute; reflexivity]. Qed.

Print Assumptions C06_progress.
Print Assumptions C06_one_obu.
Print Assumptions C06_packet.
Print Assumptions C06_api_total.

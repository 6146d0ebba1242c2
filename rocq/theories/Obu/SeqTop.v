(** dav1d_parse_sequence_header against the OBU walk of the specification. *)
From Coq Require Import ZArith List Bool Lia.
From Verif Require Import Base.CInt Base.Lemmas Base.Finite GetBits.Model GetBits.Spec GetBits.Abstract
  GetBits.Proofs GetBits.SpecProg GetBits.Sim GetBits.VarLen GetBits.Reads GetBits.AtPos Obu.SimTac
  Obu.SeqModel Obu.SeqRel Obu.SeqProofs Obu.ObuSpec.
Import ListNotations.
Open Scope Z_scope.
Local Open Scope outcome_scope.

(** The model skips bits that the syntax table reads as separate elements. *)
Lemma sim_skip : forall A B N n n1 (p : rd A) (q : Z -> sp B) (R : A -> B -> Prop),
  0 < n1 < n -> n <= 32 -> n <= N ->
  (forall a, 0 <= a < 2 ^ n1 -> sim (N - n1) (rbind (bits (n - n1)) (fun _ => p)) (q a) R) ->
  sim N (rbind (bits n) (fun _ => p)) (sbind (f n1) q) R.
Proof.
  intros A B N n n1 p q R Hn Hn32 HN H s a Hs Ha Hb.
  assert (Hf : forall i, 0 <= st_bit s i <= 1) by (apply Hs).
  specialize (H (f_n (st_bit s) (a_pos a) n1) (f_n_range _ Hf (a_pos a) n1 ltac:(lia)) s
    {| a_pos := a_pos a + n1; a_err := a_err a || (st_len s <? a_pos a + n1) |} Hs
    ltac:(apply apos_ok_read; [lia|auto]) ltac:(cbn [a_pos]; lia)).
  cbn [a_pos a_err] in H. rewrite srun_bind. cbn [f srun].
  assert (EQ : forall p'', a_pos a + n1 <= p'' ->
     (a_err a || (st_len s <? a_pos a + n1)) || (st_len s <? p'') = a_err a || (st_len s <? p'')).
  { intros. destruct (a_err a); simpl; auto.
    destruct (Z.ltb_spec (st_len s) (a_pos a + n1)); simpl; auto. symmetry. apply Z.ltb_lt. lia. }
  assert (EX : aexec (rbind (bits n) (fun _ => p)) s a =
               aexec (rbind (bits (n - n1)) (fun _ => p)) s
                 {| a_pos := a_pos a + n1; a_err := a_err a || (st_len s <? a_pos a + n1) |}).
  { cbn [bits rbind aexec]. replace ((0 <? n) && (n <=? 32)) with true by lia.
    replace ((0 <? n - n1) && (n - n1 <=? 32)) with true by lia. unfold a_read. cbn [a_pos a_err].
    replace (a_pos a + n1 + (n - n1)) with (a_pos a + n) by lia.
    destruct (a_pos a + n <=? st_len s + 2 ^ 31); cbn [obind]; auto.
    rewrite EQ by lia. reflexivity. }
  rewrite EX.
  match type of H with match ?X with _ => _ end => destruct X as [[b|] pos'] end.
  - destruct H as (P & z & E & RR). split; [lia|]. exists z. rewrite E, EQ by lia. auto.
  - destruct H as (P & E). split; [lia|]. rewrite E, EQ by lia. auto.
Qed.

Lemma sim_obu_head : forall N, 16 <= N ->
  sim N obu_head obu_header (fun x y => x = (obu_type y, obu_has_size_field y) /\
     0 <= obu_has_size_field y <= 1).
Proof.
  intros N HN. unfold obu_head, obu_header. rd1 fb. rdn ty 4. rd1 ext. rd1 hl.
  assert (ext = 0 \/ ext = 1) as [-> | ->] by lia; cbn [Z.eqb Pos.eqb].
  - change (1 + 8 * 0) with 1. rdn r 1. sret. auto.
  - change (1 + 8 * 1) with 9. apply sim_skip; try lia. intros r Hr. change (9 - 1) with 8.
    apply sim_skip; try lia. intros t Ht. change (8 - 3) with 5.
    apply sim_skip; try lia. intros sp Hsp. change (5 - 2) with 3. rdn x 3. sret. auto.
Qed.

Lemma obu_header_len : forall b pos h p, srun obu_header b pos = (Some h, p) ->
  p = pos + 8 \/ p = pos + 16.
Proof.
  intros b pos h p. unfold obu_header. cbn [f sbind srun].
  destruct (_ =? 1); cbn [f sbind srun]; intros E; inversion E; lia.
Qed.
Lemma obu_header_some : forall b pos, exists h p, srun obu_header b pos = (Some h, p).
Proof.
  intros b pos. unfold obu_header. cbn [f sbind srun].
  destruct (_ =? 1); cbn [f sbind srun]; eauto.
Qed.
Lemma leb128_len : forall b pos v p, srun leb128 b pos = (v, p) -> exists k, p = pos + 8 * k /\ 1 <= k.
Proof.
  intros b pos v p. unfold leb128. rewrite srun_bind.
  assert (G : forall rem i val pos, exists k, snd (srun (leb128_loop rem i val) b pos) = pos + 8 * k /\ 0 <= k /\
     (rem <> O -> 1 <= k)).
  { induction rem; intros i val pos0; cbn [leb128_loop f sbind srun snd].
    - exists 0. lia.
    - destruct (_ <? 128); cbn [srun snd]; [exists 1; lia|].
      match goal with |- context [srun (leb128_loop rem ?a ?c) b ?d] => destruct (IHrem a c d) as (k & -> & K & _) end.
      exists (k + 1). lia. }
  destruct (G 8%nat 0 0 pos) as (k & E & K & K1).
  destruct (srun (leb128_loop 8 0 0) b pos) as [[[x y]|] p']; cbn [snd] in E; subst p'.
  - unfold require. destruct (_ <=? _); cbn [sbind srun]; intros X; inversion X; exists k; split; auto.
  - intros X; inversion X. exists k; split; auto.
Qed.

(** * check_trailing_bits *)
Lemma trailing_aexec : forall strict s a, stream_ok s -> apos_ok s a -> a_pos a + 1 <= st_len s + 2 ^ 31 ->
  exists r, aexec (check_trailing_bits strict) s a =
    Ok (r, {| a_pos := a_pos a + 1; a_err := a_err a || (st_len s <? a_pos a + 1) |}) /\
  ((r = inl tt /\ a_err a = false /\ S.trailing_ok strict (st_bit s) (a_pos a) (st_len s)) \/
   (r = inr EINVAL_ /\ (a_err a = true \/ ~ S.trailing_ok strict (st_bit s) (a_pos a) (st_len s)))).
Proof.
  intros strict s a Hs Ha Hb. unfold check_trailing_bits. cbn [bit rbind aexec get_error rest_is_zero err].
  unfold a_read. replace (a_pos a + 1 <=? st_len s + 2 ^ 31) with true by lia. cbn [obind a_err a_pos].
  destruct (a_err a) eqn:Ea; cbn [orb aexec].
  { eexists; split; [reflexivity|]. right. auto. }
  unfold S.trailing_ok.
  destruct (Z.ltb_spec (st_len s) (a_pos a + 1)); cbn [aexec].
  { eexists; split; [reflexivity|]. right. split; auto. right. lia. }
  destruct strict; cbn [negb aexec].
  2:{ eexists; split; [reflexivity|]. left. split; auto. split; auto. split; [lia|]. discriminate. }
  pose proof (proj1 Hs (a_pos a)) as Hbit.
  assert (st_bit s (a_pos a) = 0 \/ st_bit s (a_pos a) = 1) as [E|E] by lia; rewrite E;
    cbn [z2b Z.eqb negb aexec].
  { eexists; split; [reflexivity|]. right. split; auto. right. intros (_ & X). specialize (X eq_refl). lia. }
  unfold a_rest. cbn [a_pos].
  destruct (Z.eqb_spec (f_n (st_bit s) (a_pos a + 1) (st_len s - (a_pos a + 1))) 0) as [Z0|Z0]; cbn [aexec].
  - eexists; split; [reflexivity|]. left. split; auto. split; auto. split; [lia|]. intros _. split; auto.
    intros i Hi. unfold f_n in Z0. apply (f_n_zero_inv (st_bit s) (proj1 Hs) _ _ Z0). lia.
  - eexists; split; [reflexivity|]. right. split; auto. right. intros (_ & X). destruct (X eq_refl) as [_ X2].
    apply Z0. apply f_n_zero. intros i Hi. apply X2. lia.
Qed.

(** parse_seq_hdr at any reader state. *)
Lemma seq_aexec : forall strict s a, stream_ok s -> apos_ok s a -> a_pos a + 5001 <= st_len s + 2 ^ 31 ->
  exists r a', aexec (parse_seq_hdr strict) s a = Ok (r, a') /\ a_pos a <= a_pos a' <= a_pos a + 5001 /\
    a_err a' = a_err a || (st_len s <? a_pos a') /\
  ((exists h sh pos, r = inl h /\ srun (S.sequence_header_obu strict) (st_bit s) (a_pos a) = (Some sh, pos) /\
      a_err a = false /\ a_pos a' = pos + 1 /\
      S.trailing_ok strict (st_bit s) pos (st_len s) /\ seq_rel h sh /\ seq_wf h) \/
   (r = inr EINVAL_ /\ (a_err a = true \/
      forall sh pos, srun (S.sequence_header_obu strict) (st_bit s) (a_pos a) = (Some sh, pos) ->
        ~ S.trailing_ok strict (st_bit s) pos (st_len s)))).
Proof.
  intros strict s a Hs Ha Hb. unfold parse_seq_hdr. rewrite aexec_bind.
  pose proof (sim_seq strict 5000 ltac:(lia) s a Hs Ha ltac:(lia)) as SS.
  destruct (srun (S.sequence_header_obu strict) (st_bit s) (a_pos a)) as [[sh|] pos].
  - destruct SS as (P & h & E & RR & WW). rewrite E. rewrite aexec_bind.
    set (a' := {| a_pos := pos; a_err := a_err a || (st_len s <? pos) |}).
    assert (Ha' : apos_ok s a').
    { subst a'. split; cbn [a_pos a_err]; [destruct Ha; lia|]. intros.
      replace (st_len s <? pos) with true by lia. apply orb_true_r. }
    destruct (trailing_aexec strict s a' Hs Ha' ltac:(subst a'; cbn [a_pos]; lia)) as (r & E2 & D).
    rewrite E2. subst a'. cbn [a_pos a_err] in *.
    assert (EQ : (a_err a || (st_len s <? pos)) || (st_len s <? pos + 1) = a_err a || (st_len s <? pos + 1)).
    { destruct (a_err a); simpl; auto. destruct (Z.ltb_spec (st_len s) pos), (Z.ltb_spec (st_len s) (pos + 1)); auto. lia. }
    destruct D as [(-> & D1 & D2)|(-> & D1)]; cbn [aexec].
    + eexists; eexists. split; [reflexivity|]. cbn [a_pos a_err]. split; [lia|]. split; [auto|].
      left. exists h, sh, pos. apply orb_false_elim in D1. tauto.
    + eexists; eexists. split; [reflexivity|]. cbn [a_pos a_err]. split; [lia|]. split; [auto|].
      right. split; auto. destruct (a_err a); auto. right. intros sh' pos' X. inversion X; subst.
      destruct D1 as [D1|D1]; auto. simpl in D1. intros [T _]. lia.
  - destruct SS as (P & E). rewrite E. eexists; eexists. split; [reflexivity|]. cbn [a_pos a_err].
    split; [lia|]. split; [auto|]. right. split; auto. right. intros; discriminate.
Qed.

(** * The loop of dav1d_parse_sequence_header *)
Lemma gb_align_at : forall buf pos c, at_pos buf pos c -> pos <= 8 * zlen buf ->
  exists c', gb_align c = Ok c' /\ at_pos buf (8 * ((pos + 7) / 8)) c' /\
    gb_state c' = 0 /\ gb_left c' = 0 /\ gb_ptr c' = (pos + 7) / 8 /\ gb_ptr c = (pos + 7) / 8.
Proof.
  intros buf pos c (W & E1 & E2 & E3) Hp.
  destruct (align_ok c W) as (c' & A1 & A2 & (A3 & A4) & A5).
  assert (SL : st_len (stream_of c) = 8 * zlen buf) by (unfold stream_of; simpl; lia).
  unfold a_align in A5. rewrite SL, E3 in A5. cbn [a_pos a_err] in A5.
  replace (8 * zlen buf <? pos) with false in A5 by lia.
  exists c'. split; [auto|].
  assert (B : gb_state c' = 0 /\ gb_left c' = 0 /\ gb_ptr c' = gb_ptr c).
  { unfold gb_align in A1. destruct (gb_left c <=? 7); [|discriminate]. inversion A1; subst c'. auto. }
  destruct B as (B1 & B2 & B3).
  assert (P : gb_ptr c' = (pos + 7) / 8).
  { unfold apos_of in A5. inversion A5. rewrite B2 in *. lia. }
  split; [|repeat split; auto; congruence].
  split; [auto|]. split; [congruence|]. split; [congruence|]. rewrite A5. f_equal.
  symmetry. apply Z.ltb_ge. lia.
Qed.

Lemma at_pos_aligned : forall buf o c, at_pos buf (8 * o) c -> 8 * o <= 8 * zlen buf ->
  gb_ptr c = o /\ gb_left c = 0 /\ gb_state c = 0 /\ gb_err c = false.
Proof.
  intros buf o c (W & E1 & E2 & E3) Ho. pose proof (f_equal a_pos E3) as P. pose proof (f_equal a_err E3) as E. unfold apos_of in P, E. cbn [a_pos a_err] in P, E.
  assert (Hf : (8 * zlen buf <? 8 * o) = false) by lia. rewrite Hf in E.
  destruct W as (_ & _ & _ & [(L & L8 & St)|(L & Pp & St & Er)]); [|congruence].
  assert (gb_left c = 0) by lia. split; [lia|]. split; [lia|]. split; [|congruence].
  rewrite St, H, f_n_0. reflexivity.
Qed.

Lemma at_pos_setptr : forall buf c p, gb_wf c -> gb_buf c = buf -> gb_end c = zlen buf -> gb_err c = false ->
  gb_left c = 0 -> gb_state c = 0 -> 0 <= p <= zlen buf -> at_pos buf (8 * p) (gb_setptr c p).
Proof.
  intros buf c p (W1 & W2 & W3 & _) E1 E2 E3 L S Hp. unfold at_pos, gb_wf, gb_setptr, apos_of. cbn.
  rewrite L, S, E1, E2, E3. split; [|split; [auto|split; [auto|]]].
  - split; [rewrite <- E1; auto|]. split; [lia|]. split; [lia|]. left. split; [lia|]. split; [lia|].
    rewrite f_n_0. reflexivity.
  - f_equal; [lia|]. symmetry. apply Z.ltb_ge. lia.
Qed.

(** parse_seq_hdr (non strict) at a position, exec level. *)
Lemma seq_exec : forall c, gb_wf c -> a_pos (apos_of c) + 5001 <= 8 * gb_end c + 2 ^ 31 ->
  exists r c', exec (parse_seq_hdr false) c = Ok (r, c') /\ gb_wf c' /\ same_buf c c' /\
    a_pos (apos_of c) <= a_pos (apos_of c') /\
    gb_err c' = gb_err c || (8 * gb_end c <? a_pos (apos_of c')) /\
  ((exists h sh pos, r = inl h /\
      srun (S.sequence_header_obu false) (st_bit (stream_of c)) (a_pos (apos_of c)) = (Some sh, pos) /\
      gb_err c = false /\ a_pos (apos_of c') = pos + 1 /\ pos < 8 * gb_end c /\ seq_rel h sh /\ seq_wf h) \/
   (r = inr EINVAL_ /\ (gb_err c = true \/
      forall sh pos, srun (S.sequence_header_obu false) (st_bit (stream_of c)) (a_pos (apos_of c)) = (Some sh, pos) ->
        8 * gb_end c <= pos))).
Proof.
  intros c W Hb.
  destruct (seq_aexec false (stream_of c) (apos_of c) (stream_of_ok c) (gb_wf_pos c W) Hb)
    as (r & a' & E & P & Er & D).
  destruct (exec_refines _ _ c _ _ W E) as (c' & X1 & X2 & X3 & X5).
  exists r, c'. rewrite X5. split; [auto|]. split; [auto|]. split; [auto|]. split; [lia|].
  split. { change (gb_err c') with (a_err (apos_of c')). rewrite X5. exact Er. }
  destruct D as [(h & sh & pos & -> & D1 & D2 & D3 & (D4 & _) & D5 & D6)|(-> & D)].
  - left. exists h, sh, pos. split; [auto|]. split; [exact D1|]. split; [exact D2|]. split; [auto|]. split; [exact D4|]. auto.
  - right. split; auto. destruct D as [D|D]; [left; exact D|right]. intros sh pos HS.
    specialize (D sh pos HS). unfold S.trailing_ok in D.
    destruct (Z.le_gt_cases (8 * gb_end c) pos); auto. exfalso. apply D.
    split; [exact H|]. discriminate.
Qed.

Lemma next_obu_bounds : forall buf o h p e, 0 <= o -> next_obu buf o = Some (h, p, e) ->
  o < p /\ p <= e <= zlen buf.
Proof.
  intros buf o h p e Ho. unfold next_obu.
  destruct (srun obu_header _ (8 * o)) as [[hh|] q] eqn:E; [|discriminate].
  pose proof (obu_header_len _ _ _ _ E) as L.
  destruct (_ =? 1).
  - destruct (srun leb128 _ q) as [[sz|] q2] eqn:E2; [|discriminate].
    destruct (leb128_len _ _ _ _ E2) as (k & K1 & K2).
    assert (0 <= sz).
    { pose proof (uleb128_ok {| st_bit := stream_bit buf (zlen buf); st_len := 8 * zlen buf |}
        {| a_pos := q; a_err := true |}) as U. cbn [st_bit st_len a_pos a_err] in U. rewrite E2 in U.
      destruct (Z.le_gt_cases (q + 64) (8 * zlen buf + 2 ^ 31)) as [B|B].
      - apply U; auto. { split; cbn; intros; [apply stream_bit_range|apply stream_bit_end; auto]. }
        split; cbn; [lia|auto].
      - clear U. revert E2. unfold leb128. rewrite srun_bind.
        assert (G : forall rem i val pos, 0 <= val -> 0 <= i ->
          match fst (srun (leb128_loop rem i val) (stream_bit buf (zlen buf)) pos) with
          | Some (v, _) => 0 <= v | None => True end).
        { induction rem; intros i val pos Hv Hi; cbn [leb128_loop f sbind srun fst]; auto.
          match goal with |- context [val + ?t mod 128 * ?pw] =>
            assert (0 <= val + t mod 128 * pw) by (pose proof (Z.mod_pos_bound t 128 ltac:(lia)); pose proof (pow2_pos (i * 7) ltac:(lia)); nia) end.
          destruct (_ <? 128); cbn [srun fst]; auto. apply IHrem; auto. lia. }
        specialize (G 8%nat 0 0 q ltac:(lia) ltac:(lia)).
        destruct (srun (leb128_loop 8 0 0) _ q) as [[[v y]|] q']; cbn [fst] in G; [|discriminate].
        unfold require. destruct (_ <=? _); cbn [sbind srun]; intros X; inversion X; subst; auto. }
    destruct (Z.leb_spec (q2 / 8 + sz) (zlen buf)); [|discriminate]. intros X; injection X as X1 X2 X3. lia.
  - destruct (Z.leb_spec (q / 8) (zlen buf)); [|discriminate]. intros X; inversion X; subst. lia.
Qed.

Lemma walk_det : forall buf o l1, walk buf o l1 -> forall l2, walk buf o l2 -> l1 = l2.
Proof.
  induction 1; intros l2 H2.
  - inversion H2; subst; auto. lia.
  - inversion H2; subst; [lia|]. 
    match goal with H : next_obu buf o = Some (?a, ?b, ?c), H' : next_obu buf o = Some (?a', ?b', ?c') |- (?a, ?b, ?c) :: _ = _ =>
      rewrite H in H'; inversion H'; subst end. f_equal. auto.
Qed.

Lemma walk_inv : forall buf o l h p e, walk buf o l -> 0 <= o < zlen buf ->
  next_obu buf o = Some (h, p, e) -> exists l', l = (h, p, e) :: l' /\ walk buf e l'.
Proof.
  intros buf o l h p e W Ho NX. inversion W; subst; [lia|]. rewrite NX in H0. inversion H0; subst. eauto.
Qed.

Lemma uleb_exec2 : forall buf pos c, at_pos buf pos c -> pos + 64 <= 8 * zlen buf + 2 ^ 31 ->
  match srun leb128 (stream_bit buf (zlen buf)) pos with
  | (Some v, pos') => pos < pos' <= pos + 64 /\ 0 <= v < 2 ^ 32 /\
      exists c', exec get_uleb128 c = Ok (inl v, c') /\ at_pos buf pos' c'
  | (None, pos') => exists c', exec get_uleb128 c = Ok (inl 0, c') /\ gb_wf c' /\ gb_buf c' = buf /\
      gb_end c' = zlen buf /\ gb_err c' = true /\ a_pos (apos_of c') <= pos + 64
  end.
Proof.
  intros buf pos c Hat Hb. pose proof (uleb_exec buf pos c Hat Hb) as H.
  pose proof Hat as (W & E1 & E2 & E3).
  pose proof (at_pos_stream _ _ _ Hat) as ES.
  pose proof (uleb128_ok (stream_of c) (apos_of c) (stream_of_ok c) (gb_wf_pos c W)) as H2.
  rewrite ES, E3 in H2. cbn [a_pos st_bit st_len a_err] in H2. specialize (H2 Hb).
  destruct (srun leb128 (stream_bit buf (zlen buf)) pos) as [[v|] pos']; auto.
  destruct H2 as (P2 & E). rewrite <- ES, <- E3 in E.
  destruct (exec_refines _ _ c _ _ W E) as (c' & X1 & X2 & (X3 & X4) & X5).
  exists c'. split; [auto|]. split; [auto|]. split; [congruence|]. split; [congruence|].
  change (gb_err c') with (a_err (apos_of c')). rewrite X5. cbn. split; [auto|lia].
Qed.

(** Result of the loop on the part of the walk from byte [o] on. *)
Definition psh_post (buf : list Z) (o : Z) (res : option seq_hdr) (r : option seq_hdr + Z) : Prop :=
  match r with
  | inl res' => exists l, walk buf o l /\ Forall (seq_valid buf) l /\
      ((Forall (fun x => ~ is_seq x) l /\ res' = res) \/
       exists l1 x l2 h s, l = l1 ++ x :: l2 /\ is_seq x /\ Forall (fun x => ~ is_seq x) l2 /\
         seq_hdr_in buf (snd (fst x)) (snd x) s /\ res' = Some h /\ seq_rel h s /\ seq_wf h)
  | inr e => e = EINVAL_ /\ ~ exists l, walk buf o l /\ Forall (seq_valid buf) l
  end.

Ltac conjs := repeat match goal with |- _ /\ _ => split end.

Lemma psh_post_fail : forall buf o res, 0 <= o < zlen buf ->
  (forall h p e, next_obu buf o = Some (h, p, e) -> ~ seq_valid buf (h, p, e)) ->
  psh_post buf o res (inr EINVAL_).
Proof.
  intros buf o res Ho H. split; auto. intros (l & W & F). inversion W; subst; [lia|].
  inversion F; subst. eapply H; eauto.
Qed.

Lemma psh_loop_ok : forall fuel buf o c res, Forall is_byte buf -> at_pos buf (8 * o) c ->
  0 <= o < zlen buf -> (Z.to_nat (zlen buf - o) <= fuel)%nat ->
  exists r, psh_loop fuel c res = Ok r /\ psh_post buf o res r.
Proof.
  induction fuel; intros buf o c res Hbuf Hat Ho Hfu; [lia|].
  cbn [psh_loop].
  pose proof (sim_exec _ _ 16 _ _ _ buf (8 * o) c (sim_obu_head 16 ltac:(lia)) Hat ltac:(lia)) as HH.
  destruct (obu_header_some (stream_bit buf (zlen buf)) (8 * o)) as (h & q & EH).
  rewrite EH in HH. destruct HH as (Pq & x & c1 & X1 & (X2 & Hsz) & At1). rewrite X1. cbn [obind].
  rewrite X2. clear X1 X2 x.
  pose proof (obu_header_len _ _ _ _ EH) as Lq.
  (* the common continuation, once the payload range is known *)
  assert (CONT : forall c2 p e, gb_wf c2 -> gb_buf c2 = buf -> gb_end c2 = zlen buf ->
    a_pos (apos_of c2) <= 8 * zlen buf + 200 ->
    (gb_err c2 = false -> at_pos buf (8 * p) c2 /\ 8 * p <= 8 * zlen buf /\ next_obu buf o = Some (h, p, e)) ->
    (gb_err c2 = true -> next_obu buf o = None) ->
    exists r,
    (let! x :=
          (if obu_type h =? 1 then
             let! (r, c) := exec (parse_seq_hdr false) c2 in
             match r with
             | inr e => Ok (inr e)
             | inl h => if e <? gb_ptr c then Ok (inr EINVAL_)
                        else let! c := gb_align c in Ok (inl (c, Some h))
             end
           else Ok (inl (c2, res))) in
        match x with
        | inr e => Ok (inr e)
        | inl (c, res) =>
          if gb_err c then Ok (inr EINVAL_) else
          guard! (gb_state c =? 0) && (gb_left c =? 0) in
          let c := gb_setptr c e in
          if gb_ptr c <? gb_end c then psh_loop fuel c res else Ok (inl res)
        end) = Ok r /\ psh_post buf o res r).
  { intros c2 p e W2 B2 N2 Bd Hgood Hbad.
    destruct (Z.eqb_spec (obu_type h) 1) as [Ht|Ht].
    - (* a sequence header *)
      destruct (seq_exec c2 W2 ltac:(lia)) as (r & c3 & X & W3 & (S3 & S4) & Pm & Er & D).
      rewrite X. cbn [obind].
      destruct D as [(hd & sh & pos & -> & D1 & D2 & D3 & D4 & D5 & D6)|(-> & D)].
      + destruct (Hgood D2) as (At2 & Hp8 & NX). clear Hgood Hbad.
        pose proof (next_obu_bounds _ _ _ _ _ (proj1 Ho) NX) as NB.
        rewrite (at_pos_stream _ _ _ At2) in D1. cbn [st_bit] in D1.
        assert (A2 : a_pos (apos_of c2) = 8 * p) by (destruct At2 as (_ & _ & _ & ->); auto).
        rewrite A2 in *.
        assert (At3 : at_pos buf (pos + 1) c3).
        { split; [auto|]. split; [congruence|]. split; [congruence|].
          assert (EA : apos_of c3 = {| a_pos := a_pos (apos_of c3); a_err := gb_err c3 |}) by reflexivity.
          rewrite EA, D3, Er, D2, D3, N2. reflexivity. }
        destruct (gb_align_at buf (pos + 1) c3 At3 ltac:(lia)) as (c4 & G1 & G2 & G3 & G4 & G5 & G6).
        rewrite G6.
        destruct (Z.ltb_spec e ((pos + 1 + 7) / 8)) as [Hov|Hok]; cbn [obind].
        * eexists. split; [reflexivity|]. apply psh_post_fail; auto.
          intros h' p' e' NX' SV. rewrite NX in NX'. inversion NX'; subst h' p' e'.
          destruct (SV Ht) as (s' & pos' & R1 & R2). cbn [fst snd] in R1, R2.
          rewrite D1 in R1. inversion R1; subst. lia.
        * rewrite G1. cbn [obind].
          destruct (at_pos_aligned _ _ _ G2 ltac:(lia)) as (_ & _ & _ & GE). rewrite GE.
          replace ((gb_state c4 =? 0) && (gb_left c4 =? 0)) with true by lia.
          assert (SVx : seq_hdr_in buf p e sh) by (exists pos; split; [exact D1|lia]).
          assert (SV : seq_valid buf (h, p, e)) by (intros _; exists sh; auto).
          assert (E4 : gb_end c4 = zlen buf) by (apply G2).
          cbn [gb_setptr gb_ptr gb_end]. rewrite E4.
          destruct (Z.ltb_spec e (zlen buf)) as [He|He].
          -- assert (At5 : at_pos buf (8 * e) (gb_setptr c4 e)).
             { apply at_pos_setptr; auto; try (apply G2); try lia. }
             destruct (IHfuel buf e (gb_setptr c4 e) (Some hd) Hbuf At5 ltac:(lia) ltac:(lia)) as (r & R1 & R2).
             first [rewrite R1 | unfold gb_setptr in R1; rewrite E4 in R1; rewrite R1 | unfold gb_setptr in R1; rewrite N2 in R1; rewrite R1]. eexists. split; [reflexivity|].
             destruct r as [res'|ee].
             ++ destruct R2 as (l & L1 & L2 & L3). exists ((h, p, e) :: l).
                split; [econstructor; eauto|]. split; [constructor; auto|]. right.
                destruct L3 as [(L3 & ->)|(l1 & x & l2 & h2 & s2 & -> & L4 & L5 & L6 & -> & L7 & L8)].
                ** exists [], (h, p, e), l, hd, sh. conjs; auto.
                ** exists ((h, p, e) :: l1), x, l2, h2, s2. conjs; auto.
             ++ destruct R2 as (-> & R2). split; auto. intros (l & L1 & L2). apply R2.
                destruct (walk_inv _ _ _ _ _ _ L1 Ho NX) as (l2 & -> & L9). inversion L2. eauto.
          -- eexists. split; [reflexivity|].
             assert (e = zlen buf) by lia. subst e.
             exists [(h, p, zlen buf)]. split; [econstructor; eauto; constructor|].
             split; [constructor; auto|]. right.
             exists [], (h, p, zlen buf), [], hd, sh. conjs; auto.
      + eexists. split; [reflexivity|]. apply psh_post_fail; auto.
        intros h' p' e' NX SV.
        destruct (gb_err c2) eqn:Ge.
        { rewrite (Hbad eq_refl) in NX. discriminate. }
        destruct (Hgood eq_refl) as (At2 & Hp8 & NX2). rewrite NX2 in NX. inversion NX; subst h' p' e'.
        pose proof (next_obu_bounds _ _ _ _ _ (proj1 Ho) NX2) as NB.
        destruct (SV Ht) as (s' & pos' & R1 & R2). cbn [fst snd] in R1, R2.
        destruct D as [D|D]; [congruence|].
        rewrite (at_pos_stream _ _ _ At2) in D. cbn [st_bit] in D.
        assert (A2 : a_pos (apos_of c2) = 8 * p) by (destruct At2 as (_ & _ & _ & ->); auto).
        rewrite A2 in D. specialize (D s' pos' R1). lia.
    - cbn [obind]. destruct (gb_err c2) eqn:Ge.
      + eexists. split; [reflexivity|]. apply psh_post_fail; auto.
        intros h' p' e' NX. rewrite (Hbad eq_refl) in NX. discriminate.
      + destruct (Hgood eq_refl) as (At2 & Hp8 & NX).
        pose proof (next_obu_bounds _ _ _ _ _ (proj1 Ho) NX) as NB.
        destruct (at_pos_aligned _ _ _ At2 ltac:(lia)) as (_ & L2 & S2 & _).
        replace ((gb_state c2 =? 0) && (gb_left c2 =? 0)) with true by lia.
        cbn [gb_setptr gb_ptr gb_end]. rewrite N2.
        assert (NS : ~ is_seq (h, p, e)) by exact Ht.
        destruct (Z.ltb_spec e (zlen buf)) as [He|He].
        * assert (At5 : at_pos buf (8 * e) (gb_setptr c2 e)).
          { apply at_pos_setptr; auto. lia. }
          destruct (IHfuel buf e (gb_setptr c2 e) res Hbuf At5 ltac:(lia) ltac:(lia)) as (r & R1 & R2).
          first [rewrite R1 | unfold gb_setptr in R1; rewrite E4 in R1; rewrite R1 | unfold gb_setptr in R1; rewrite N2 in R1; rewrite R1]. eexists. split; [reflexivity|].
          destruct r as [res'|ee].
          -- destruct R2 as (l & L1 & L3 & L4). exists ((h, p, e) :: l).
             split; [econstructor; eauto|]. split; [constructor; auto; intros X; contradiction|].
             destruct L4 as [(L4 & ->)|(l1 & x & l2 & h2 & s2 & -> & L4 & L5 & L6 & -> & L7 & L8)].
             ++ left. split; auto.
             ++ right. exists ((h, p, e) :: l1), x, l2, h2, s2. conjs; auto.
          -- destruct R2 as (-> & R2). split; auto. intros (l & L1 & L3). apply R2.
             destruct (walk_inv _ _ _ _ _ _ L1 Ho NX) as (l2 & -> & L9). inversion L3. eauto.
        * eexists. split; [reflexivity|]. assert (e = zlen buf) by lia. subst e.
          exists [(h, p, zlen buf)]. split; [econstructor; eauto; constructor|].
          split; [constructor; auto; intros X; contradiction|]. left. split; auto. }
  pose proof At1 as (W1 & B1 & N1 & A1).
  rewrite z2b_1 by lia.
  destruct (Z.eqb_spec (obu_has_size_field h) 1) as [Hs|Hs].
  - pose proof (uleb_exec2 buf q c1 At1 ltac:(lia)) as U.
    destruct (srun leb128 (stream_bit buf (zlen buf)) q) as [[v|] q2] eqn:EL.
    + destruct U as (U1 & U2 & c2 & U3 & At2). rewrite U3. cbn [obind].
      destruct (leb128_len _ _ _ _ EL) as (k & K1 & K2).
      pose proof At2 as (W2 & B2 & N2 & A2).
      assert (Q8 : q2 = 8 * (q2 / 8)) by lia.
      assert (NXT : next_obu buf o = if q2 / 8 + v <=? zlen buf then Some (h, q2 / 8, q2 / 8 + v) else None).
      { unfold next_obu. rewrite EH. replace (obu_has_size_field h =? 1) with true by lia. rewrite EL. auto. }
      assert (PT : gb_ptr c2 = Z.min (q2 / 8) (zlen buf) /\ gb_err c2 = (zlen buf <? q2 / 8)).
      { destruct (Z.le_gt_cases q2 (8 * zlen buf)).
        - rewrite Q8 in At2. destruct (at_pos_aligned _ _ _ At2 ltac:(lia)) as (? & ? & ? & ->). lia.
        - pose proof (f_equal a_pos A2) as Pa. pose proof (f_equal a_err A2) as Pe. unfold apos_of in Pa, Pe. cbn [a_pos a_err] in Pa, Pe.
          destruct W2 as (_ & Wp & _ & [(L & _)|(L & Pp & _ & _)]); [lia|]. rewrite Pe. lia. }
      destruct PT as (PT & PE). rewrite PT, N2.
      destruct (Z.ltb_spec (zlen buf - Z.min (q2 / 8) (zlen buf)) v) as [Hv|Hv].
      * eexists. split; [reflexivity|]. apply psh_post_fail; auto. intros h' p' e' NX. rewrite NXT in NX.
        destruct (Z.leb_spec (q2 / 8 + v) (zlen buf)); [lia|discriminate].
      * apply (CONT c2 (q2 / 8)); auto.
        -- rewrite A2. cbn. lia.
        -- intros Ge. rewrite PE in Ge. rewrite <- Q8. split; [auto|]. split; [lia|].
           rewrite NXT. replace (q2 / 8 + v <=? zlen buf) with true by lia.
           rewrite Z.min_l by lia. reflexivity.
        -- intros Ge. rewrite PE in Ge. rewrite NXT. replace (q2 / 8 + v <=? zlen buf) with false by lia. auto.
    + destruct U as (c2 & U3 & W2 & B2 & N2 & Ge & Pb). rewrite U3. cbn [obind].
      assert (NXT : next_obu buf o = None).
      { unfold next_obu. rewrite EH. replace (obu_has_size_field h =? 1) with true by lia. rewrite EL. auto. }
      destruct (Z.ltb_spec (gb_end c2 - gb_ptr c2) 0).
      * eexists. split; [reflexivity|]. apply psh_post_fail; auto. intros. congruence.
      * apply (CONT c2 0); auto; try lia. congruence.
  - cbn [obind]. rewrite N1.
    assert (NXT : next_obu buf o = if q / 8 <=? zlen buf then Some (h, q / 8, zlen buf) else None).
    { unfold next_obu. rewrite EH. replace (obu_has_size_field h =? 1) with false by lia. auto. }
    assert (PE : gb_err c1 = (8 * zlen buf <? q)) by (change (gb_err c1) with (a_err (apos_of c1)); rewrite A1; auto).
    assert (Q8 : q = 8 * (q / 8)) by lia.
    apply (CONT c1 (q / 8)); auto.
    + rewrite A1. cbn. lia.
    + intros Ge. rewrite PE in Ge. rewrite <- Q8. split; [auto|]. split; [lia|].
      rewrite NXT. replace (q / 8 <=? zlen buf) with true by lia. auto.
    + intros Ge. rewrite PE in Ge. rewrite NXT. replace (q / 8 <=? zlen buf) with false by lia. auto.
Qed.

Definition psh_result (buf : list Z) (r : seq_hdr + Z) : Prop :=
  match r with
  | inl h => exists l l1 x l2 s, walk buf 0 l /\ Forall (seq_valid buf) l /\ l = l1 ++ x :: l2 /\
      is_seq x /\ Forall (fun x => ~ is_seq x) l2 /\ seq_hdr_in buf (snd (fst x)) (snd x) s /\
      seq_rel h s /\ seq_wf h
  | inr e => (e = ENOENT_ /\ exists l, walk buf 0 l /\ Forall (fun x => ~ is_seq x) l) \/
             (e = EINVAL_ /\ ~ exists l, walk buf 0 l /\ Forall (seq_valid buf) l)
  end.

Theorem parse_sequence_header_ok : forall buf, Forall is_byte buf -> 0 < zlen buf < 2 ^ 63 ->
  exists r, parse_sequence_header buf (zlen buf) = Ok r /\ psh_result buf r.
Proof.
  intros buf Hb Hl. unfold parse_sequence_header.
  replace ((0 <? zlen buf) && (zlen buf <=? 2 ^ 63 - 1)) with true by lia. cbn [negb].
  destruct (at_pos_init buf Hb ltac:(lia)) as (c & E & At). rewrite E. cbn [obind].
  destruct (psh_loop_ok (Z.to_nat (zlen buf)) buf 0 c None Hb At ltac:(lia) ltac:(lia)) as (r & E2 & P).
  rewrite E2. cbn [obind]. destruct r as [[h|]|e].
  - eexists. split; [reflexivity|]. destruct P as (l & L1 & L2 & [(_ & X)|(l1 & x & l2 & h' & s & -> & L)]); [discriminate|].
    destruct L as (L4 & L5 & L6 & X & L7 & L8). inversion X; subst h'.
    exists (l1 ++ x :: l2), l1, x, l2, s. conjs; auto.
  - eexists. split; [reflexivity|]. left. split; auto.
    destruct P as (l & L1 & L2 & [(L3 & _)|(l1 & x & l2 & h' & s & -> & L)]); [eauto|].
    destruct L as (L4 & L5 & L6 & X & L7). discriminate.
  - destruct P as (-> & P). eexists. split; [reflexivity|]. right. auto.
Qed.

(** C03: all inputs, including empty and oversized ones. *)
Theorem parse_sequence_header_total : forall buf, Forall is_byte buf ->
  exists r, parse_sequence_header buf (zlen buf) = Ok r /\
    match r with inl _ => True | inr e => e = ENOENT_ \/ e = EINVAL_ end.
Proof.
  intros buf Hb. assert (0 <= zlen buf) by (unfold zlen; lia).
  destruct (Z.eq_dec (zlen buf) 0) as [Z0|Z0]; [|destruct (Z.le_gt_cases (2 ^ 63) (zlen buf))].
  - unfold parse_sequence_header. rewrite Z0. cbn. eexists. split; [reflexivity|]. cbn. auto.
  - unfold parse_sequence_header. replace (zlen buf <=? 2 ^ 63 - 1) with false by lia.
    rewrite andb_false_r. cbn. eexists. split; [reflexivity|]. cbn. auto.
  - destruct (parse_sequence_header_ok buf Hb ltac:(lia)) as (r & E & P). exists r. split; auto.
    destruct r; auto. destruct P as [(-> & _)|(-> & _)]; auto.
Qed.

(** C04: parse_seq_hdr, both modes, at any position of any buffer. *)
Theorem seq_hdr_ok : forall strict buf pos c, at_pos buf pos c -> pos + 5001 <= 8 * zlen buf + 2 ^ 31 ->
  exists r c', exec (parse_seq_hdr strict) c = Ok (r, c') /\
  let accepted s := exists p, srun (S.sequence_header_obu strict) (stream_bit buf (zlen buf)) pos = (Some s, p) /\
                     S.trailing_ok strict (stream_bit buf (zlen buf)) p (8 * zlen buf) in
  match r with
  | inl h => exists s, accepted s /\ seq_rel h s /\ seq_wf h
  | inr e => e = EINVAL_ /\ forall s, ~ accepted s
  end.
Proof.
  intros strict buf pos c Hat Hb. pose proof Hat as (W & E1 & E2 & E3).
  pose proof (at_pos_stream _ _ _ Hat) as ES.
  destruct (seq_aexec strict (stream_of c) (apos_of c) (stream_of_ok c) (gb_wf_pos c W)) as (r & a' & E & P & Er & D).
  { rewrite ES, E3. cbn. lia. }
  destruct (exec_refines _ _ c _ _ W E) as (c' & X1 & _).
  exists r, c'. split; [auto|]. cbv zeta. rewrite ES, E3 in D. cbn [a_pos a_err st_bit st_len] in D.
  destruct D as [(h & sh & p & -> & D1 & D2 & D3 & D4 & D5 & D6)|(-> & D)].
  - exists sh. split; [exists p; auto|auto].
  - split; auto. intros s (p & S1 & S2).
    destruct D as [D|D]; [|eapply D; eauto].
    destruct S2 as [S2 _].
    pose proof (sim_exec _ _ 5000 _ _ _ buf pos c (sim_seq strict 5000 ltac:(lia)) Hat ltac:(lia)) as SS.
    rewrite S1 in SS. lia.
Qed.

(** Consequences of the step theorem, event by event. *)
From Coq Require Import ZArith List Bool Lia.
From Verif Require Import Base.CInt Base.Lemmas GetBits.Model GetBits.Spec GetBits.AtPos
  Obu.SeqModel Obu.SeqRel Obu.ObuSpec Obu.FrameModel Obu.FrameRel Obu.FrameHist
  Dec.State Dec.Submit Dec.ObuModel Dec.LibModel Dec.Front Dec.Wf Dec.Inv Dec.Meta Dec.Step Dec.SubmitProofs Dec.Parse Dec.Api.
Import ListNotations.
Open Scope Z_scope.

(** The cases of a step that emits an event. *)
(** A sequence header that differs from the one in force empties the slots. *)
Definition new_sequence (strict : bool) (buf : list Z) (d : dec) : Prop :=
  exists h start stop q old, next_obu buf 0 = Some (h, start, stop) /\ obu_type h = OBU_SEQ_HDR /\
    seq_accepted strict (firstn (Z.to_nat stop) buf) (8 * start) q /\ d_seq d = Some old /\ same_sequence q old = false.
Inductive step_case (o : oracle) (s : settings) (buf : list Z) (m : props) (d d' : dec) (r : Z) (e : list ev) : Prop :=
| case_quiet : e = [] -> (d_refs d' = d_refs d \/ (d_refs d' = repeat slot0 8 /\ new_sequence (s_strict s) buf d)) -> step_case o s buf m d d' r e
| case_show : forall n q h d1, 1 <= n -> dec_inv s d1 -> quiet d d1 -> d_refs d1 = d_refs d -> d_seq d1 = Some q -> d_fhdr d1 = Some h ->
    show_existing_frame h = 1 -> show_eff s n q h m d1 r d' e -> step_case o s buf m d d' r e
| case_skip : forall n q h d1, 1 <= n -> dec_inv s d1 -> quiet d d1 -> d_refs d1 = d_refs d -> d_seq d1 = Some q -> d_fhdr d1 = Some h ->
    show_existing_frame h = 0 -> d_n_tiles d1 = t_cols (f_tiling h) * t_rows (f_tiling h) ->
    r = n -> d' = skip_frame q h d1 -> e = [EvSkip h] -> step_case o s buf m d d' r e
| case_submit : forall n q h d1 r0 d2, 1 <= n -> dec_inv s d1 -> quiet d d1 -> d_refs d1 = d_refs d -> d_seq d1 = Some q -> d_fhdr d1 = Some h ->
    show_existing_frame h = 0 -> d_n_tiles d1 = t_cols (f_tiling h) * t_rows (f_tiling h) ->
    submit_eff o s q h d1 r0 d2 e -> (r0 < 0 /\ r = r0 /\ d' = d2 \/ r0 = 0 /\ r = n /\ d' = w_n_tiles 0 (w_fhdr None d2)) ->
    step_case o s buf m d d' r e.

Section Facts.
Variables (o : oracle) (s : settings) (buf : list Z) (m : props) (d d' : dec) (r : Z) (e : list ev).
Hypothesis (HN : 1 <= s_n_fc s) (HL : live o s d) (HO : d_out d = None) (HB : Forall is_byte buf) (HZ : 0 < zlen buf)
  (HP : parse_obus o s buf m d = Ok (r, d', e)).

Lemma the_step : step_eff o s buf m d r d' e /\ (r < 0 \/ 1 <= r <= zlen buf) /\ opt_list (d_out d') = outs_of e /\ dec_inv s d' /\ dec_inv s d.
Proof.
  destruct (live_ok o s d HN HL) as ((I & _) & _). destruct (parse_obus_ok o s buf m d I HO HB HZ) as (r1 & d1 & e1 & X & I1 & S & R & O).
  rewrite HP in X. injection X as <- <- <-. auto.
Qed.
Lemma the_case : step_case o s buf m d d' r e.
Proof.
  destruct the_step as (S & R & O & I1 & I). destruct S as [(_ & -> & -> & _)|(h & start & stop & N & SF & B1 & B2 & [(_ & _ & -> & ->)|(_ & x & X & Y)])].
  - apply case_quiet; auto.
  - apply case_quiet; auto.
  - assert (ZS : zlen (firstn (Z.to_nat stop) buf) = stop) by (apply zlen_firstn; lia).
    assert (TS : 0 <= temporal_id h /\ 0 <= spatial_id h).
    { destruct (obu_open_ok (s_strict s) buf HB HZ) as (x0 & E0 & X0). destruct x0 as [[[[[ty ex] ti] si] c]|].
      - destruct X0 as (h0 & a & b & N0 & _ & _ & _ & -> & -> & _ & _ & T1 & T2 & _). rewrite N in N0. injection N0 as <- <- <-. lia.
      - destruct X0 as [X0|X0]; [congruence|]. congruence. }
    destruct TS as (T1 & T2).
    destruct (switch_inv s (obu_type h) (temporal_id h) (spatial_id h) m (firstn (Z.to_nat stop) buf) start d x I ltac:(lia) T1 T2 X) as (J1 & J2 & J3 & J4).
    destruct x as [d1|d1|r1 d1]; cbn [sw_dec] in *.
    + destruct Y as [(-> & -> & -> & _)|[(q & h1 & Y1 & Y2 & Y3 & Y4)|(q & h1 & Y1 & Y2 & Y3 & Y4 & Y5)]].
      * apply case_quiet; auto. destruct J3 as [J3|(q & old & NS1 & NS2 & NS3 & NS4 & J3 & _)]; [auto|right; split; [auto|]]. exists h, start, stop, q, old. auto.
      * destruct J3 as [J3|(q1 & old & _ & _ & _ & _ & _ & J3)]; [|congruence].
        apply (case_show _ _ _ _ _ _ _ _ stop q h1 d1); auto. lia.
      * destruct J3 as [J3|(q1 & old & _ & _ & _ & _ & _ & J3)]; [|congruence].
        destruct Y5 as [(_ & -> & -> & ->)|(_ & r0 & d2 & _ & Z1 & Z2)].
        -- apply (case_skip _ _ _ _ _ _ _ _ stop q h1 d1); auto. lia.
        -- apply (case_submit _ _ _ _ _ _ _ _ stop q h1 d1 r0 d2); auto. lia.
    + destruct Y as (-> & -> & ->). apply case_quiet; auto. dsimp. destruct J3 as [J3|(q & old & NS1 & NS2 & NS3 & NS4 & J3 & _)]; [auto|right; split; [auto|]]. exists h, start, stop, q, old. auto.
    + destruct Y as (-> & -> & ->). apply case_quiet; auto. destruct J3 as [J3|(q & old & NS1 & NS2 & NS3 & NS4 & J3 & _)]; [auto|right; split; [auto|]]. exists h, start, stop, q, old. auto.
Qed.

(** ** Reference slots *)
Lemma slot_nth : forall d0 k, 0 <= k <= 7 -> dec_inv s d0 -> forall f x d1, d_refs d1 = refresh_slots 0 f x (d_refs d0) ->
  slot_at d1 k = if Z.testbit f k then x (slot_at d0 k) else slot_at d0 k.
Proof.
  intros d0 k Hk I f x d1 E. unfold slot_at. rewrite E. rewrite refresh_slots_nth by (rewrite (inv_refs _ _ I); lia).
  cbn [Nat.add]. rewrite Z2Nat.id by lia. reflexivity.
Qed.
Lemma slot_same : forall d0 d1 k, d_refs d1 = d_refs d0 -> slot_at d1 k = slot_at d0 k.
Proof. intros d0 d1 k E. unfold slot_at. rewrite E. reflexivity. Qed.
Lemma outs_not : forall l x, outs l -> In x l -> exists p, x = EvOut p.
Proof. intros l x H Hx. unfold outs in H. rewrite Forall_forall in H. specialize (H x Hx). destruct x; try contradiction. eauto. Qed.
Lemma in_mid : forall (e0 e1 : list ev) x y, outs e0 -> outs e1 -> In y (e0 ++ x :: e1) -> (forall p, y <> EvOut p) -> y = x.
Proof.
  intros e0 e1 x y H0 H1 Hy NO. apply in_app_or in Hy. destruct Hy as [Hy|[Hy|Hy]]; auto.
  - destruct (outs_not _ _ H0 Hy) as (p & ->). exfalso. apply (NO p); auto.
  - destruct (outs_not _ _ H1 Hy) as (p & ->). exfalso. apply (NO p); auto.
Qed.
Ltac no_out := intros ?p ?H; discriminate.

(** A submitted frame: the state it was submitted in. *)
Theorem submitted : forall j r0, In (EvSubmit j r0) e -> exists n q h d1 d2 p,
    dec_inv s d1 /\ quiet d d1 /\ d_refs d1 = d_refs d /\ d_seq d1 = Some q /\ d_fhdr d1 = Some h /\ show_existing_frame h = 0 /\
    d_n_tiles d1 = t_cols (f_tiling h) * t_rows (f_tiling h) /\ job_ok d1 q h j /\ pic_of d1 q h j p /\
    d_refs d' = d_refs d2 /\ d_jobs d2 = d_jobs d1 + 1 /\ d_jobs d' = d_jobs d2 /\
    (r0 < 0 /\ r = r0 /\ s_n_fc s = 1 /\ r0 = dr_ret (o_decode o j) /\
       d_refs d2 = refresh_slots 0 (refresh_frame_flags (f_refs h)) (fun _ => slot0) (d_refs d) \/
     r0 = 0 /\ r = n /\ 1 <= n /\ (s_n_fc s = 1 -> 0 <= dr_ret (o_decode o j)) /\
       d_refs d2 = refresh_slots 0 (refresh_frame_flags (f_refs h)) (fun _ => new_slot h j p) (d_refs d)).
Proof.
  intros j r0 HI. destruct the_case as [E0 _|n q h d1 _ I1 Q1 R1 S1 H1 SE SH|n q h d1 _ _ _ _ _ _ _ _ _ _ E0|n q h d1 r1 d2 N1 I1 Q1 R1 S1 H1 SE NT SB RR].
  - rewrite E0 in HI. destruct HI.
  - exfalso. destruct SH as (_ & [(_ & _ & E0 & _)|(p & _ & _ & _ & _ & [(_ & E0 & _)|(_ & _ & _ & _ & _ & _ & _ & x & _ & _ & _ & _ & _ & _ & _ & [(_ & E0 & _)|(_ & _ & _ & e0 & E0 & O0)])])]).
    + rewrite E0 in HI. destruct HI.
    + rewrite E0 in HI. destruct HI as [HI|[]]. discriminate.
    + rewrite E0 in HI. destruct HI as [HI|[HI|[]]]; discriminate.
    + rewrite E0 in HI. apply in_app_or in HI. destruct HI as [HI|[HI|[]]]; [|discriminate].
      destruct (outs_not _ _ O0 HI) as (? & X). discriminate.
  - exfalso. rewrite E0 in HI. destruct HI as [HI|[]]. discriminate.
  - destruct SB as (e0 & x & e1 & E0 & O0 & O1 & SB). rewrite E0 in HI. apply in_mid in HI; auto; [|no_out]. subst x.
    destruct SB as [(X & _)|(j' & p & X & JK & PK & DJ & SB)]; [discriminate|]. injection X as <- <-. rewrite R1 in SB.
    exists n, q, h, d1, d2, p. repeat (split; [solve [auto]|]).
    split; [destruct RR as [(_ & _ & ->)|(_ & _ & ->)]; reflexivity|]. split; [auto|].
    split; [destruct RR as [(_ & _ & ->)|(_ & _ & ->)]; reflexivity|].
    destruct SB as [(B1 & B2 & B3 & B4)|[(B1 & B2 & B3 & B4 & B5)|(B1 & B2 & B3 & B4 & B5)]].
    + left. destruct RR as [(_ & -> & _)|(? & _)]; [auto|lia].
    + right. destruct RR as [(? & _)|(_ & -> & _)]; [lia|auto].
    + right. destruct RR as [(? & _)|(_ & -> & _)]; [lia|]. repeat (split; [solve [auto; intros; lia]|]). auto.
Qed.
Theorem refused : forall h r0, In (EvRefuse h r0) e -> r = r0 /\ r0 < 0 /\ d_refs d' = d_refs d.
Proof.
  intros h0 r0 HI.
  destruct the_case as [E0 _|n q h d1 _ I1 Q1 R1 S1 H1 SE SH|n q h d1 _ _ _ _ _ _ _ _ _ _ E0|n q h d1 r1 d2 N1 I1 Q1 R1 S1 H1 SE NT SB RR].
  - rewrite E0 in HI. destruct HI.
  - exfalso. destruct SH as (_ & [(_ & _ & E0 & _)|(p & _ & _ & _ & _ & [(_ & E0 & _)|(_ & _ & _ & _ & _ & _ & _ & x & _ & _ & _ & _ & _ & _ & _ & [(_ & E0 & _)|(_ & _ & _ & e0 & E0 & O0)])])]).
    + rewrite E0 in HI. destruct HI.
    + rewrite E0 in HI. destruct HI as [HI|[]]. discriminate.
    + rewrite E0 in HI. destruct HI as [HI|[HI|[]]]; discriminate.
    + rewrite E0 in HI. apply in_app_or in HI. destruct HI as [HI|[HI|[]]]; [|discriminate].
      destruct (outs_not _ _ O0 HI) as (? & X). discriminate.
  - exfalso. rewrite E0 in HI. destruct HI as [HI|[]]. discriminate.
  - destruct SB as (e0 & x & e1 & E0 & O0 & O1 & SB). rewrite E0 in HI. apply in_mid in HI; auto; [|no_out]. subst x.
    destruct SB as [(X & _ & B1 & B2)|(j' & p & X & _)]; [|discriminate]. injection X as <- <-.
    destruct RR as [(_ & -> & E1)|(? & _)]; [|lia]. rewrite E1. split; [auto|]. split; [auto|congruence].
Qed.
Theorem skipped : forall h, In (EvSkip h) e -> 0 < r /\ e = [EvSkip h] /\ d_jobs d' = d_jobs d /\
  exists q x, (forall a, r_pic (x a) = Some (hdr_only q h)) /\
  d_refs d' = refresh_slots 0 (refresh_frame_flags (f_refs h)) x (d_refs d).
Proof.
  intros h0 HI.
  destruct the_case as [E0 _|n q h d1 N1 I1 Q1 R1 S1 H1 SE SH|n q h d1 N1 I1 Q1 R1 S1 H1 SE NT E1 E2 E0|n q h d1 r1 d2 N1 I1 Q1 R1 S1 H1 SE NT SB RR].
  - rewrite E0 in HI. destruct HI.
  - destruct (show_hdr s d1 q h I1 S1 H1) as [S0|(_ & _ & RF)]; [lia|].
    destruct SH as (_ & [(_ & _ & E0 & _)|(p & _ & ER & _ & DJ & [(_ & E0 & E2 & _)|(_ & _ & _ & _ & _ & _ & _ & x & _ & _ & _ & _ & _ & _ & _ & [(_ & E0 & _)|(_ & _ & _ & e0 & E0 & O0)])])]).
    + rewrite E0 in HI. destruct HI.
    + rewrite E0 in HI. destruct HI as [HI|[]]. injection HI as <-. split; [lia|]. split; [auto|].
      split; [rewrite DJ; apply Q1|]. exists q, (fun x => mkSlot (Some (hdr_only q h)) (r_cdf x) (r_segmap x) (r_refmvs x)).
      split; [reflexivity|]. rewrite RF, refresh_slots_none. congruence.
    + rewrite E0 in HI. destruct HI as [HI|[HI|[]]]; discriminate.
    + rewrite E0 in HI. apply in_app_or in HI. destruct HI as [HI|[HI|[]]]; [|discriminate].
      destruct (outs_not _ _ O0 HI) as (? & X). discriminate.
  - rewrite E0 in HI. destruct HI as [HI|[]]. injection HI as <-. split; [lia|]. split; [auto|].
    rewrite E2. unfold skip_frame. dsimp. split; [apply Q1|]. rewrite R1. eexists; eexists. split; [|reflexivity]. reflexivity.
  - destruct SB as (e0 & x & e1 & E0 & O0 & O1 & SB). rewrite E0 in HI. apply in_mid in HI; auto; [|no_out]. subst x.
    destruct SB as [(X & _)|(j' & p & X & _)]; discriminate.
Qed.
Theorem showed : forall i p, In (EvShow i p) e -> 0 < r /\ 0 <= i <= 7 /\ r_pic (slot_at d i) = Some p /\ has_data p = true /\
  (s_strict s = true -> z2b (tp_showable p) = true) /\ d_jobs d' = d_jobs d /\
  d_refs d' = (if frame_type (f_pre (tp_hdr p)) =? FT_KEY then d_refs (key_refresh i p d) else d_refs d) /\
  dft_drops_shown s (frame_type (f_pre (tp_hdr p))) = false.
Proof.
  intros i p0 HI.
  destruct the_case as [E0 _|n q h d1 N1 I1 Q1 R1 S1 H1 SE SH|n q h d1 N1 I1 Q1 R1 S1 H1 SE NT E1 E2 E0|n q h d1 r1 d2 N1 I1 Q1 R1 S1 H1 SE NT SB RR].
  - rewrite E0 in HI. destruct HI.
  - assert (SA : forall k, slot_at d1 k = slot_at d k) by (intros; apply slot_same; auto).
    destruct SH as (Hi & [(_ & _ & E0 & _)|(p & EP & ER & _ & DJ & [(_ & E0 & E2 & _)|(DF & HD & HS & _ & _ & _ & RF & x & _ & _ & _ & _ & _ & _ & _ & E0)])]).
    + rewrite E0 in HI. destruct HI.
    + rewrite E0 in HI. destruct HI as [HI|[]]. discriminate.
    + assert (HJ : i = existing_frame_idx h /\ p0 = p).
      { destruct E0 as [(_ & E0 & _)|(_ & _ & _ & e0 & E0 & O0)]; rewrite E0 in HI.
        - destruct HI as [HI|[HI|[]]]; [injection HI as <- <-; auto|discriminate].
        - apply in_app_or in HI. destruct HI as [HI|[HI|[]]]; [|injection HI as <- <-; auto].
          destruct (outs_not _ _ O0 HI) as (? & X). discriminate. }
      destruct HJ as (-> & ->). rewrite SA in EP. split; [lia|]. split; [auto|]. split; [auto|]. split; [auto|]. split; [auto|].
      split; [rewrite DJ; apply Q1|]. split; [|auto]. rewrite RF. destruct (_ =? FT_KEY); [|auto].
      unfold key_refresh. dsimp. rewrite SA, R1. reflexivity.
  - rewrite E0 in HI. destruct HI as [HI|[]]. discriminate.
  - destruct SB as (e0 & x & e1 & E0 & O0 & O1 & SB). rewrite E0 in HI. apply in_mid in HI; auto; [|no_out]. subst x.
    destruct SB as [(X & _)|(j' & p & X & _)]; discriminate.
Qed.
(** Every other step. *)
Theorem nothing_else : (forall x, In x e -> exists p, x = EvOut p) ->
  e = [] /\ (d_refs d' = d_refs d \/ (d_refs d' = repeat slot0 8 /\ new_sequence (s_strict s) buf d)).
Proof.
  intros HA.
  destruct the_case as [E0 E1|n q h d1 N1 I1 Q1 R1 S1 H1 SE SH|n q h d1 N1 I1 Q1 R1 S1 H1 SE NT E1 E2 E0|n q h d1 r1 d2 N1 I1 Q1 R1 S1 H1 SE NT SB RR].
  - auto.
  - destruct SH as (Hi & [(_ & E1 & E0 & _)|(p & EP & ER & _ & DJ & [(_ & E0 & E2 & _)|(DF & HD & HS & _ & _ & _ & RF & x & _ & _ & _ & _ & _ & _ & _ & E0)])]).
    + split; [auto|]. left. rewrite E1. dsimp. auto.
    + exfalso. rewrite E0 in HA. destruct (HA _ (or_introl eq_refl)) as (? & X). discriminate.
    + exfalso. destruct E0 as [(_ & E0 & _)|(_ & _ & _ & e0 & E0 & O0)]; rewrite E0 in HA.
      * destruct (HA _ (or_introl eq_refl)) as (? & X). discriminate.
      * destruct (HA (EvShow (existing_frame_idx h) p)) as (? & X); [apply in_or_app; right; left; auto|discriminate].
  - exfalso. rewrite E0 in HA. destruct (HA _ (or_introl eq_refl)) as (? & X). discriminate.
  - exfalso. destruct SB as (e0 & x & e1 & E0 & O0 & O1 & SB). rewrite E0 in HA.
    destruct (HA x) as (? & X); [apply in_or_app; right; left; auto|].
    destruct SB as [(Y & _)|(j' & p & Y & _)]; congruence.
Qed.
End Facts.

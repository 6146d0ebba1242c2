(** Two sessions that are given the same packets, from a sequence header and key
    frame on. *)
From Coq Require Import ZArith List Bool Lia.
From Verif Require Import Base.CInt Base.Lemmas GetBits.Model GetBits.Sim Obu.SeqModel Obu.ObuSpec Obu.FrameModel Obu.FrameHist Obu.FrameKey Dec.State Dec.Submit Dec.ObuModel Dec.LibModel
  Dec.Front Dec.Wf Dec.Inv Dec.Step Dec.OutSpec Dec.RecoverSpec Dec.Agree Dec.Parse Dec.Micro Dec.Recover Dec.Api Dec.Trace Dec.Session.
Import ListNotations.
Open Scope Z_scope.
Local Open Scope outcome_scope.

(** * Runs as calls of the parser *)
Inductive prun (o : oracle) (s : settings) : dec -> list entry -> dec -> Prop :=
| pr_nil : forall d d', agree d d' -> prun o s d [] d'
| pr_cons : forall d d1 buf m r d2 e t d', agree d d1 -> dec_inv s d1 -> Forall is_byte buf -> 0 < zlen buf ->
    parse_obus o s buf m d1 = Ok (r, d2, e) -> prun o s d2 t d' -> prun o s d (mkEntry buf m r (work e) :: t) d'.
Lemma prun_agree : forall o s a b t d', agree a b -> prun o s b t d' -> prun o s a t d'.
Proof.
  intros o s a b t d' A H. destruct H as [d d' H|d d1 buf m r d2 e t d' H1 H2 H3 H4 H5 H6].
  - constructor. eapply agree_trans; eauto.
  - eapply pr_cons; [exact (agree_trans _ _ _ A H1)|exact H2|exact H3|exact H4|exact H5|exact H6].
Qed.
Lemma trail_app : forall a b, Forall plain a -> fold_right trail_ev ([], []) (a ++ b) =
  (work a ++ fst (fold_right trail_ev ([], []) b), snd (fold_right trail_ev ([], []) b)).
Proof.
  intros a b H. induction H as [|x a H1 H2 IH]; [cbn [app work flat_map fold_right]; destruct (fold_right trail_ev ([],[]) b); reflexivity|].
  cbn [app fold_right]. rewrite IH. destruct x; try contradiction; reflexivity.
Qed.
Lemma trail_parse : forall b m r sid a t, Forall plain a -> fst (fold_right trail_ev ([], []) t) = [] ->
  fold_right trail_ev ([], []) (EvParse b m r sid :: a ++ t) = ([], mkEntry b m r (work a) :: trail t).
Proof.
  intros b m r sid a t H F. cbn [fold_right trail_ev]. rewrite (trail_app a t H). cbn [fst snd]. rewrite F, app_nil_r. reflexivity.
Qed.
Lemma trail_idle : forall a t, Forall (fun x => task_ev x = [] /\ match x with EvParse _ _ _ _ => False | _ => True end) a ->
  fold_right trail_ev ([], []) (a ++ t) = fold_right trail_ev ([], []) t.
Proof.
  intros a t H. induction H as [|x a (H1 & H2) H3 IH]; [reflexivity|]. cbn [app fold_right]. rewrite IH.
  destruct (fold_right trail_ev ([], []) t) as [w l]. destruct x; try contradiction; cbn [trail_ev fst snd task_ev app] in *; try discriminate; reflexivity.
Qed.

Section Rejoin.
Variables (o : oracle) (s : settings).
Hypothesis BL : blind o.
Definition idle (x : ev) : Prop := task_ev x = [] /\ match x with EvParse _ _ _ _ => False | _ => True end.
Lemma ring_idle : forall d d1 e, ring_take s d = Ok (d1, e) -> Forall idle e.
Proof.
  intros d d1 e E. unfold ring_take in E. destruct (_ <? _)%nat; [|discriminate].
  destruct (negb _); [injection E as _ <-; constructor|].
  destruct (fc_out _) as [p|]; [|injection E as _ <-; constructor].
  destruct (_ && _); [|injection E as _ <-; constructor].
  destruct (put_out _ _); [|discriminate]. cbn [obind] in E. injection E as _ <-. repeat constructor.
Qed.
Lemma ready_core : forall b d r d1, output_picture_ready s b d = (r, d1) -> agree d d1.
Proof.
  intros b d r d1 E. unfold output_picture_ready in E. destruct (negb _); [injection E as _ <-; apply agree_refl|].
  destruct (one_layer s d); [|injection E as _ <-; apply agree_refl].
  destruct (d_out d), (d_cache d); try (injection E as _ <-; first [apply agree_refl|unfold agree; dsimp; auto 10]).
  destruct (_ || _); injection E as _ <-; first [apply agree_refl|unfold agree; dsimp; auto 10].
Qed.
Lemma image_core : forall d r p d1, output_image o s d = Ok (r, p, d1) -> agree d d1.
Proof.
  intros d r p d1 E. unfold output_image in E. destruct (source s d) as [x|]; [|discriminate].
  destruct (if _ || _ then _ else _) as [r2 out]. injection E as _ _ <-. destruct (one_layer s d); unfold agree; dsimp; auto 10.
Qed.
Lemma take_idle : forall d, Forall idle (take_ev s d).
Proof. intros d. unfold take_ev. destruct (source s d); repeat constructor. Qed.
Lemma cut_idle : forall b d, Forall idle (cut_ev b d).
Proof. intros b d. unfold cut_ev. destruct (_ && _); repeat constructor. Qed.
Lemma steps_prun : forall d e d', steps o s d e d' -> ~ In EvFlush e ->
  prun o s d (trail e) d' /\ fst (fold_right trail_ev ([], []) e) = [].
Proof.
  intros d e d' H. induction H as [d|d e d1 e2 d2 M S IH]; intros NF.
  { split; [constructor; apply agree_refl|reflexivity]. }
  assert (NF2 : ~ In EvFlush e2) by (intros X; apply NF, in_or_app; auto). destruct (IH NF2) as (P & F).
  assert (Q : Forall idle e -> agree d d1 -> prun o s d (trail (e ++ e2)) d2 /\ fst (fold_right trail_ev ([], []) (e ++ e2)) = []).
  { intros HI A. unfold trail. rewrite (trail_idle e e2 HI). split; [|exact F]. eapply prun_agree; eauto. }
  destruct M as [d a b c|d buf m DI HB HL|b d d1 CE OR|b d r p d1 CE CR OR OI|d buf m r d1 e I HB HL DI DO DC E|d CE|d d1 e I DO DC NN RT|d].
  - apply Q; [constructor|unfold agree; dsimp; auto 10].
  - apply Q; [repeat constructor|unfold agree; dsimp; auto 10].
  - apply Q; [apply cut_idle|exact (ready_core _ _ _ _ OR)].
  - apply Q; [apply Forall_app; split; [apply cut_idle|apply take_idle]|exact (image_core _ _ _ _ OI)].
  - pose proof (parse_plain _ _ _ _ _ _ _ _ E) as PL. cbn [app]. unfold trail. rewrite (trail_parse _ _ _ _ _ _ PL F). cbn [fst snd].
    split; [|reflexivity]. eapply pr_cons; [apply agree_refl|exact I|exact HB|exact HL|exact E|].
    eapply prun_agree; [|exact P]. unfold agree; dsimp; auto 10.
  - apply Q; [repeat constructor|unfold agree; dsimp; auto 10].
  - apply Q; [exact (ring_idle _ _ _ RT)|]. destruct (ring_core s _ _ _ RT) as (A & _). exact A.
  - exfalso. apply NF. left. reflexivity.
Qed.

(** * The packets determine what is read *)
Fixpoint chain (u : unread) (pk : list (list Z * props)) (t : list entry) : Prop :=
  match t with
  | [] => u = None /\ pk = []
  | x :: t =>
    (u = Some (en_buf x, en_props x) /\ chain (rest (en_ret x) (en_buf x) (en_props x)) pk t) \/
    (u = None /\ exists pk', pk = (en_buf x, en_props x) :: pk' /\ chain (rest (en_ret x) (en_buf x) (en_props x)) pk' t)
  end.
Lemma trail_cons : forall x e, trail (x :: e) =
  match x with EvParse b m r _ => mkEntry b m r (fst (fold_right trail_ev ([], []) e)) :: trail e | _ => trail e end.
Proof. intros x e. unfold trail. cbn [fold_right]. destruct x; reflexivity. Qed.
Lemma feed_chain : forall e u, feed_all e u = Some None -> ~ In EvFlush e -> chain u (packets e) (trail e).
Proof.
  induction e as [|x e IH]; intros u F NF; cbn [feed_all] in F.
  { injection F as ->. split; reflexivity. }
  assert (NF2 : ~ In EvFlush e) by (intros X; apply NF; right; exact X). rewrite trail_cons.
  destruct x; cbn [feed_ev] in F; try (apply IH; assumption).
  - destruct u; [discriminate|]. specialize (IH _ F NF2). change (packets (EvIn buf m :: e)) with ((buf, m) :: packets e).
    destruct (trail e) as [|y t]; cbn [chain] in *; [destruct IH; discriminate|]. destruct IH as [(I1 & I2)|(I1 & _)]; [|discriminate].
    injection I1 as -> ->. right. split; [reflexivity|]. exists (packets e). split; [reflexivity|exact I2].
  - destruct u as [[b m']|]; [|discriminate]. destruct (list_eq_dec Z.eq_dec b buf) as [->|]; [|discriminate].
    destruct (Z.eq_dec m m') as [->|]; [|discriminate]. cbn [chain en_buf en_props en_ret]. left. split; [reflexivity|].
    change (packets (EvParse buf m' r sid :: e)) with (packets e). unfold rest. destruct (r <? 0) eqn:R; cbn [orb]; [exact (IH _ F NF2)|].
    destruct (_ || _); [discriminate|]. exact (IH _ F NF2).
  - destruct u; [discriminate|]. apply IH; assumption.
  - exfalso. apply NF. left. reflexivity.
Qed.
Lemma chain_same : forall u pk x1 t1 t2, chain u pk (x1 :: t1) -> chain u pk t2 ->
  exists x2 t2', t2 = x2 :: t2' /\ en_buf x2 = en_buf x1 /\ en_props x2 = en_props x1 /\
    exists pk', chain (rest (en_ret x1) (en_buf x1) (en_props x1)) pk' t1 /\ chain (rest (en_ret x2) (en_buf x1) (en_props x1)) pk' t2'.
Proof.
  intros u pk x1 t1 [|x2 t2] H1 H2; cbn [chain] in *.
  - destruct H2 as (-> & ->). destruct H1 as [(H1 & _)|(_ & pk' & H1 & _)]; discriminate.
  - exists x2, t2. split; [reflexivity|]. destruct H1 as [(-> & C1)|(-> & pk1 & -> & C1)]; destruct H2 as [(E & C2)|(E & pk2 & E2 & C2)]; try discriminate.
    + injection E as E3 E4. rewrite <- E3, <- E4 in C2. eauto 8.
    + injection E2 as E3 E4 E5. rewrite <- E3, <- E4, <- E5 in C2. eauto 8.
Qed.

Theorem prun_same : forall t1 d1 d2 a1 a2 t2 u pk, agree d1 d2 -> prun o s d1 t1 a1 -> prun o s d2 t2 a2 ->
  chain u pk t1 -> chain u pk t2 -> t1 = t2 /\ agree a1 a2.
Proof.
  induction t1 as [|x1 t1 IH]; intros d1 d2 a1 a2 t2 u pk A P1 P2 C1 C2.
  - destruct C1 as (-> & ->). destruct t2 as [|x2 t2]; [|destruct C2 as [(C2 & _)|(_ & pk' & C2 & _)]; discriminate].
    split; [reflexivity|]. inversion P1 as [? ? A1|]; subst. inversion P2 as [? ? A2|]; subst.
    exact (agree_trans _ _ _ (agree_sym _ _ A1) (agree_trans _ _ _ A A2)).
  - destruct (chain_same _ _ _ _ _ C1 C2) as (x2 & t2' & -> & B & M & pk' & C3 & C4).
    inversion P1 as [|? b1 buf1 m1 r1 c1 e1 ? ? A1 I1 HB1 HL1 E1 Q1]; subst. inversion P2 as [|? b2 buf2 m2 r2 c2 e2 ? ? A2 I2 HB2 HL2 E2 Q2]; subst.
    cbn [en_buf en_props en_ret] in *. subst buf2 m2.
    assert (A3 : agree b1 b2) by exact (agree_trans _ _ _ (agree_sym _ _ A1) (agree_trans _ _ _ A A2)).
    destruct (parse_agree o s BL _ _ _ _ _ _ _ _ _ _ A3 E1 E2) as (<- & A4 & W).
    destruct (IH c1 c2 a1 a2 t2' _ _ A4 Q1 Q2 C3 C4) as (<- & A5). rewrite W. auto.
Qed.

(** * From a key frame on *)
Lemma unstuck_agree : forall a b, agree a b -> unstuck a -> unstuck b.
Proof. intros a b (_ & _ & _ & H & _ & N & _) U. unfold unstuck in *. rewrite <- H, <- N. exact U. Qed.
Lemma keyed_agree : forall a b a2 b2, keyed a b -> agree a a2 -> agree b b2 -> keyed a2 b2.
Proof.
  intros a b a2 b2 K A B. unfold keyed, same_seq, agree in *. destruct K as (K1 & K2 & K3 & K4 & K5).
  split; [intuition congruence|]. split; [intuition congruence|]. split; [intuition congruence|]. split; [intuition congruence|].
  intros h E. apply K5. intuition congruence.
Qed.
Lemma seq_agree2 : forall a b a2 b2, same_seq a b -> agree a a2 -> agree b b2 -> same_seq a2 b2.
Proof. intros a b a2 b2 K A B. unfold same_seq, agree in *. intuition congruence. Qed.

Lemma after_unstuck : forall n m d, unstuck d -> after_switch o s n m d = Ok (n, d, []).
Proof.
  intros n m d U. unfold after_switch, unstuck in *. destruct (d_seq d); [|reflexivity]. destruct (d_fhdr d) as [h|]; [|reflexivity].
  destruct U as (U1 & U2). rewrite U1. change (z2b 0) with false. cbv iota. apply Z.eqb_neq in U2. rewrite U2. reflexivity.
Qed.
Lemma td_pair : forall buf m d1 d2 r1 r2 d1' d2' e1 e2, unstuck d1 -> unstuck d2 -> Forall is_byte buf -> 0 < zlen buf -> first_type buf OBU_TD ->
  parse_obus o s buf m d1 = Ok (r1, d1', e1) -> parse_obus o s buf m d2 = Ok (r2, d2', e2) ->
  r1 = r2 /\ work e1 = work e2 /\ unstuck d1' /\ unstuck d2' /\ d_jobs d1' = d_jobs d1 /\ d_jobs d2' = d_jobs d2.
Proof.
  intros buf m d1 d2 r1 r2 d1' d2' e1 e2 U1 U2 HB HL (h & a & b & N & T) E1 E2. unfold parse_obus in *.
  destruct (obu_open_ok (s_strict s) buf HB HL) as (x & X & Y). rewrite X in *. cbn [obind] in *.
  destruct x as [[[[[ty ext] tid] sid] c]|].
  2:{ unfold obu_error in *. injection E1 as <- <- <-. injection E2 as <- <- <-. auto 8. }
  destruct Y as (h' & st & sp & N' & _ & -> & _). rewrite N in N'. injection N' as <- <- <-. rewrite T in *.
  assert (LD : forall i, layer_dropped i OBU_TD ext tid sid = false) by reflexivity. rewrite !LD in *.
  unfold obu_switch in *. cbn [Z.eqb OBU_SEQ_HDR OBU_TD OBU_REDUNDANT_FRAME_HDR OBU_FRAME OBU_FRAME_HDR OBU_TILE_GRP OBU_METADATA Pos.eqb andb orb obind] in *.
  rewrite after_unstuck in E1 by exact U1. rewrite after_unstuck in E2 by exact U2.
  injection E1 as <- <- <-. injection E2 as <- <- <-. auto 8.
Qed.
Definition starts_seq (q : seq_hdr) (buf : list Z) : Prop :=
  exists ext tid sid c c', obu_open (s_strict s) buf = Ok (Some (OBU_SEQ_HDR, ext, tid, sid, c)) /\
    exec (parse_seq_hdr (s_strict s)) c = Ok (inl q, c').
Lemma new_seq_unstuck : forall q d, unstuck d -> unstuck (new_seq_hdr s q d).
Proof.
  intros q d U. unfold new_seq_hdr. cbv zeta. dsimp. destruct (d_seq d); [|exact I]. destruct (negb _); [exact I|].
  destruct (negb _); exact U.
Qed.
Lemma new_seq_core : forall q d, d_jobs (new_seq_hdr s q d) = d_jobs d /\ d_seq (new_seq_hdr s q d) = Some q /\
  d_idc (new_seq_hdr s q d) = d_idc (new_seq_hdr s q (dec0 s)) /\ d_max_sid (new_seq_hdr s q d) = d_max_sid (new_seq_hdr s q (dec0 s)).
Proof.
  intros q d. unfold new_seq_hdr. cbv zeta. dsimp. destruct (d_seq d); [|auto]. destruct (negb _); [auto|].
  destruct (negb _); auto.
Qed.
Lemma seq_pair : forall q buf m d1 d2 r1 r2 d1' d2' e1 e2, unstuck d1 -> unstuck d2 -> d_jobs d1 = d_jobs d2 -> starts_seq q buf ->
  parse_obus o s buf m d1 = Ok (r1, d1', e1) -> parse_obus o s buf m d2 = Ok (r2, d2', e2) ->
  r1 = r2 /\ work e1 = work e2 /\ same_seq d1' d2' /\ d_seq d1' = Some q /\ d_idc d1' = selected s q.
Proof.
  intros q buf m d1 d2 r1 r2 d1' d2' e1 e2 U1 U2 J (ext & tid & sid & c & c' & X & EX) E1 E2. unfold parse_obus in *.
  rewrite X in *. cbn [obind] in *.
  assert (LD : forall i, layer_dropped i OBU_SEQ_HDR ext tid sid = false) by reflexivity. rewrite !LD in *.
  unfold obu_switch in *. cbn [Z.eqb OBU_SEQ_HDR Pos.eqb] in *. rewrite EX in *. cbn [obind] in *.
  rewrite after_unstuck in E1 by (apply new_seq_unstuck; exact U1). rewrite after_unstuck in E2 by (apply new_seq_unstuck; exact U2).
  injection E1 as <- <- <-. injection E2 as <- <- <-. split; [reflexivity|]. split; [reflexivity|].
  destruct (new_seq_core q d1) as (A1 & A2 & A3 & A4). destruct (new_seq_core q d2) as (B1 & B2 & B3 & B4).
  split; [unfold same_seq; repeat apply conj; congruence|]. split; [exact A2|]. rewrite A3. reflexivity.
Qed.

Definition plain_entry (x : entry) : Prop := exists type, first_type (en_buf x) type /\ no_header type.
Definition decodes (w : list task) : Prop := exists j r, In (Decoded j r) w.
Lemma prun_keyed : forall bs t1 d1 d2 a1 a2 t2 u pk, keyed d1 d2 -> prun o s d1 (bs ++ t1) a1 -> prun o s d2 t2 a2 ->
  chain u pk (bs ++ t1) -> chain u pk t2 -> Forall plain_entry bs -> agree d1 d2 \/ decodes (flat_map en_work bs) ->
  bs ++ t1 = t2 /\ agree a1 a2.
Proof.
  induction bs as [|x1 bs IH]; intros t1 d1 d2 a1 a2 t2 u pk K P1 P2 C1 C2 HP [A|D]; try exact (prun_same _ _ _ _ _ _ _ _ A P1 P2 C1 C2).
  { destruct D as (? & ? & D). contradiction. }
  cbn [app] in P1, C1 |- *.
  destruct (chain_same _ _ _ _ _ C1 C2) as (x2 & t2' & -> & B & M & pk' & C3 & C4).
  inversion P1 as [|? b1 buf1 m1 r1 c1 e1 ? ? A1 I1 HB1 HL1 E1 Q1]; subst. inversion P2 as [|? b2 buf2 m2 r2 c2 e2 ? ? A2 I2 HB2 HL2 E2 Q2]; subst.
  cbn [en_buf en_props en_ret] in *. subst buf2 m2. pose proof (keyed_agree _ _ _ _ K A1 A2) as K2.
  destruct (Forall_inv HP) as (ty & F & NH). cbn [en_buf] in F.
  destruct (other_step o s _ _ _ _ _ _ _ _ _ _ _ K2 I1 I2 HB1 HL1 F NH E1 E2) as (<- & K3 & W & D2).
  assert (D3 : agree c1 c2 \/ decodes (flat_map en_work bs)).
  { destruct D as (j & r & D). cbn [flat_map en_work] in D. apply in_app_or in D. destruct D as [D|D]; [|right; exists j, r; exact D].
    destruct D2 as [D2|D2]; [auto|]. exfalso. exact (D2 _ _ D). }
  destruct (IH t1 c1 c2 a1 a2 t2' _ _ K3 Q1 Q2 C3 C4 (Forall_inv_tail HP) D3) as (<- & A5). rewrite W. auto.
Qed.
Definition kept (q : seq_hdr) (buf : list Z) : Prop :=
  forall type ext tid sid c, obu_open (s_strict s) buf = Ok (Some (type, ext, tid, sid, c)) -> layer_dropped (selected s q) type ext tid sid = false.
Lemma key_pair : forall q buf m d1 d2 r1 r2 d1' d2' e1 e2, same_seq d1 d2 -> d_seq d1 = Some q -> d_idc d1 = selected s q ->
  dec_inv s d1 -> dec_inv s d2 -> starts_key s q buf -> kept q buf ->
  parse_obus o s buf m d1 = Ok (r1, d1', e1) -> parse_obus o s buf m d2 = Ok (r2, d2', e2) ->
  r1 = r2 /\ work e1 = work e2 /\ keyed d1' d2' /\ (agree d1' d2' \/ forall j r, ~ In (Decoded j r) (work e1)).
Proof.
  intros q buf m d1 d2 r1 r2 d1' d2' e1 e2 K ES EI I1 I2 (type & ext & tid & sid & c & h & c' & X & T & EX & H1 & H2 & H3) KP E1 E2.
  unfold parse_obus in *. pose proof (KP _ _ _ _ _ X) as LD. rewrite X in *. cbn [obind] in *.
  pose proof K as (AI & _). rewrite <- AI, EI, LD in E2. rewrite EI, LD in E1.
  destruct (obu_switch s type tid sid m c d1) as [x|] eqn:X1; [|discriminate].
  destruct (obu_switch s type tid sid m c d2) as [y|] eqn:X2; [|discriminate]. cbn [obind] in *.
  pose proof (sw_refs8 s _ _ _ _ _ _ _ I1 X1) as L1. pose proof (sw_refs8 s _ _ _ _ _ _ _ I2 X2) as L2.
  assert (SK : sw_keyed x y).
  { unfold obu_switch in X1, X2. destruct T as [-> | ->]; cbn in X1, X2; eapply key_header; eauto. }
  destruct (keyed_end o s _ _ _ _ _ _ _ _ _ _ SK L1 L2 E1 E2) as (A & B & C & D). auto.
Qed.

(** A temporal delimiter, a sequence header and a key frame that gets decoded. *)
Definition sequence_start (t : list entry) : Prop :=
  exists x1 x2 x3 bs t' q, t = x1 :: x2 :: x3 :: bs ++ t' /\ first_type (en_buf x1) OBU_TD /\ starts_seq q (en_buf x2) /\
    starts_key s q (en_buf x3) /\ kept q (en_buf x3) /\ Forall plain_entry bs /\ decodes (en_work x3 ++ flat_map en_work bs).
Theorem prun_start : forall t1 d1 d2 a1 a2 t2 pk, unstuck d1 -> unstuck d2 -> d_jobs d1 = d_jobs d2 -> sequence_start t1 ->
  prun o s d1 t1 a1 -> prun o s d2 t2 a2 -> chain None pk t1 -> chain None pk t2 -> t1 = t2 /\ agree a1 a2.
Proof.
  intros t1 d1 d2 a1 a2 t2 pk U1 U2 J (x1 & x2 & x3 & bs & t' & q & -> & F1 & F2 & F3 & F4 & F5 & F6) P1 P2 C1 C2.
  (* the delimiter *)
  destruct (chain_same _ _ _ _ _ C1 C2) as (y1 & ty & -> & B & M & pk1 & C3 & C4). clear C1 C2.
  inversion P1 as [|? b1 buf1 m1 r1 c1 e1 ? ? A1 I1 HB1 HL1 E1 Q1]; subst. inversion P2 as [|? b2 buf2 m2 r2 c2 e2 ? ? A2 I2 HB2 HL2 E2 Q2]; subst.
  cbn [en_buf en_props en_ret en_work] in *. subst buf2 m2. clear P1 P2.
  destruct (td_pair _ _ _ _ _ _ _ _ _ _ (unstuck_agree _ _ A1 U1) (unstuck_agree _ _ A2 U2) HB1 HL1 F1 E1 E2) as (<- & W1 & V1 & V2 & J1 & J2).
  assert (J3 : d_jobs c1 = d_jobs c2) by (unfold agree in A1, A2; intuition congruence).
  rewrite <- W1. clear W1 E1 E2 A1 A2 I1 I2 HB1 HB2 HL1 HL2 J J1 J2 U1 U2 F1.
  (* the sequence header *)
  destruct (chain_same _ _ _ _ _ C3 C4) as (y2 & tz & -> & B & M & pk2 & C1 & C2). clear C3 C4.
  inversion Q1 as [|? b5 buf3 m3 r3 c5 e5 ? ? A1 I1 HB1 HL1 E1 P1]; subst. inversion Q2 as [|? b6 buf4 m4 r4 c6 e6 ? ? A2 I2 HB2 HL2 E2 P2]; subst.
  cbn [en_buf en_props en_ret en_work] in *. subst buf4 m4. clear Q1 Q2.
  assert (J4 : d_jobs b5 = d_jobs b6) by (unfold agree in A1, A2; intuition congruence).
  destruct (seq_pair _ _ _ _ _ _ _ _ _ _ _ (unstuck_agree _ _ A1 V1) (unstuck_agree _ _ A2 V2) J4 F2 E1 E2) as (<- & W2 & S & ES & EI).
  rewrite <- W2. clear W2 E1 E2 A1 A2 I1 I2 HB1 HB2 HL1 HL2 J3 J4 V1 V2 F2.
  (* the key frame *)
  destruct (chain_same _ _ _ _ _ C1 C2) as (y3 & tw & -> & B & M & pk3 & C3 & C4). clear C1 C2.
  inversion P1 as [|? b3 buf5 m5 r5 d3 e3 ? ? A1 I1 HB1 HL1 E1 Q1]; subst. inversion P2 as [|? b4 buf6 m6 r6 d4 e4 ? ? A2 I2 HB2 HL2 E2 Q2]; subst.
  cbn [en_buf en_props en_ret en_work] in *. subst buf6 m6. clear P1 P2.
  assert (ES3 : d_seq b3 = Some q) by (unfold agree in A1; intuition congruence).
  assert (EI3 : d_idc b3 = selected s q) by (unfold agree in A1; intuition congruence).
  destruct (key_pair _ _ _ _ _ _ _ _ _ _ _ (seq_agree2 _ _ _ _ S A1 A2) ES3 EI3 I1 I2 F3 F4 E1 E2) as (<- & W3 & K & D).
  rewrite <- W3.
  assert (D3 : agree d3 d4 \/ decodes (flat_map en_work bs)).
  { destruct F6 as (j & r & F6). apply in_app_or in F6. destruct F6 as [F6|F6]; [|right; exists j, r; exact F6].
    destruct D as [D|D]; [auto|]. exfalso. exact (D _ _ F6). }
  destruct (prun_keyed bs t' d3 d4 a1 a2 tw _ _ K Q1 Q2 C3 C4 F5 D3) as (<- & A5). auto.
Qed.
End Rejoin.

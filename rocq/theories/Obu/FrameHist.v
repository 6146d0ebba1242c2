(** Frame headers over the history of a stream: the reference slots that
    later headers depend on always hold what the specification's reference
    frame update process would have saved. *)
From Coq Require Import ZArith List Bool Lia.
From Verif Require Import Base.CInt Base.Lemmas GetBits.Model GetBits.Spec GetBits.Abstract
  GetBits.Proofs GetBits.SpecProg GetBits.Sim GetBits.AtPos Obu.SimTac Obu.SeqModel Obu.SeqRel Obu.SeqProofs
  Obu.FrameModel Obu.FrameRel Obu.FrameSec Obu.FrameTop.
Import ListNotations.
Open Scope Z_scope.

(** 7.20 reference frame update process, for the state used by headers. *)
Definition saved (fr : F.coded_frame) : F.ref_info :=
  let z := F.size_ (F.references_ fr) in
  F.mkRefInfo (F.current_frame_id (F.general_ fr)) (F.OrderHint (F.general_ fr))
    (F.UpscaledWidth z) (F.FrameHeight z) (F.RenderWidth z) (F.RenderHeight z)
    (F.FeatureData (F.segmentation_ fr))
    (F.loop_filter_ref_deltas (F.loop_filter_ fr)) (F.loop_filter_mode_deltas (F.loop_filter_ fr))
    (map snd (F.gm_ fr)) (F.grain_ fr).

(** Slots i with bit i of [mask] set receive [x]. *)
Fixpoint refresh {A} (i : Z) (mask : Z) (x : A) (l : list A) : list A :=
  match l with
  | [] => []
  | y :: l => (if Z.testbit mask i then x else y) :: refresh (i + 1) mask x l
  end.

Lemma coded_saved : forall sh h s, coded_rel h s -> coded_wf sh h -> slot_rel h (saved s) /\ slot_wf h.
Proof.
  intros sh h s R W. split.
  - destruct R as (_ & P & RR & _ & _ & _ & SG & _ & _ & _ & _ & LF & _ & _ & _ & _ & _ & _ & _ & _ & _ & GM & _ & _ & FG).
    unfold slot_rel, saved.
    cbn [F.RefFrameId F.RefOrderHint F.RefUpscaledWidth F.RefFrameHeight F.RefRenderWidth F.RefRenderHeight
         F.SavedFeatures F.SavedRefDeltas F.SavedModeDeltas F.SavedGmParams F.SavedFilmGrain].
    destruct RR as (_ & Z0 & _). destruct Z0 as (_ & Z1 & Z2 & Z3 & Z4 & _).
    split; [apply P|]. split; [apply P|]. split; [auto|]. split; [auto|]. split; [auto|]. split; [auto|].
    split; [apply SG|]. split; [apply LF|]. split; [apply LF|]. split; [|exact FG].
    clear - GM. induction GM as [|x y l l' (_ & E) _ IH]; cbn [map]; [reflexivity|]. rewrite E, IH. reflexivity.
  - destruct W as (P & RW & _ & _ & _ & SG & _ & _ & LF & _ & _ & _ & _ & _ & _ & _ & _ & _ & G1 & G2 & _ & _ & FG).
    red. split; [apply P|]. split; [apply RW|]. split; [apply SG|]. auto.
Qed.

Definition slot_ok (o : option frame_hdr) (o' : option F.ref_info) : Prop :=
  match o, o' with
  | Some h, Some r => slot_rel h r /\ slot_wf h
  | None, None => True
  | _, _ => False
  end.
Lemma refresh_length : forall A mask (x : A) l i, length (refresh i mask x l) = length l.
Proof. induction l; intros; cbn; auto. Qed.
Lemma refresh_rel : forall x y refs srefs mask i, slot_ok x y -> Forall2 slot_ok refs srefs ->
  Forall2 slot_ok (refresh i mask x refs) (refresh i mask y srefs).
Proof.
  intros x y refs srefs mask i H F. revert i. induction F; intros i; cbn [refresh]; constructor; auto.
  destruct (Z.testbit mask i); auto.
Qed.
Lemma slots_refresh : forall x y refs srefs mask, slot_ok x y -> slots_rel refs srefs ->
  slots_rel (refresh 0 mask x refs) (refresh 0 mask y srefs).
Proof.
  intros x y refs srefs mask H (L & F). split; [rewrite refresh_length; auto|].
  apply refresh_rel; auto.
Qed.
Lemma slots_empty : slots_rel (repeat None 8) (repeat None 8).
Proof. split; [reflexivity|]. cbn. repeat constructor. Qed.
Lemma slots_slot : forall refs srefs i, slots_rel refs srefs ->
  slot_ok (nth i refs None) (nth i srefs None).
Proof.
  intros refs srefs i (_ & F). revert i. induction F; intros [|i]; cbn; auto.
Qed.

(** Joint histories of the slots of dav1d and of the specification: accepted
    headers refresh slots, a shown key frame is copied into other slots, and
    slots can be emptied (new sequence, failed frame, flush). *)
Inductive history : refs_t -> F.slots -> Prop :=
| hist_start : history (repeat None 8) (repeat None 8)
| hist_frame : forall refs srefs sh ss strict tid sid buf pos c h c' s p',
    history refs srefs -> seq_rel sh ss -> seq_wf sh -> 0 <= tid -> 0 <= sid ->
    at_pos buf pos c -> pos + 15200 <= 8 * zlen buf + 2 ^ 31 ->
    exec (parse_frame_hdr sh refs strict tid sid) c = Ok (inl h, c') -> show_existing_frame h = 0 ->
    srun (F.uncompressed_header ss srefs strict tid sid) (stream_bit buf (zlen buf)) pos = (Some (F.Coded s), p') ->
    history (refresh 0 (refresh_frame_flags (f_refs h)) (Some h) refs)
            (refresh 0 (F.refresh_frame_flags (F.references_ s)) (Some (saved s)) srefs)
| hist_copy : forall refs srefs i mask, history refs srefs ->
    history (refresh 0 mask (nth i refs None) refs) (refresh 0 mask (nth i srefs None) srefs)
| hist_drop : forall refs srefs mask, history refs srefs ->
    history (refresh 0 mask None refs) (refresh 0 mask None srefs).

Theorem frame_hdr_exec : forall sh ss refs srefs strict tid sid buf pos c, seq_rel sh ss -> seq_wf sh ->
  slots_rel refs srefs -> 0 <= tid -> 0 <= sid -> at_pos buf pos c -> pos + 15200 <= 8 * zlen buf + 2 ^ 31 ->
  exists r c' pos', exec (parse_frame_hdr sh refs strict tid sid) c = Ok (r, c') /\ at_pos buf pos' c' /\
    pos <= pos' <= pos + 15200 /\
  match r with
  | inl h => exists s, srun (F.uncompressed_header ss srefs strict tid sid) (stream_bit buf (zlen buf)) pos = (Some s, pos') /\
               hdr_rel h s /\ hdr_wf sh h
  | inr e => e = EINVAL_ /\
      fst (srun (F.uncompressed_header ss srefs strict tid sid) (stream_bit buf (zlen buf)) pos) = None
  end.
Proof.
  intros sh ss refs srefs strict tid sid buf pos c R W HS Ht Hi Hat Hb.
  pose proof (sim_exec _ _ 15200 _ _ _ buf pos c
    (sim_frame_hdr sh ss refs srefs strict tid sid 15200 R W HS Ht Hi ltac:(lia)) Hat Hb) as H.
  destruct (srun (F.uncompressed_header ss srefs strict tid sid) (stream_bit buf (zlen buf)) pos) as [[s|] pos'].
  - destruct H as (P & h & c' & E & (H1 & H2) & A). exists (inl h), c', pos'. repeat (split; [solve [auto]|]). eauto.
  - destruct H as (P & c' & E & A). exists (inr EINVAL_), c', pos'. repeat (split; [solve [auto]|]). auto.
Qed.

Theorem history_slots : forall refs srefs, history refs srefs -> slots_rel refs srefs.
Proof.
  induction 1.
  - apply slots_empty.
  - destruct (frame_hdr_exec sh ss refs srefs strict tid sid buf pos c H0 H1 IHhistory H2 H3 H4 H5) as
      (r & c'' & p'' & E & _ & _ & M). rewrite E in H6. injection H6 as -> ->. destruct M as (s' & E' & HR & HW).
    rewrite E' in H8. injection H8 as -> ->. cbn [hdr_rel] in HR.
    assert (EM : refresh_frame_flags (f_refs h) = F.refresh_frame_flags (F.references_ s)) by apply HR.
    rewrite EM. apply slots_refresh; [|auto].
    destruct HW as [(A & _)|(_ & HW)]; [congruence|]. cbn [slot_ok]. apply coded_saved with (sh := sh); auto.
  - apply slots_refresh; [apply slots_slot; auto|auto].
  - apply slots_refresh; [exact I|auto].
Qed.

(** * Consequences read off the syntax tables *)

Lemma srun_bind : forall A B (m : sp A) (g : A -> sp B) b pos y p,
  srun (sbind m g) b pos = (Some y, p) ->
  exists x p1, srun m b pos = (Some x, p1) /\ srun (g x) b p1 = (Some y, p).
Proof.
  induction m; intros g b pos y p H0; cbn [sbind srun] in *; eauto. discriminate.
Qed.
Ltac sinv H := let x := fresh "x" in let p := fresh "p" in let E := fresh "E" in
  apply srun_bind in H; destruct H as (x & p & E & H).
Lemma srun_ret : forall A (x y : A) b p q, srun (SRet x) b p = (Some y, q) -> x = y.
Proof. cbn. congruence. Qed.
Lemma srun_require : forall c b p u q, srun (require c) b p = (Some u, q) -> c = true.
Proof. intros [|] b p u q H; [auto|discriminate]. Qed.

Lemma grain_inherited : forall ss refs g ridx b pos ap fg p,
  srun (F.film_grain_params ss refs g ridx) b pos = (Some (ap, 0, fg), p) -> ap = 1 ->
  exists i seed r, F.in_list i ridx = true /\ nth (Z.to_nat i) refs None = Some r /\
    fg = match F.SavedFilmGrain r with Some fg => Some (F.set_seed fg seed) | None => None end.
Proof.
  intros ss refs g ridx b pos ap fg p H Ha. subst ap. unfold F.film_grain_params in H.
  destruct ((S.film_grain_params_present ss =? 0) || _); [apply srun_ret in H; congruence|].
  sinv H. destruct (x =? 0); [apply srun_ret in H; congruence|].
  sinv H. sinv H. destruct (x1 =? 0).
  - sinv H. sinv H. sinv H. apply srun_require in E3. unfold F.slot in E4.
    destruct (nth (Z.to_nat x2) refs None) eqn:EN; [|discriminate]. apply srun_ret in E4. apply srun_ret in H.
    exists x2, x0, x4. subst r. injection H as H. auto.
  - sinv H. apply srun_ret in H. congruence.
Qed.

Definition order_hints (ss : S.sequence_header) (srefs : F.slots) (cur OrderHint : Z) : list Z :=
  map (fun o => match o with Some r => cur + F.get_relative_dist ss (F.RefOrderHint r) OrderHint | None => 0 end) srefs.
Lemma shifted_hints_all : forall ss srefs cur oh b pos l p,
  srun (F.shifted_hints ss srefs cur oh) b pos = (Some l, p) ->
  l = order_hints ss srefs cur oh /\ Forall (fun o => o <> None) srefs.
Proof.
  induction srefs as [|[r|] srefs IH]; intros cur oh b pos l p H; cbn [F.shifted_hints] in H.
  - apply srun_ret in H. subst l. auto.
  - sinv H. apply srun_ret in H. subst l. apply IH in E. destruct E as (-> & E). split; [reflexivity|].
    constructor; [discriminate|auto].
  - discriminate.
Qed.
Lemma ref_indices_short : forall ss refs fid n l b pos r p,
  srun (F.ref_indices ss refs fid n (Some l)) b pos = (Some r, p) -> length l = n -> r = l.
Proof.
  induction n as [|n IH]; intros l b pos r p H HL; cbn [F.ref_indices] in H.
  - apply srun_ret in H. destruct l; [auto|discriminate].
  - sinv H. sinv H. sinv H. apply srun_ret in E. apply srun_ret in H. destruct l as [|y l]; [discriminate|].
    cbn [tl hd] in *. injection HL as HL. apply IH in E1; [|auto]. subst. reflexivity.
Qed.

Lemma set_frame_refs_length : forall hints cur last gold, length (F.set_frame_refs hints cur last gold) = 7%nat.
Proof.
  intros. unfold F.set_frame_refs.
  repeat (match goal with |- context [let '(_, _) := ?x in _] => destruct x end). reflexivity.
Qed.
Lemma short_signaling : forall ss srefs strict g b pos r p,
  srun (F.reference_part ss srefs strict g) b pos = (Some r, p) -> F.frame_refs_short_signaling r = 1 ->
  Forall (fun o => o <> None) srefs /\
  exists last gold b' p1 p2 , f_n b p1 3 = last /\ f_n b p2 3 = gold /\ b' = S.OrderHintBits (S.tools_ ss) /\
    F.ref_frame_idx r =
      F.set_frame_refs (order_hints ss srefs (2 ^ (b' - 1)) (F.OrderHint g)) (2 ^ (b' - 1)) last gold.
Proof.
  intros ss srefs strict g b pos r p H HS. unfold F.reference_part in H.
  sinv H. sinv H. sinv H. clear E E0 E1. destruct (F.FrameIsIntra (F.frame_type g)).
  - sinv H. sinv H. apply srun_ret in H. subst r. discriminate.
  - sinv H. sinv H. sinv H. sinv H. sinv H. sinv H. sinv H. sinv H. sinv H. apply srun_ret in H. subst r.
    cbn [F.frame_refs_short_signaling F.ref_frame_idx] in *. subst.
    match goal with E : srun (if 1 =? 1 then _ else _) _ _ = _ |- _ => rename E into ES end.
    match goal with E : srun (F.ref_indices _ _ _ _ _) _ _ = _ |- _ => rename E into ER end.
    change (1 =? 1) with true in ES. cbn iota in ES.
    apply srun_bind in ES. destruct ES as (last & q1 & EL & ES).
    apply srun_bind in ES. destruct ES as (gold & q2 & EG & ES).
    apply srun_bind in ES. destruct ES as (hs & q3 & EH & ES). apply srun_ret in ES. subst.
    apply shifted_hints_all in EH. destruct EH as (-> & EA). split; [exact EA|].
    apply ref_indices_short in ER; [|apply set_frame_refs_length].
    cbn [srun f] in EL, EG. injection EL as EL EL'. injection EG as EG EG'.
    exists last, gold, (S.OrderHintBits (S.tools_ ss)). do 2 eexists. split; [exact EL|]. split; [exact EG|].
    split; [reflexivity|exact ER].
Qed.

Lemma coded_parts : forall ss srefs strict tid sid b pos s p,
  srun (F.uncompressed_header ss srefs strict tid sid) b pos = (Some (F.Coded s), p) ->
  (exists p1 p2, srun (F.reference_part ss srefs strict (F.general_ s)) b p1 = (Some (F.references_ s), p2)) /\
  (exists p1 p2, srun (F.film_grain_params ss srefs (F.general_ s) (F.ref_frame_idx (F.references_ s))) b p1 =
     (Some (F.apply_grain s, F.update_grain s, F.grain_ s), p2)).
Proof.
  intros ss srefs strict tid sid b pos s p H. unfold F.uncompressed_header in H. sinv H.
  destruct (x =? 1).
  - sinv H. sinv H. sinv H. apply srun_ret in H. discriminate.
  - sinv H. apply srun_ret in H. injection H as ->. unfold F.coded_frame_header in E0.
    do 18 (sinv E0).
    match goal with y : Z * Z * option F.film_grain |- _ => destruct y as ((ap & up) & fg) end.
    apply srun_ret in E0. subst. cbn. split; eauto.
Qed.

Lemma fg_rel_seed : forall d0 d o seed, fg_rel d0 o ->
  fg_rel d (match o with Some g => Some (F.set_seed g seed) | None => None end) ->
  d = with_seed d0 (fg_seed d).
Proof.
  intros d0 d [g|] seed; cbn [fg_rel].
  - intros H H'. destruct d0, d. unfold with_seed, F.set_seed in *. cbn in H, H' |- *.
    repeat match goal with H : _ /\ _ |- _ => destruct H end. subst. reflexivity.
  - intros -> ->. reflexivity.
Qed.

(** Slot contents that some history produces. *)
Definition reachable (refs : refs_t) : Prop := exists srefs, history refs srefs.
Lemma reachable_start : reachable (repeat None 8).
Proof. exists (repeat None 8). constructor. Qed.
Lemma reachable_frame : forall refs sh ss strict tid sid buf pos c h c',
  reachable refs -> seq_rel sh ss -> seq_wf sh -> 0 <= tid -> 0 <= sid ->
  at_pos buf pos c -> pos + 15200 <= 8 * zlen buf + 2 ^ 31 ->
  exec (parse_frame_hdr sh refs strict tid sid) c = Ok (inl h, c') -> show_existing_frame h = 0 ->
  reachable (refresh 0 (refresh_frame_flags (f_refs h)) (Some h) refs).
Proof.
  intros refs sh ss strict tid sid buf pos c h c' (srefs & H) H0 H1 H2 H3 H4 H5 H6 H7.
  destruct (frame_hdr_exec sh ss refs srefs strict tid sid buf pos c H0 H1 (history_slots _ _ H) H2 H3 H4 H5) as
      (r & c'' & p'' & E & _ & _ & M). rewrite E in H6. injection H6 as -> ->. destruct M as (s' & E' & HR & HW).
  destruct s' as [|s]; [cbn in HR; destruct HR; congruence|].
  eexists. exact (hist_frame refs srefs sh ss strict tid sid buf pos c h c' s p'' H H0 H1 H2 H3 H4 H5 E H7 E').
Qed.
Lemma reachable_copy : forall refs i mask, reachable refs -> reachable (refresh 0 mask (nth i refs None) refs).
Proof. intros refs i mask (s & H). eexists. apply hist_copy, H. Qed.
Lemma reachable_drop : forall refs mask, reachable refs -> reachable (refresh 0 mask None refs).
Proof. intros refs mask (s & H). eexists. apply hist_drop, H. Qed.

Section Accepted.
Variables (sh : seq_hdr) (ss : S.sequence_header) (refs : refs_t) (srefs : F.slots) (strict : bool) (tid sid : Z)
  (buf : list Z) (pos : Z) (c : gb) (h : frame_hdr) (c' : gb).
Hypothesis (HR : seq_rel sh ss) (HW : seq_wf sh) (HH : history refs srefs) (H2 : 0 <= tid) (H3 : 0 <= sid)
  (H4 : at_pos buf pos c) (H5 : pos + 15200 <= 8 * zlen buf + 2 ^ 31)
  (HE : exec (parse_frame_hdr sh refs strict tid sid) c = Ok (inl h, c')) (HS : show_existing_frame h = 0).

Lemma accepted : exists s p', srun (F.uncompressed_header ss srefs strict tid sid) (stream_bit buf (zlen buf)) pos =
    (Some (F.Coded s), p') /\ coded_rel h s /\ coded_wf sh h.
Proof.
  destruct (frame_hdr_exec sh ss refs srefs strict tid sid buf pos c HR HW (history_slots _ _ HH) H2 H3 H4 H5) as
      (r & c'' & p'' & E & _ & _ & M). rewrite E in HE. injection HE as -> ->. destruct M as (s' & E' & R & W).
  destruct s' as [|s]; [cbn in R; destruct R; congruence|].
  destruct W as [(A & _)|(_ & W)]; [congruence|]. eauto.
Qed.

Lemma accepted_inherit : fg_present h = 1 -> fg_update h = 0 ->
  exists i h0, In i (refidx (f_refs h)) /\ 0 <= i <= 7 /\ nth (Z.to_nat i) refs None = Some h0 /\
    f_fg h = with_seed (f_fg h0) (fg_seed (f_fg h)).
Proof.
  intros HP HU. destruct accepted as (s & p' & E & R & W).
  pose proof (coded_parts _ _ _ _ _ _ _ _ _ E) as (_ & p1 & p2 & EG).
  destruct R as (_ & _ & RR & _ & _ & _ & _ & _ & _ & _ & _ & _ & _ & _ & _ & _ & _ & _ & _ & _ & _ & _ & FP & FU & FG).
  rewrite <- FP, <- FU, HP, HU in EG. apply grain_inherited in EG; [|reflexivity].
  destruct EG as (i & seed & r & HI & HN & EF).
  pose proof (slots_slot refs srefs (Z.to_nat i) (history_slots _ _ HH)) as SO. rewrite HN in SO.
  destruct (nth (Z.to_nat i) refs None) as [h0|] eqn:EN; [|contradiction]. destruct SO as (SR & _).
  assert (RI : FrameModel.refidx (f_refs h) = F.ref_frame_idx (F.references_ s) \/
               F.ref_frame_idx (F.references_ s) = []).
  { destruct RR as (_ & _ & _ & _ & [RI|RI] & _); auto. }
  unfold F.in_list in HI. apply existsb_exists in HI. destruct HI as (j & HI & EJ). apply Z.eqb_eq in EJ. subst j.
  destruct RI as [RI|RI]; [|rewrite RI in HI; destruct HI].
  exists i, h0. rewrite <- RI in HI. split; [exact HI|]. split.
  { destruct W as (_ & W & _). destruct W as (_ & _ & _ & _ & W & _). rewrite Forall_forall in W. apply (W i HI). }
  split; [auto|]. rewrite EF in FG. eapply fg_rel_seed; eauto. apply SR.
Qed.

Lemma accepted_short : frame_ref_short_signaling (f_refs h) = 1 ->
  Forall (fun o => o <> None) refs /\
  exists last gold, 0 <= last <= 7 /\ 0 <= gold <= 7 /\
  let cur := 2 ^ (order_hint_n_bits (sh_tools sh) - 1) in
  let hint o := match o with
                | Some r => cur + F.get_relative_dist ss (frame_offset (f_pre r)) (frame_offset (f_pre h))
                | None => 0
                end in
  refidx (f_refs h) = F.set_frame_refs (map hint refs) cur last gold.
Proof.
  intros HF. destruct accepted as (s & p' & E & R & W).
  pose proof (coded_parts _ _ _ _ _ _ _ _ _ E) as ((p1 & p2 & EG) & _).
  destruct R as (_ & P & RR & _).
  assert (ES : frame_ref_short_signaling (f_refs h) = F.frame_refs_short_signaling (F.references_ s)) by apply RR.
  apply short_signaling in EG; [|congruence]. destruct EG as (A & last & gold & n & q1 & q2 & E1 & E2 & -> & EQ).
  pose proof (history_slots _ _ HH) as (HL & HF2).
  split.
  { clear - HF2 A. induction HF2; inversion A; constructor; auto. destruct x, y; try congruence; contradiction. }
  exists last, gold.
  assert (B : forall p, 0 <= f_n (stream_bit buf (zlen buf)) p 3 <= 7).
  { intros p. pose proof (f_n_range _ (stream_bit_range buf (zlen buf)) p 3 ltac:(lia)). change (2 ^ 3) with 8 in *. lia. }
  split; [rewrite <- E1; apply B|]. split; [rewrite <- E2; apply B|]. cbv zeta.
  assert (EN : order_hint_n_bits (sh_tools sh) = S.OrderHintBits (S.tools_ ss)).
  { clear - HR. unfold seq_rel in HR. decompose [and] HR. match goal with H : tools_rel _ _ |- _ => apply H end. }
  rewrite EN. destruct RR as (_ & _ & _ & _ & [RI|RI] & _).
  { rewrite RI in EQ. pose proof (set_frame_refs_length (order_hints ss srefs (2 ^ (S.OrderHintBits (S.tools_ ss) - 1))
      (F.OrderHint (F.general_ s))) (2 ^ (S.OrderHintBits (S.tools_ ss) - 1)) last gold) as X. rewrite <- EQ in X. discriminate. }
  rewrite RI, EQ. f_equal. unfold order_hints.
  assert (EO : frame_offset (f_pre h) = F.OrderHint (F.general_ s)) by apply P. rewrite EO.
  clear - HF2. induction HF2; cbn [map]; [reflexivity|]. rewrite IHHF2. f_equal.
  destruct x, y; try contradiction; [|reflexivity]. destruct H as (H & _). replace (frame_offset (f_pre f)) with (F.RefOrderHint r); [reflexivity|].
  symmetry. apply H.
Qed.
End Accepted.

(** * Tile starts, spelled out *)
Lemma increasing_lt : forall l i j, increasing l -> (i < j < length l)%nat -> nth i l 0 < nth j l 0.
Proof.
  induction l as [|a l IH]; intros i j H Hj; [cbn in Hj; lia|].
  destruct j as [|j]; [lia|].
  assert (Hl : increasing l) by (destruct l; [exact I|apply H]).
  cbn [length] in Hj. destruct i as [|i]; [|cbn [nth]; apply IH; [auto|lia]].
  destruct l as [|b l]; [cbn in Hj; lia|]. destruct H as (Hab & _).
  cbn [nth]. destruct j as [|j]; [exact Hab|].
  pose proof (IH 0%nat (S j) Hl ltac:(cbn [length] in *; lia)) as X. cbn [nth] in X. cbn. lia.
Qed.
Lemma last_nth : forall (l : list Z) d, last l d = nth (length l - 1) l d.
Proof.
  induction l as [|a [|b l] IH]; intros d; [reflexivity|reflexivity|].
  change (last (a :: b :: l) d) with (last (b :: l) d). rewrite IH. cbn [length].
  replace (S (S (length l)) - 1)%nat with (S (S (length l) - 1)) by lia. reflexivity.
Qed.
Lemma tiling_explicit : forall sb128 w h t, 0 <= sb128 <= 1 -> tiling_wf sb128 w h t ->
  let sb := if sb128 =? 1 then 128 else 64 in
  (forall i j, (i < j < length (t_col_start_sb t))%nat -> nth i (t_col_start_sb t) 0 < nth j (t_col_start_sb t) 0) /\
  (forall i j, (i < j < length (t_row_start_sb t))%nat -> nth i (t_row_start_sb t) 0 < nth j (t_row_start_sb t) 0) /\
  zlen (t_col_start_sb t) = t_cols t + 1 /\ zlen (t_row_start_sb t) = t_rows t + 1 /\
  1 <= t_cols t <= 64 /\ 1 <= t_rows t <= 64 /\
  nth 0 (t_col_start_sb t) 0 = 0 /\ nth (Z.to_nat (t_cols t)) (t_col_start_sb t) 0 = (w + sb - 1) / sb /\
  nth 0 (t_row_start_sb t) 0 = 0 /\ nth (Z.to_nat (t_rows t)) (t_row_start_sb t) 0 = (h + sb - 1) / sb /\
  0 <= t_update t < t_cols t * t_rows t.
Proof.
  intros sb128 w h t HB ((C1 & C2 & C3 & C4) & (R1 & R2 & R3 & R4) & Z1 & Z2 & H1 & H2 & _ & _ & _ & _ & HU & _). cbv zeta.
  assert (ES : 64 * 2 ^ sb128 = if sb128 =? 1 then 128 else 64).
  { assert (sb128 = 0 \/ sb128 = 1) as [-> | ->] by lia; reflexivity. }
  rewrite ES in *. clear ES. rewrite last_nth in C2, R2.
  split; [intros; apply increasing_lt; auto|]. split; [intros; apply increasing_lt; auto|].
  split; [auto|]. split; [auto|]. split; [auto|]. split; [auto|].
  unfold zlen in Z1, Z2.
  replace (Z.to_nat (t_cols t)) with (length (t_col_start_sb t) - 1)%nat by lia.
  replace (Z.to_nat (t_rows t)) with (length (t_row_start_sb t) - 1)%nat by lia.
  split. { destruct (t_col_start_sb t); auto. }
  split; [auto|]. split. { destruct (t_row_start_sb t); auto. }
  auto.
Qed.

(** * Film grain ranges, spelled out *)
Lemma points_explicit : forall l, points_wf l ->
  Forall (fun x => 0 <= fst x <= 255 /\ 0 <= snd x <= 255) l /\
  forall i j, (i < j < length l)%nat -> fst (nth i l (0, 0)) < fst (nth j l (0, 0)).
Proof.
  induction l as [|x l IH]; intros H; [split; [constructor|cbn; intros; lia]|].
  destruct H as (A & B & C & D). destruct (IH D) as (F1 & F2). split; [constructor; auto|].
  intros i j Hij. destruct j as [|j]; [lia|]. cbn [length] in Hij.
  destruct i as [|i]; [|cbn [nth]; apply F2; lia].
  destruct l as [|y l]; [cbn in Hij; lia|]. cbn [nth]. destruct j as [|j]; [exact C|].
  pose proof (F2 0%nat (S j) ltac:(cbn [length] in *; lia)) as X. cbn [nth] in X. lia.
Qed.
Lemma fg_explicit : forall d, fg_wf d ->
  let pts l n := (length l <= n)%nat /\ Forall (fun x => 0 <= fst x <= 255 /\ 0 <= snd x <= 255) l /\
                 forall i j, (i < j < length l)%nat -> fst (nth i l (0, 0)) < fst (nth j l (0, 0)) in
  let coeffs l n := length l = n /\ Forall (fun v => -128 <= v <= 127) l in
  let mult m := let '(a, b, o) := m in -128 <= a <= 127 /\ -128 <= b <= 127 /\ -256 <= o <= 255 in
  0 <= fg_seed d < 65536 /\ pts (fg_y_points d) 14%nat /\ pts (fg_u_points d) 10%nat /\ pts (fg_v_points d) 10%nat /\
  0 <= fg_ar_coeff_lag d <= 3 /\ coeffs (fg_ar_coeffs_y d) 24%nat /\ coeffs (fg_ar_coeffs_u d) 28%nat /\
  coeffs (fg_ar_coeffs_v d) 28%nat /\ (fg_zero d \/ 8 <= fg_scaling_shift d <= 11) /\
  (fg_zero d \/ 6 <= fg_ar_coeff_shift d <= 9) /\ 0 <= fg_grain_scale_shift d <= 3 /\
  mult (fg_u_mult d) /\ mult (fg_v_mult d).
Proof.
  intros d H. unfold fg_wf in H.
  destruct H as (S & L1 & L2 & L3 & P1 & P2 & P3 & _ & S1 & LG & C1 & C2 & C3 & S2 & S3 & M1 & M2 & _ & _). cbv zeta.
  apply points_explicit in P1. apply points_explicit in P2. apply points_explicit in P3.
  repeat (apply conj; [solve [auto | split; auto]|]). exact M2.
Qed.

(** File positions, leb128 and the three demuxers. *)
From Coq Require Import ZArith List Bool Lia.
From Verif Require Import Base.CInt Base.Lemmas Base.Finite Tools.Input Tools.InputSpec.
Import ListNotations.
Open Scope Z_scope.
Open Scope outcome_scope.

(** ** positions: what is left of the file is [rest] *)
Definition at_ (f : file) (rest : list Z) : Prop :=
  exists pre, f_data f = pre ++ rest /\ f_pos f = zlen pre.

Lemma zlen_app : forall A (a b : list A), zlen (a ++ b) = zlen a + zlen b.
Proof. intros. unfold zlen. rewrite app_length. lia. Qed.
Lemma zlen_nonneg : forall A (a : list A), 0 <= zlen a.
Proof. intros. unfold zlen. lia. Qed.
Lemma zlen_cons : forall A (a : A) l, zlen (a :: l) = 1 + zlen l.
Proof. intros. unfold zlen. cbn [length]. lia. Qed.
Lemma zlen_nil : forall A, zlen (@nil A) = 0.
Proof. reflexivity. Qed.

Lemma slice_app : forall (pre b rest : list Z), slice (pre ++ b ++ rest) (zlen pre) (zlen b) = b.
Proof.
  intros. unfold slice, zlen. rewrite !Nat2Z.id.
  rewrite skipn_app, skipn_all, Nat.sub_diag. cbn [skipn app].
  rewrite firstn_app, firstn_all, Nat.sub_diag. cbn [firstn]. apply app_nil_r.
Qed.

Lemma fopen_at : forall l, at_ (fopen l) l.
Proof. intros. exists []. auto. Qed.

Lemma fread_at : forall f b rest n, at_ f (b ++ rest) -> zlen b = n -> 0 < n ->
  exists f', fread f n = (Some b, f') /\ at_ f' rest /\ f_data f' = f_data f
    /\ f_pos f' = f_pos f + n.
Proof.
  intros f b rest n (pre & D & P) L N. unfold fread. rewrite D, P.
  replace (n =? 0) with false by lia.
  rewrite !zlen_app. pose proof (zlen_nonneg _ rest).
  replace (zlen pre + n <=? zlen pre + (zlen b + zlen rest)) with true by lia.
  eexists. split; [rewrite <- L, slice_app; reflexivity|].
  split; [|split; [cbn; auto|cbn; lia]].
  exists (pre ++ b). cbn. rewrite zlen_app, <- app_assoc. split; [reflexivity|lia].
Qed.

Lemma fread_short : forall f rest n, at_ f rest -> zlen rest < n ->
  exists f', fread f n = (None, f') /\ at_ f' [] /\ f_data f' = f_data f /\ f_eof f' = true.
Proof.
  intros f rest n (pre & D & P) N. unfold fread. rewrite D, P.
  pose proof (zlen_nonneg _ rest). pose proof (zlen_nonneg _ pre).
  replace (n =? 0) with false by lia. rewrite zlen_app.
  replace (zlen pre + n <=? zlen pre + zlen rest) with false by lia.
  eexists. split; [reflexivity|]. split; [|split; reflexivity].
  exists (pre ++ rest). cbn. rewrite app_nil_r, zlen_app. split; [reflexivity|lia].
Qed.

Lemma fseek_at : forall f b rest n, at_ f (b ++ rest) -> zlen b = n ->
  exists f', fseek_cur f n = (true, f') /\ at_ f' rest /\ f_data f' = f_data f /\ f_pos f' = f_pos f + n.
Proof.
  intros f b rest n (pre & D & P) L. unfold fseek_cur, fseek_to. rewrite P.
  pose proof (zlen_nonneg _ b). pose proof (zlen_nonneg _ pre).
  replace (zlen pre + n <? 0) with false by lia.
  eexists. split; [reflexivity|]. split; [|split; reflexivity].
  exists (pre ++ b). cbn. rewrite D, zlen_app, <- app_assoc. split; [reflexivity|lia].
Qed.

(** A position that is at or past the end. *)
Definition past (f : file) : Prop := zlen (f_data f) <= f_pos f.
Lemma past_at : forall f, at_ f [] -> past f.
Proof. intros f (pre & D & P). unfold past. rewrite D, P, app_nil_r. lia. Qed.
Lemma fread_past : forall f n, past f -> 0 < n ->
  exists f', fread f n = (None, f') /\ past f' /\ f_data f' = f_data f /\ f_eof f' = true.
Proof.
  intros f n P N. unfold past in *. unfold fread. replace (n =? 0) with false by lia.
  replace (f_pos f + n <=? zlen (f_data f)) with false by lia.
  eexists. split; [reflexivity|]. cbn. repeat split; lia.
Qed.

(** ** leb128 *)
Lemma land80 : forall b, 0 <= b < 256 -> z2b (Z.land b 0x80) = (128 <=? b).
Proof.
  intros b H. apply eqb_prop.
  apply (all_in_ok 0 255 (fun b => eqb (z2b (Z.land b 0x80)) (128 <=? b))); [vm_compute; reflexivity|lia].
Qed.
Lemma land7f : forall b, Z.land b 0x7F = b mod 128.
Proof. intros. change 0x7F with (2 ^ 7 - 1). rewrite land_ones_mod by lia. reflexivity. Qed.

Lemma leb_step : forall val v i, 0 <= i < 8 -> 0 <= val < 2 ^ (7 * i) ->
  Z.lor val (u64 (Z.shiftl (Z.land v 0x7F) (i * 7))) = val + (v mod 128) * 2 ^ (7 * i)
  /\ 0 <= val + (v mod 128) * 2 ^ (7 * i) < 2 ^ (7 * (i + 1)).
Proof.
  intros val v i Hi Hv. rewrite land7f. pose proof (Z.mod_pos_bound v 128 ltac:(lia)) as M.
  set (m := v mod 128) in *. clearbody m.
  assert (P : 2 ^ (7 * (i + 1)) = 128 * 2 ^ (7 * i)).
  { replace (7 * (i + 1)) with (7 + 7 * i) by lia. rewrite Z.pow_add_r by lia. reflexivity. }
  assert (P2 : 2 ^ (7 * i) <= 2 ^ 49) by (apply Z.pow_le_mono_r; lia).
  rewrite shiftl_mul by lia. replace (i * 7) with (7 * i) by lia.
  rewrite u64_id by nia.
  rewrite Z.lor_comm, lor_shift_add by lia. split; [lia|]. rewrite P. nia.
Qed.

Lemma leb_value_nonneg : forall l, 0 <= leb_value l.
Proof. induction l; cbn [leb_value]; [lia|]. pose proof (Z.mod_pos_bound a 128 ltac:(lia)). lia. Qed.

Lemma leb_form_nonempty : forall l, leb_form l -> 0 < zlen l.
Proof. intros l H. inversion H; rewrite zlen_cons; unfold zlen; lia. Qed.

Lemma leb128_loop_ok : forall bs, leb_form bs -> forall n i val f rest,
  (length bs <= n)%nat -> 0 <= i -> i + zlen bs <= 8 -> 0 <= val < 2 ^ (7 * i) ->
  val + leb_value bs * 2 ^ (7 * i) <= UINT_MAX ->
  at_ f (bs ++ rest) ->
  exists f', leb128_loop n i val f = (Some (val + leb_value bs * 2 ^ (7 * i), i + zlen bs), f')
    /\ at_ f' rest /\ f_data f' = f_data f /\ f_pos f' = f_pos f + zlen bs.
Proof.
  induction 1; intros n i val f rest Hn Hi Hl Hv Hm Ha.
  - destruct n; [cbn in Hn; lia|]. cbn [leb128_loop].
    destruct (fread_at f [b] rest 1 Ha eq_refl ltac:(lia)) as (f1 & -> & A1 & D1 & P1).
    change (byte0 [b]) with b. change (zlen [b]) with 1 in *.
    destruct (leb_step val b i ltac:(lia) Hv) as [-> B]. rewrite land80 by lia.
    cbn [leb_value] in *. replace (128 <=? b) with false by lia. cbn [andb].
    replace (b mod 128 + 128 * 0) with (b mod 128) in * by lia.
    replace (UINT_MAX <? val + b mod 128 * 2 ^ (7 * i)) with false by lia. cbn [orb].
    eauto.
  - destruct n; [cbn in Hn; lia|]. cbn [leb128_loop].
    rewrite zlen_cons in Hl |- *. pose proof (leb_form_nonempty _ H0).
    destruct (fread_at f [b] (l ++ rest) 1 Ha eq_refl ltac:(lia)) as (f1 & -> & A1 & D1 & P1).
    change (byte0 [b]) with b.
    destruct (leb_step val b i ltac:(lia) Hv) as [-> B]. rewrite land80 by lia.
    replace (128 <=? b) with true by lia. replace (i + 1 <? 8) with true by lia. cbn [andb].
    assert (P : 2 ^ (7 * (i + 1)) = 128 * 2 ^ (7 * i)).
    { replace (7 * (i + 1)) with (7 + 7 * i) by lia. rewrite Z.pow_add_r by lia. reflexivity. }
    cbn [leb_value] in *.
    destruct (IHleb_form n (i + 1) (val + b mod 128 * 2 ^ (7 * i)) f1 rest) as (f' & E & A & D & P');
      try assumption; try lia.
    { cbn in Hn; lia. }
    exists f'. rewrite E. split; [|rewrite D, P', P1; repeat split; auto; lia].
    do 3 f_equal; [rewrite P|]; ring.
Qed.

Lemma leb128_ok : forall v bs f rest, leb_enc v bs -> at_ f (bs ++ rest) ->
  exists f', leb128 f = (Some (v, zlen bs), f') /\ at_ f' rest /\ f_data f' = f_data f
    /\ f_pos f' = f_pos f + zlen bs.
Proof.
  intros v bs f rest (F & L & V & B) A. unfold leb128.
  destruct (leb128_loop_ok bs F 8 0 0 f rest) as (f' & E & R).
  - exact L.
  - lia.
  - unfold zlen. lia.
  - change (2 ^ (7 * 0)) with 1. lia.
  - unfold UINT_MAX. change (2 ^ (7 * 0)) with 1. lia.
  - exact A.
  - exists f'. change (2 ^ (7 * 0)) with 1 in E. rewrite Z.mul_1_r, !Z.add_0_l, V in E. auto.
Qed.

Lemma leb128_past : forall f, past f -> exists f', leb128 f = (None, f') /\ past f' /\ f_data f' = f_data f.
Proof.
  intros f P. unfold leb128. cbn [leb128_loop].
  destruct (fread_past f 1 P ltac:(lia)) as (f' & -> & P' & D & _). eauto.
Qed.

(** ** reading a truncated file *)
Definition sim (k : nat) (f g : file) : Prop :=
  f_data g = firstn k (f_data f) /\ f_pos g = f_pos f /\ 0 <= f_pos f.

Lemma firstn_firstn_le : forall A (l : list A) a b, (a <= b)%nat -> firstn a (firstn b l) = firstn a l.
Proof. intros. rewrite firstn_firstn. f_equal. lia. Qed.

Lemma slice_firstn : forall k (l : list Z) p n, 0 <= p -> 0 <= n -> p + n <= zlen (firstn k l) ->
  slice (firstn k l) p n = slice l p n.
Proof.
  intros k l p n Hp Hn H. unfold slice, zlen in *. rewrite skipn_firstn_comm.
  apply firstn_firstn_le. rewrite firstn_length in H. lia.
Qed.

Lemma fread_sim : forall k f g n, sim k f g -> 0 <= n ->
  (exists r f' g', fread f n = (r, f') /\ fread g n = (r, g') /\ sim k f' g'
     /\ (r = None -> f' = f /\ g' = g))
  \/ (exists g', fread g n = (None, g') /\ past g').
Proof.
  intros k f g n (D & P & Q) Hn. unfold fread. destruct (Z.eqb_spec n 0).
  { left. exists None, f, g. repeat split; auto. }
  rewrite P.
  assert (L : zlen (f_data g) <= zlen (f_data f)) by (unfold zlen; rewrite D, firstn_length; lia).
  destruct (Z.leb_spec (f_pos f + n) (zlen (f_data g))).
  - left. replace (f_pos f + n <=? zlen (f_data f)) with true by lia.
    exists (Some (slice (f_data f) (f_pos f) n)). do 2 eexists. split; [reflexivity|].
    split; [rewrite D, slice_firstn by (rewrite <- ?D; lia); reflexivity|].
    split; [|discriminate]. unfold sim. cbn. repeat split; auto; lia.
  - right. eexists. split; [reflexivity|]. unfold past. cbn. lia.
Qed.

Lemma fseek_sim : forall k f g off, sim k f g ->
  fst (fseek_cur g off) = fst (fseek_cur f off) /\ sim k (snd (fseek_cur f off)) (snd (fseek_cur g off)).
Proof.
  intros k f g off (D & P & Q). unfold fseek_cur, fseek_to. rewrite P.
  destruct (Z.ltb_spec (f_pos f + off) 0); cbn; unfold sim; cbn; repeat split; auto.
Qed.

Lemma leb128_loop_sim : forall k n i val f g, sim k f g ->
  (exists r f' g', leb128_loop n i val f = (r, f') /\ leb128_loop n i val g = (r, g') /\ sim k f' g')
  \/ (exists g', leb128_loop n i val g = (None, g') /\ past g').
Proof.
  intros k. induction n; intros i val f g S.
  { left. exists None, f, g. auto. }
  cbn [leb128_loop].
  destruct (fread_sim k f g 1 S ltac:(lia)) as [(r & f' & g' & -> & -> & S' & _)|(g' & -> & P)].
  - destruct r as [b|]; [|left; exists None, f', g'; auto].
    destruct (z2b (Z.land (byte0 b) 128) && (i + 1 <? 8)); [apply IHn; exact S'|].
    left. destruct ((UINT_MAX <? Z.lor val (u64 (Z.shiftl (Z.land (byte0 b) 127) (i * 7)))) || z2b (Z.land (byte0 b) 128)); do 3 eexists; eauto.
  - right. exists g'. auto.
Qed.
Lemma leb128_sim : forall k f g, sim k f g ->
  (exists r f' g', leb128 f = (r, f') /\ leb128 g = (r, g') /\ sim k f' g')
  \/ (exists g', leb128 g = (None, g') /\ past g').
Proof. intros. now apply leb128_loop_sim. Qed.

Lemma leb128_range : forall f v res f', leb128 f = (Some (v, res), f') -> 0 <= v <= UINT_MAX /\ 1 <= res <= 8.
Proof.
  assert (G : forall n i val f v res f', leb128_loop n i val f = (Some (v, res), f') ->
    0 <= i <= 8 - Z.of_nat n -> 0 <= val -> 0 <= v <= UINT_MAX /\ 1 <= res <= 8).
  { induction n; intros i val f v res f' E Hi Hv; [discriminate E|].
    cbn [leb128_loop] in E. destruct (fread f 1) as [[b|] f1]; [|discriminate E].
    set (v1 := Z.lor val (u64 (Z.shiftl (Z.land (byte0 b) 127) (i * 7)))) in *.
    assert (0 <= v1).
    { apply Z.lor_nonneg. split; [lia|]. apply u64_range. }
    destruct (z2b (Z.land (byte0 b) 128) && (i + 1 <? 8)).
    - apply IHn in E; [exact E|lia|lia].
    - destruct (Z.ltb_spec UINT_MAX v1); [discriminate E|].
      destruct (z2b (Z.land (byte0 b) 128)); [discriminate E|]. injection E as <- <- _. lia. }
  intros f v res f' E. apply (G 8%nat 0 0 f v res f' E); lia.
Qed.

(** A reader is simulated when on the truncated file it gives the same or ends. *)
Section READS.
Context {S A : Type} (rd : S -> option A * S) (R : S -> S -> Prop) (dead : S -> Prop).
Hypothesis step : forall s t, R s t ->
  (fst (rd t) = fst (rd s) /\ R (snd (rd s)) (snd (rd t))) \/ (fst (rd t) = None /\ dead (snd (rd t))).
Hypothesis stay : forall t, dead t -> fst (rd t) = None /\ dead (snd (rd t)).

Lemma reads_dead : forall n t, dead t -> reads rd n t = repeat None n.
Proof.
  induction n; intros t D; [reflexivity|]. cbn [reads repeat].
  destruct (stay t D) as [-> D']. now rewrite IHn.
Qed.
Lemma reads_sim : forall n s t, R s t ->
  exists m, (m <= n)%nat /\ reads rd n t = firstn m (reads rd n s) ++ repeat None (n - m).
Proof.
  induction n; intros s t H.
  { exists 0%nat. auto. }
  cbn [reads]. destruct (step s t H) as [[E R']|[E D]].
  - destruct (IHn _ _ R') as (m & Hm & Em). exists (Datatypes.S m). split; [lia|].
    rewrite E, Em. reflexivity.
  - exists 0%nat. split; [lia|]. rewrite E, (reads_dead n _ D). reflexivity.
Qed.
End READS.

Section DEMUX.
Variable alloc : Z -> bool.

Definition ab_sim (k : nat) (s t : annexb) : Prop :=
  sim k (ab_f s) (ab_f t) /\ ab_tu t = ab_tu s /\ ab_fu t = ab_fu s.
Definition ab_dead (t : annexb) : Prop := past (ab_f t).

Lemma ab_stay : forall t, ab_dead t -> fst (annexb_read alloc t) = None /\ ab_dead (snd (annexb_read alloc t)).
Proof.
  intros t P. unfold annexb_read, ab_get_tu, ab_dead in *.
  destruct (leb128_past _ P) as (f1 & E1 & P1 & _).
  destruct (ab_tu t =? 0); [rewrite E1; cbn; auto|].
  unfold ab_get_fu. destruct (ab_fu t =? 0); [rewrite E1; cbn; auto|].
  unfold ab_get_obu. rewrite E1; cbn; auto.
Qed.

(** one phase on both files: same outcome, or the truncated one is at its end *)
Definition phase (k : nat) {B} (x : option B * annexb) (y : option B * annexb) : Prop :=
  (fst y = fst x /\ ab_sim k (snd x) (snd y)) \/ (fst y = None /\ ab_dead (snd y)).
Definition phaseb (k : nat) (x y : bool * annexb) : Prop :=
  (fst y = fst x /\ ab_sim k (snd x) (snd y)) \/ (fst y = false /\ ab_dead (snd y)).

Ltac simple_sim := unfold ab_sim; cbn; repeat match goal with |- _ /\ _ => split end; auto; try congruence.

Lemma get_tu_sim : forall k s t, ab_sim k s t -> phaseb k (ab_get_tu s) (ab_get_tu t).
Proof.
  intros k s t (S & T & F). unfold ab_get_tu. rewrite T.
  destruct (ab_tu s =? 0); [|left; cbn; unfold ab_sim; auto].
  destruct (leb128_sim k _ _ S) as [(r & f1 & g1 & -> & -> & S1)|(g1 & -> & P1)].
  - left. destruct r as [[v res]|]; simple_sim.
  - right. cbn. auto.
Qed.
Lemma get_fu_sim : forall k s t, ab_sim k s t -> phaseb k (ab_get_fu s) (ab_get_fu t).
Proof.
  intros k s t (S & T & F). unfold ab_get_fu. rewrite F.
  destruct (ab_fu s =? 0); [|left; cbn; unfold ab_sim; auto].
  destruct (leb128_sim k _ _ S) as [(r & f1 & g1 & -> & -> & S1)|(g1 & -> & P1)].
  - left. rewrite T. destruct r as [[v res]|]; [|simple_sim].
    destruct (ab_tu s <? u64 (v + res)); simple_sim.
  - right. cbn. auto.
Qed.
Lemma get_obu_sim : forall k s t, ab_sim k s t -> phase k (ab_get_obu alloc s) (ab_get_obu alloc t).
Proof.
  intros k s t (S & T & F). unfold ab_get_obu.
  destruct (leb128_sim k _ _ S) as [(r & f1 & g1 & E1 & -> & S1)|(g1 & -> & P1)].
  2: { right. cbn. auto. }
  rewrite E1. destruct r as [[len res]|]; [|left; simple_sim].
  pose proof (leb128_range _ _ _ _ E1) as [RL _].
  rewrite F, T. destruct (ab_fu s <? u64 (len + res)); [left; simple_sim|].
  destruct (negb (alloc len)); [left; simple_sim|].
  destruct (fread_sim k f1 g1 len S1 ltac:(lia)) as [(r & f2 & g2 & -> & -> & S2 & _)|(g2 & -> & P2)].
  - left. simple_sim.
  - right. cbn. auto.
Qed.

Lemma ab_step : forall k s t, ab_sim k s t ->
  (fst (annexb_read alloc t) = fst (annexb_read alloc s) /\ ab_sim k (snd (annexb_read alloc s)) (snd (annexb_read alloc t)))
  \/ (fst (annexb_read alloc t) = None /\ ab_dead (snd (annexb_read alloc t))).
Proof.
  intros k s t H. unfold annexb_read.
  destruct (get_tu_sim k s t H) as [[E1 S1]|[E1 S1]];
    destruct (ab_get_tu s) as [x s1], (ab_get_tu t) as [y t1]; cbn [fst snd] in *; subst y; [|right; auto].
  destruct x; [|left; auto].
  destruct (get_fu_sim k s1 t1 S1) as [[E2 S2]|[E2 S2]];
    destruct (ab_get_fu s1) as [x s2], (ab_get_fu t1) as [y t2]; cbn [fst snd] in *; subst y; [|right; auto].
  destruct x; [|left; auto].
  exact (get_obu_sim k s2 t2 S2).
Qed.

Lemma ab_truncated : forall k c n, 0 <= f_pos (ab_f c) ->
  exists m, (m <= n)%nat /\
  reads (annexb_read alloc) n
    {| ab_f := {| f_data := firstn k (f_data (ab_f c)); f_pos := f_pos (ab_f c); f_eof := f_eof (ab_f c) |};
       ab_tu := ab_tu c; ab_fu := ab_fu c |}
  = firstn m (reads (annexb_read alloc) n c) ++ repeat None (n - m).
Proof.
  intros k c n H.
  apply (reads_sim (annexb_read alloc) (ab_sim k) ab_dead (ab_step k) ab_stay).
  unfold ab_sim, sim. auto.
Qed.

(** ** well-formed Annex B files *)
Definition ab_at (c : annexb) (rest : list Z) (tu fu : Z) : Prop :=
  at_ (ab_f c) rest /\ ab_tu c = tu /\ ab_fu c = fu.

Lemma zl_zlen : forall A (l : list A), zl l = zlen l. Proof. reflexivity. Qed.

Hypothesis alloc_ok : forall n, 0 < n < 2 ^ 32 -> alloc n = true.

Lemma get_obu_ok : forall p lb rest c tu fu, 0 < zlen p -> leb_enc (zlen p) lb ->
  ab_at c (lb ++ p ++ rest) tu fu -> zlen lb + zlen p <= fu -> fu <= tu -> tu < 2 ^ 33 ->
  exists c', ab_get_obu alloc c = (Some p, c')
    /\ ab_at c' rest (tu - (zlen lb + zlen p)) (fu - (zlen lb + zlen p)).
Proof.
  intros p lb rest c tu fu Hp He (A & T & F) H1 H2 H3. unfold ab_get_obu.
  assert (Hlt : zlen p < 2 ^ 32) by apply He.
  pose proof (zlen_nonneg _ lb).
  destruct (leb128_ok _ _ _ _ He A) as (f1 & -> & A1 & _).
  rewrite F, T. rewrite u64_id by lia. replace (fu <? zlen p + zlen lb) with false by lia.
  rewrite alloc_ok by lia. cbn [negb].
  rewrite !u64_id by lia.
  destruct (fread_at f1 p rest (zlen p) A1 eq_refl Hp) as (f2 & -> & A2 & _).
  eexists. split; [reflexivity|]. unfold ab_at; cbn. repeat split; auto; lia.
Qed.

(** reading from inside a frame unit that still holds [ps] *)
Lemma read_in_frame : forall p lb rest c tu fu, 0 < zlen p -> leb_enc (zlen p) lb ->
  ab_at c (lb ++ p ++ rest) tu fu -> zlen lb + zlen p <= fu -> fu <= tu -> tu < 2 ^ 33 ->
  exists c', annexb_read alloc c = (Some p, c')
    /\ ab_at c' rest (tu - (zlen lb + zlen p)) (fu - (zlen lb + zlen p)).
Proof.
  intros p lb rest c tu fu Hp He H H1 H2 H3. unfold annexb_read.
  pose proof (zlen_nonneg _ lb). destruct H as (A & T & F).
  unfold ab_get_tu. rewrite T. replace (tu =? 0) with false by lia.
  unfold ab_get_fu. rewrite F. replace (fu =? 0) with false by lia.
  apply get_obu_ok; auto. unfold ab_at; auto.
Qed.

Definition results (ps : list (list Z)) (n : nat) (more : list (option (list Z))) :=
  map Some ps ++ more.

Lemma read_obus : forall ps body, ab_obus ps body -> forall c rest tu fu,
  ab_at c (body ++ rest) tu fu -> zlen body <= fu -> fu <= tu -> tu < 2 ^ 33 ->
  exists c', ab_at c' rest (tu - zlen body) (fu - zlen body)
   /\ forall n, reads (annexb_read alloc) (length ps + n) c = map Some ps ++ reads (annexb_read alloc) n c'.
Proof.
  induction 1 as [|p lb ps l Hp Hb He Ho IH]; intros c rest tu fu A H1 H2 H3.
  - exists c. rewrite !zlen_nil, !Z.sub_0_r. auto.
  - rewrite !zl_zlen in *. rewrite !zlen_app in *. pose proof (zlen_nonneg _ l). pose proof (zlen_nonneg _ lb).
    rewrite <- !app_assoc in A.
    destruct (read_in_frame p lb (l ++ rest) c tu fu Hp He A ltac:(lia) H2 H3) as (c1 & E1 & A1).
    destruct (IH c1 rest _ _ A1 ltac:(lia) ltac:(lia) ltac:(lia)) as (c2 & A2 & R2).
    exists c2. split.
    + replace (tu - (zlen lb + (zlen p + zlen l))) with (tu - (zlen lb + zlen p) - zlen l) by lia.
      replace (fu - (zlen lb + (zlen p + zlen l))) with (fu - (zlen lb + zlen p) - zlen l) by lia.
      exact A2.
    + intros n. cbn [length Nat.add reads map app]. rewrite E1. cbn [fst snd]. now rewrite R2.
Qed.

(** reading the first OBU of a frame unit behaves as if the header had been read *)
Lemma enter_frame : forall lb v rest c tu, leb_enc v lb -> 0 < v ->
  ab_at c (lb ++ rest) tu 0 -> 0 < tu -> zlen lb + v <= tu -> tu < 2 ^ 33 ->
  exists c', ab_at c' rest (tu - zlen lb) v /\
  forall n, (0 < n)%nat -> reads (annexb_read alloc) n c = reads (annexb_read alloc) n c'.
Proof.
  intros lb v rest c tu He Hv (A & T & F) Ht H H3.
  pose proof (zlen_nonneg _ lb).
  destruct (leb128_ok _ _ _ _ He A) as (f1 & E1 & A1 & _).
  exists {| ab_f := f1; ab_tu := tu - zlen lb; ab_fu := v |}. split; [unfold ab_at; auto|].
  intros [|n] Hn; [lia|]. cbn [reads].
  assert (E : annexb_read alloc c = annexb_read alloc {| ab_f := f1; ab_tu := tu - zlen lb; ab_fu := v |}).
  { unfold annexb_read, ab_get_tu. rewrite T. cbn [ab_tu ab_f ab_fu].
    replace (tu =? 0) with false by lia. replace (tu - zlen lb =? 0) with false by lia.
    unfold ab_get_fu. rewrite F. cbn [ab_tu ab_f ab_fu Z.eqb]. replace (v =? 0) with false by lia.
    rewrite E1, T, u64_id by lia. replace (tu <? v + zlen lb) with false by lia.
    rewrite u64_id by lia. reflexivity. }
  now rewrite E.
Qed.
Lemma enter_tu : forall lb v rest c, leb_enc v lb -> 0 < v ->
  ab_at c (lb ++ rest) 0 0 ->
  exists c', ab_at c' rest v 0 /\
  forall n, (0 < n)%nat -> reads (annexb_read alloc) n c = reads (annexb_read alloc) n c'.
Proof.
  intros lb v rest c He Hv (A & T & F).
  destruct (leb128_ok _ _ _ _ He A) as (f1 & E1 & A1 & _).
  exists {| ab_f := f1; ab_tu := v; ab_fu := 0 |}. split; [unfold ab_at; auto|].
  intros [|n] Hn; [lia|]. cbn [reads].
  assert (E : annexb_read alloc c = annexb_read alloc {| ab_f := f1; ab_tu := v; ab_fu := 0 |}).
  { unfold annexb_read, ab_get_tu. rewrite T. cbn [ab_tu ab_f ab_fu Z.eqb].
    replace (v =? 0) with false by lia. rewrite E1, F. reflexivity. }
  now rewrite E.
Qed.

Lemma obus_pos : forall ps body, ab_obus ps body -> ps <> [] -> 0 < zlen body.
Proof.
  intros ps body H N. inversion H; subst; [congruence|].
  rewrite !zlen_app. pose proof (zlen_nonneg _ lb). pose proof (zlen_nonneg _ l).
  rewrite zl_zlen in *. lia.
Qed.
Lemma frames_pos : forall ps body, ab_frames ps body -> ps <> [] -> 0 < zlen body.
Proof.
  intros ps body H N. inversion H as [|ps0 b0 lb qs l N0 O0 E0 F0]; subst; [congruence|].
  rewrite !zlen_app. pose proof (zlen_nonneg _ lb). pose proof (zlen_nonneg _ l).
  pose proof (obus_pos _ _ O0 N0). lia.
Qed.

Lemma read_frames : forall ps body, ab_frames ps body -> forall c rest tu,
  ab_at c (body ++ rest) tu 0 -> zlen body <= tu -> tu < 2 ^ 33 ->
  exists c', ab_at c' rest (tu - zlen body) 0
   /\ forall n, reads (annexb_read alloc) (length ps + n) c = map Some ps ++ reads (annexb_read alloc) n c'.
Proof.
  induction 1 as [|ps body lb qs l N O E F IH]; intros c rest tu A H1 H3.
  - exists c. rewrite zlen_nil, Z.sub_0_r. auto.
  - rewrite !zl_zlen in *. rewrite !zlen_app in *.
    pose proof (zlen_nonneg _ l). pose proof (zlen_nonneg _ lb). pose proof (obus_pos _ _ O N).
    rewrite <- !app_assoc in A.
    destruct (enter_frame lb (zlen body) (body ++ l ++ rest) c tu E ltac:(lia) A ltac:(lia) ltac:(lia) H3)
      as (c1 & A1 & R1).
    destruct (read_obus ps body O c1 (l ++ rest) _ _ A1 ltac:(lia) ltac:(lia) ltac:(lia)) as (c2 & A2 & R2).
    rewrite Z.sub_diag in A2.
    destruct (IH c2 rest _ A2 ltac:(lia) ltac:(lia)) as (c3 & A3 & R3).
    exists c3. split.
    + replace (tu - (zlen lb + (zlen body + zlen l))) with (tu - zlen lb - zlen body - zlen l) by lia.
      exact A3.
    + intros n. rewrite app_length, <- Nat.add_assoc, map_app, <- app_assoc.
      rewrite R1 by (destruct ps; [congruence|cbn; lia]).
      now rewrite R2, R3.
Qed.

Lemma read_file : forall k ps l, ab_file k ps l -> forall c rest,
  ab_at c (l ++ rest) 0 0 ->
  exists c', ab_at c' rest 0 0
   /\ forall n, reads (annexb_read alloc) (length ps + n) c = map Some ps ++ reads (annexb_read alloc) n c'.
Proof.
  induction 1 as [|k ps body lb qs l N F E G IH]; intros c rest A.
  - exists c. auto.
  - rewrite !zl_zlen in *. rewrite <- !app_assoc in A.
    pose proof (frames_pos _ _ F N).
    destruct (enter_tu lb (zlen body) (body ++ l ++ rest) c E ltac:(lia) A) as (c1 & A1 & R1).
    assert (zlen body < 2 ^ 32) by apply E.
    destruct (read_frames ps body F c1 (l ++ rest) _ A1 ltac:(lia) ltac:(lia)) as (c2 & A2 & R2).
    rewrite Z.sub_diag in A2.
    destruct (IH c2 rest A2) as (c3 & A3 & R3).
    exists c3. split; [exact A3|].
    intros n. rewrite app_length, <- Nat.add_assoc, map_app, <- app_assoc.
    rewrite R1 by (destruct ps; [congruence|cbn; lia]).
    now rewrite R2, R3.
Qed.

Lemma annexb_roundtrip : forall k ps l n, ab_file k ps l ->
  reads (annexb_read alloc) (length ps + n) {| ab_f := fopen l; ab_tu := 0; ab_fu := 0 |}
  = map Some ps ++ repeat None n.
Proof.
  intros k ps l n H.
  destruct (read_file k ps l H {| ab_f := fopen l; ab_tu := 0; ab_fu := 0 |} []) as (c' & (A & _) & R).
  { rewrite app_nil_r. unfold ab_at. cbn. auto using fopen_at. }
  rewrite R. f_equal. apply (reads_dead _ ab_dead ab_stay). apply past_at. exact A.
Qed.

End DEMUX.

Lemma ab_count_ok : forall k ps l, ab_file k ps l -> forall fuel m f rest,
  (k < fuel)%nat -> at_ f (l ++ rest) -> rest = [] -> 0 <= m -> m + Z.of_nat k < 2 ^ 32 ->
  ab_count fuel m f = Ok (m + Z.of_nat k).
Proof.
  induction 1 as [|k ps body lb qs l N F E G IH]; intros fuel m f rest Hf A HR Hm Hk; (destruct fuel; [lia|]);
    cbn [ab_count]; subst rest; rewrite app_nil_r in A.
  - destruct (leb128_past f (past_at _ A)) as (f' & -> & _). f_equal. lia.
  - rewrite !zl_zlen in *.
    destruct (leb128_ok _ _ _ _ E A) as (f1 & -> & A1 & _).
    destruct (fseek_at f1 body l (zlen body) A1 eq_refl) as (f2 & -> & A2 & _). cbn [snd].
    rewrite u32_id by lia. rewrite (IH fuel (m + 1) f2 []); try lia; auto.
    + f_equal. lia.
    + now rewrite app_nil_r.
Qed.

Lemma ab_file_length : forall k ps l, ab_file k ps l -> (k <= length l)%nat.
Proof.
  induction 1; [cbn; lia|]. rewrite !app_length.
  destruct H1 as (F & _). apply leb_form_nonempty in F. unfold zlen in F. lia.
Qed.

(** Film grain parameters read from a frame header, and pictures that need no synthesis. *)
From Coq Require Import ZArith List Bool Lia.
From Verif Require Import Base.CInt Base.Lemmas Base.Loop GetBits.Spec GetBits.Proofs GetBits.SpecProg Obu.SeqRel Obu.FrameModel Obu.FrameRel Obu.FrameHist.
From Verif Require Import Grain.Model Grain.Spec Grain.Arith Grain.Templates Grain.Templates2 Grain.Apply.
Import ListNotations.
Open Scope Z_scope.

Section Coded.
Variable b : Z -> Z.
Hypothesis Hb : forall i, 0 <= b i <= 1.

Lemma srun_f : forall n p x q, 0 <= n -> srun (f n) b p = (Some x, q) -> 0 <= x < 2 ^ n.
Proof. intros n p x q Hn H. cbn [srun f] in H. injection H as <- _. apply f_n_range; auto. Qed.
Lemma times_f : forall n p l q, srun (F.times n (f 8)) b p = (Some l, q) -> length l = n /\ Forall (fun c => 0 <= c <= 255) l.
Proof.
  induction n as [|n IH]; intros p l q H; cbn [F.times] in H.
  - apply srun_ret in H. subst. auto.
  - sinv H. sinv H. apply srun_ret in H. subst. apply srun_f in E; [|lia]. apply IH in E0. destruct E0 as (L & F).
    split; [cbn [length]; lia|]. constructor; [change (2 ^ 8) with 256 in *; lia|exact F].
Qed.
Lemma points_coded : forall n prev p l q, srun (F.points n prev) b p = (Some l, q) ->
  length l = n /\ Forall (fun e => 0 <= fst e <= 255 /\ 0 <= snd e <= 255) l /\
  (forall i j, (i < j < length l)%nat -> fst (nth i l (0, 0)) < fst (nth j l (0, 0))) /\
  (forall v i, prev = Some v -> (i < length l)%nat -> v < fst (nth i l (0, 0))).
Proof.
  induction n as [|n IH]; intros prev p l q H; cbn [F.points] in H.
  - apply srun_ret in H. subst. repeat split; auto; cbn [length]; intros; lia.
  - sinv H. sinv H. sinv H. sinv H. apply srun_ret in H. subst l. apply srun_f in E; [|lia]. apply srun_f in E1; [|lia].
    apply srun_require in E0. change (2 ^ 8) with 256 in *. apply IH in E2. destruct E2 as (L & F & O & P).
    split; [cbn [length]; lia|]. split; [constructor; [cbn; lia|exact F]|]. split.
    + intros i j Hij. cbn [length] in Hij. destruct j as [|j]; [lia|]. destruct i as [|i]; cbn [nth fst].
      * apply P; [reflexivity|lia].
      * apply O. lia.
    + intros v i -> Hi. cbn [length] in Hi. destruct i as [|i]; cbn [nth fst]; [lia|]. pose proof (P x i eq_refl ltac:(lia)). lia.
Qed.
Lemma points_ok : forall n k p l q, Z.of_nat n <= k -> srun (F.points n None) b p = (Some l, q) -> coded_points k l.
Proof.
  intros n k p l q Hk H. apply points_coded in H. destruct H as (L & F & O & _). unfold coded_points, num_points. rewrite L. split; [lia|]. split.
  - intros i Hi. rewrite Forall_forall in F. apply F. apply nth_In. lia.
  - intros i j Hi Hj. apply O. lia.
Qed.
Lemma coeffs_ok : forall n p l q, 0 <= n -> srun (F.times (Z.to_nat n) (f 8)) b p = (Some l, q) -> coded_coeffs n l.
Proof.
  intros n p l q Hn H. apply times_f in H. destruct H as (L & F). split; [lia|]. intros i Hi. rewrite Forall_forall in F. apply F. apply nth_In. lia.
Qed.
Lemma mult_ok : forall c p o q, srun (F.mult_params c) b p = (Some o, q) -> coded_params o.
Proof.
  intros [|] p o q H; unfold F.mult_params in H; [|apply srun_ret in H; subst; exact I].
  sinv H. sinv H. sinv H. apply srun_ret in H. subst o. apply srun_f in E; [|lia]. apply srun_f in E0; [|lia]. apply srun_f in E1; [|lia].
  change (2 ^ 8) with 256 in *. change (2 ^ 9) with 512 in *. cbn. lia.
Qed.
Lemma nonempty_num : forall l : list (Z * Z), F.nonempty l = (0 <? num_points l).
Proof. destruct l; [reflexivity|]. unfold num_points. cbn [length F.nonempty]. symmetry. apply Z.ltb_lt. lia. Qed.

(** Everything the syntax of film_grain_params() guarantees. *)
Theorem grain_data_coded : forall ss seed p s q, 0 <= seed < 65536 -> srun (F.grain_data ss seed) b p = (Some s, q) ->
  coded_grain s (S.mono_chrome (S.color_ ss) =? 1).
Proof.
  intros ss seed p s q Hs H. unfold F.grain_data in H. cbv zeta in H.
  apply srun_bind in H. destruct H as (ny & p1 & E1 & H). apply srun_f in E1; [|lia]. change (2 ^ 4) with 16 in *.
  apply srun_bind in H. destruct H as (? & p2 & E2 & H). apply srun_require in E2.
  apply srun_bind in H. destruct H as (py & p3 & E3 & H). apply (points_ok _ 14) in E3; [|lia].
  apply srun_bind in H. destruct H as (cfl & p4 & E4 & H).
  apply srun_bind in H. destruct H as ((pcb & pcr) & p5 & E5 & H).
  apply srun_bind in H. destruct H as (? & p6 & E6 & H). clear E6.
  apply srun_bind in H. destruct H as (scal & p7 & E7 & H). apply srun_f in E7; [|lia].
  apply srun_bind in H. destruct H as (lag & p8 & E8 & H). apply srun_f in E8; [|lia].
  apply srun_bind in H. destruct H as (cy & p9 & E9 & H).
  apply srun_bind in H. destruct H as (ccb & p10 & E10 & H).
  apply srun_bind in H. destruct H as (ccr & p11 & E11 & H).
  apply srun_bind in H. destruct H as (shift & p12 & E12 & H). apply srun_f in E12; [|lia].
  apply srun_bind in H. destruct H as (gss & p13 & E13 & H). apply srun_f in E13; [|lia].
  apply srun_bind in H. destruct H as (cb & p14 & E14 & H). apply mult_ok in E14.
  apply srun_bind in H. destruct H as (cr & p15 & E15 & H). apply mult_ok in E15.
  apply srun_bind in H. destruct H as (ov & p16 & E16 & H). apply srun_f in E16; [|lia].
  apply srun_bind in H. destruct H as (cl & p17 & E17 & H). apply srun_f in E17; [|lia].
  change (2 ^ 2) with 4 in *. change (2 ^ 1) with 2 in *. apply srun_ret in H. subst s.
  assert (C4 : 0 <= cfl <= 1 /\ (S.mono_chrome (S.color_ ss) =? 1 = true -> cfl = 0)).
  { destruct (S.mono_chrome (S.color_ ss) =? 1).
    - apply srun_ret in E4. subst. lia.
    - apply srun_f in E4; [|lia]. change (2 ^ 1) with 2 in *. split; [lia|discriminate]. }
  assert (C5 : coded_points 10 pcb /\ coded_points 10 pcr /\ (S.mono_chrome (S.color_ ss) =? 1 = true \/ cfl = 1 -> pcb = [] /\ pcr = [])).
  { assert (N : coded_points 10 []) by (unfold coded_points, num_points; cbn [length]; repeat split; intros; lia).
    match type of E5 with srun (if ?c then _ else _) _ _ = _ => destruct c eqn:EC end.
    - apply srun_ret in E5. injection E5 as <- <-. auto.
    - sinv E5. sinv E5. sinv E5. sinv E5. sinv E5. sinv E5. apply srun_ret in E5. injection E5 as <- <-.
      repeat match goal with E : srun (f 4) _ _ = _ |- _ => apply srun_f in E; [|lia] end. change (2 ^ 4) with 16 in *.
      repeat match goal with E : srun (require _) _ _ = _ |- _ => apply srun_require in E end.
      repeat match goal with E : srun (F.points _ _) _ _ = _ |- _ => apply (points_ok _ 10) in E; [|lia] end.
      split; [assumption|]. split; [assumption|]. apply orb_false_iff in EC. destruct EC as (EC & _). apply orb_false_iff in EC.
      destruct EC as (EA & EB). intros [Q|Q]; [congruence|]. rewrite Q in EB. discriminate. }
  rewrite !nonempty_num in *.
  assert (LP : 0 <= 2 * lag * (lag + 1)) by nia.
  assert (CC : forall pts pa l qa, srun (if (cfl =? 1) || (0 <? num_points pts) then
        F.times (Z.to_nat (if 0 <? num_points py then 2 * lag * (lag + 1) + 1 else 2 * lag * (lag + 1))) (f 8) else SRet []) b pa = (Some l, qa) ->
      0 < num_points pts \/ cfl = 1 -> coded_coeffs (if 0 <? num_points py then 2 * lag * (lag + 1) + 1 else 2 * lag * (lag + 1)) l).
  { intros pts pa l qa E Q. replace ((cfl =? 1) || (0 <? num_points pts)) with true in E.
    - apply coeffs_ok in E; [exact E|]. destruct (0 <? num_points py); lia.
    - symmetry. destruct Q as [Q|Q]; [apply orb_true_intro; right; lia|rewrite Q; reflexivity]. }
  unfold coded_grain. cbn. destruct C4 as (C4a & C4b). destruct C5 as (C5a & C5b & C5c).
  assert (CY : 0 < num_points py -> coded_coeffs (2 * lag * (lag + 1)) cy).
  { intros Q. replace (0 <? num_points py) with true in E9 by (symmetry; apply Z.ltb_lt; exact Q). apply (coeffs_ok _ _ _ _ LP) in E9. exact E9. }
  repeat (apply conj; [solve [assumption|lia|eauto]|]). exact C4b.
Qed.
End Coded.

(** * Pictures without grain: lib.c:301-307 has_grain, and its use in output_image (lib.c:315) *)
Definition has_grain (d : fgdata) : bool :=
  has_y d || has_u d || has_v d || (z2b (fg_clip_to_restricted_range d) && csfl d).

Theorem no_grain_ok : forall v d s, bdok (BitDepth v) -> params_ok d s (monochrome v) -> has_grain d = false ->
  forall inY inU inV y x, OutY v s inY y x = inY y x /\
    (0 <= inU y x < 2 ^ BitDepth v -> OutU v s inY inU y x = inU y x) /\
    (0 <= inV y x < 2 ^ BitDepth v -> OutV v s inY inV y x = inV y x).
Proof.
  intros v d s HB HP HG inY inU inV y x. unfold has_grain in HG.
  apply orb_false_iff in HG. destruct HG as (HG & H4). apply orb_false_iff in HG. destruct HG as (HG & H3).
  apply orb_false_iff in HG. destruct HG as (H1 & H2).
  destruct (rel_fields v d s HP) as (ECF & EU & EV & ECL & ESS & SS & _).
  rewrite (has_y_points v d s HP) in H1. rewrite EU in H2. rewrite EV in H3. rewrite ECF, ECL in H4.
  assert (NP : F.point_y s = []) by (destruct (F.point_y s); [reflexivity|unfold num_points in H1; cbn [length] in H1; lia]).
  split; [unfold OutY; rewrite H1; reflexivity|].
  assert (OC : forall pts Grain params inC, (0 <? num_points pts) = false -> 0 <= inC y x < 2 ^ BitDepth v ->
    out_chroma v s pts Grain params inY inC y x = inC y x).
  { intros pts Grain params inC EP HR. unfold out_chroma. rewrite EP. cbn [orb]. destruct (F.chroma_scaling_from_luma s =? 1) eqn:EC; [|reflexivity].
    rewrite andb_true_r in H4. cbv zeta.
    assert (SL : forall i, scale_lut v (F.point_y s) i = 0).
    { intros i. unfold scale_lut. rewrite NP. cbn [ScalingLut]. cbv zeta. destruct ((BitDepth v =? 8) || _); [reflexivity|].
      unfold Round2. destruct (Z.eqb_spec (BitDepth v - 8) 0) as [|Ne]; [reflexivity|]. cbn [Z.sub Z.mul Z.opp Z.add]. rewrite Z.div_small; [reflexivity|].
      split; [apply Z.pow_nonneg; lia|apply Z.pow_lt_mono_r; pose proof (bdok_8 _ HB); lia]. }
    rewrite SL, Z.mul_0_l. unfold Round2. replace (ScalingShift s =? 0) with false by lia. rewrite Z.add_0_l.
    rewrite (Z.div_small (2 ^ (ScalingShift s - 1))) by (split; [apply Z.pow_nonneg; lia|apply Z.pow_lt_mono_r; lia]).
    rewrite Z.add_0_r. unfold minValue, maxChroma, Clip3. rewrite H4.
    replace (256 * 2 ^ (BitDepth v - 8)) with (2 ^ BitDepth v) by (change 256 with (2 ^ 8); rewrite <- Z.pow_add_r by (pose proof (bdok_8 _ HB); lia); f_equal; lia).
    destruct (Z.ltb_spec (inC y x) 0); [lia|]. destruct (Z.ltb_spec (2 ^ BitDepth v - 1) (inC y x)); lia. }
  split; intros HR; apply OC; assumption.
Qed.

(** * Accepted frame headers *)
Lemma grain_explicit : forall ss refs g ridx b pos fg p, (forall i, 0 <= b i <= 1) ->
  srun (F.film_grain_params ss refs g ridx) b pos = (Some (1, 1, fg), p) ->
  exists s, fg = Some s /\ coded_grain s (S.mono_chrome (S.color_ ss) =? 1).
Proof.
  intros ss refs g ridx b pos fg p Hb H. unfold F.film_grain_params in H.
  destruct ((S.film_grain_params_present ss =? 0) || _); [apply srun_ret in H; congruence|].
  sinv H. destruct (x =? 0); [apply srun_ret in H; congruence|].
  sinv H. sinv H. destruct (x1 =? 0).
  - sinv H. sinv H. sinv H. apply srun_ret in H. congruence.
  - sinv H. apply srun_ret in H. injection H as <-. eexists. split; [reflexivity|].
    apply (srun_f b Hb) in E0; [|lia]. change (2 ^ 16) with 65536 in E0. exact (grain_data_coded b Hb ss x0 _ _ _ E0 E2).
Qed.

Section Header.
Variables (sh : SeqModel.seq_hdr) (ss : S.sequence_header) (refs : refs_t) (srefs : F.slots) (strict : bool) (tid sid : Z)
  (buf : list Z) (pos : Z) (c : GetBits.Model.gb) (h : frame_hdr) (c' : GetBits.Model.gb).
Hypothesis (HR : seq_rel sh ss) (HW : seq_wf sh) (HH : history refs srefs) (H2 : 0 <= tid) (H3 : 0 <= sid)
  (H4 : AtPos.at_pos buf pos c) (H5 : pos + 15200 <= 8 * zlen buf + 2 ^ 31)
  (HE : GetBits.Model.exec (parse_frame_hdr sh refs strict tid sid) c = Ok (inl h, c')) (HS : show_existing_frame h = 0).

Lemma header_params : fg_present h = 1 -> fg_update h = 1 ->
  exists s, params_ok (f_fg h) s (SeqModel.monochrome (SeqModel.sh_color sh) =? 1).
Proof.
  intros HP HU.
  destruct (accepted sh ss refs srefs strict tid sid buf pos c h c' HR HW HH H2 H3 H4 H5 HE HS) as (s & p' & E & R & W).
  pose proof (coded_parts _ _ _ _ _ _ _ _ _ E) as (_ & p1 & p2 & EG).
  destruct R as (_ & _ & RR & _ & _ & _ & _ & _ & _ & _ & _ & _ & _ & _ & _ & _ & _ & _ & _ & _ & _ & _ & FP & FU & FG).
  rewrite <- FP, <- FU, HP, HU in EG. apply grain_explicit in EG; [|apply stream_bit_range].
  destruct EG as (g & Eg & C). exists g. rewrite Eg in FG. split; [exact FG|]. split; [apply W|].
  assert (Em : SeqModel.monochrome (SeqModel.sh_color sh) = S.mono_chrome (S.color_ ss)) by apply HR. rewrite Em. exact C.
Qed.
End Header.

(** Parameters taken from a reference differ in the seed only. *)
Lemma seed_params : forall d s m seed, params_ok d s m -> 0 <= seed < 65536 -> params_ok (with_seed d seed) (F.set_seed s seed) m.
Proof.
  intros d s m seed (R & W & C) Hs. cbn [fg_rel] in R. split; [|split].
  - cbn [fg_rel]. unfold with_seed, F.set_seed. cbn. destruct R as (_ & R). split; [reflexivity|exact R].
  - assert (Z : fg_zero d -> fg_zero (with_seed d seed)) by (unfold fg_zero; intros Q; rewrite Q; reflexivity).
    unfold fg_wf in *. destruct W as (_ & W2 & W3 & W4 & W5 & W6 & W7 & W8 & W9 & W10 & W11 & W12 & W13 & W14 & W). split; [exact Hs|].
    repeat (apply conj; [solve [assumption|tauto]|]). apply W.
  - unfold coded_grain in *. cbn. cbv zeta in C. destruct C as (_ & C). split; [exact Hs|exact C].
Qed.

Lemma points_coded_wf : forall n l, points_wf l -> num_points l <= n -> coded_points n l.
Proof.
  intros n l W Hn. destruct (points_explicit _ W) as (F & O). split; [exact Hn|]. unfold num_points. split.
  - intros i Hi. rewrite Forall_forall in F. apply F. apply nth_In. lia.
  - intros i j Hi Hj. apply O. lia.
Qed.
Lemma coeffs_coded : forall n l, Forall (fun c => 0 <= c <= 255) l -> Z.of_nat (length l) = n -> coded_coeffs n l.
Proof. intros n l F E. split; [exact E|]. intros i Hi. rewrite Forall_forall in F. apply F. apply nth_In. lia. Qed.

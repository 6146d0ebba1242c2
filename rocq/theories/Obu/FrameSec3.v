(** Frame header sections: global motion and film grain. *)
From Coq Require Import ZArith List Bool Lia.
From Verif Require Import Base.CInt Base.Lemmas Base.Finite GetBits.Model GetBits.Spec GetBits.Abstract
  GetBits.Proofs GetBits.SpecProg GetBits.Sim GetBits.VarLen GetBits.Reads Obu.SimTac Obu.SeqModel Obu.SeqRel
  Obu.FrameModel Obu.FrameRel Obu.FrameSec Obu.FrameSec2.
Import ListNotations.
Open Scope Z_scope.

(** A final computation on the specification side. *)
Lemma sim_map_r : forall A B C N (p : rd A) (q : sp B) (g : B -> C) (S : A -> B -> Prop) (R : A -> C -> Prop),
  sim N p q S -> (forall x y, S x y -> R x (g y)) -> sim N p (sbind q (fun y => SRet (g y))) R.
Proof.
  intros A B C N p q g S R H HR s a Hs Ha Hb. specialize (H s a Hs Ha Hb). rewrite srun_bind.
  destruct (srun q (st_bit s) (a_pos a)) as [[b|] pos']; cbn [srun]; [|exact H].
  destruct H as (P & x & E & RR). split; [exact P|]. exists x. auto.
Qed.

(** * Global motion *)
(** One alpha parameter: indices 2 to 5. *)
Lemma sim_alpha : forall type hpv idx prev x N, 2 <= idx <= 5 -> 96 <= N ->
  let one := if idx mod 3 =? 2 then 65536 else 0 in
  x = Z.shiftr (prev - one) 1 -> - 2 ^ 13 <= prev - one <= 2 ^ 13 ->
  sim N (get_bits_subexp x 12) (F.read_global_param type hpv idx prev)
    (fun a v => v = 2 * a + one /\ - 2 ^ 12 <= a <= 2 ^ 12).
Proof.
  intros type hpv idx prev x N Hi HN one -> HP. unfold F.read_global_param.
  replace (idx <? 2) with false by lia. cbv zeta. change (16 - 15) with 1. change (2 ^ 1) with 2.
  rewrite shiftr_div by lia. change (2 ^ 1) with 2. fold (2 ^ 15).
  assert (E : prev / 2 - (if idx mod 3 =? 2 then 2 ^ 15 else 0) = (prev - one) / 2).
  { unfold one. destruct (idx mod 3 =? 2); change (2 ^ 15) with 32768; lia. }
  rewrite E. fold one. change (2 ^ 16) with 65536. fold one. clearbody one. clear E.
  assert (HP' : -4096 <= (prev - one) / 2 <= 4096) by (change (2 ^ 13) with 8192 in HP; clear - HP; lia).
  eapply sim_map_r; [apply sim_subexp; [lia|exact HP'|lia]|].
  cbv beta. intros a y (-> & Hy). split; [lia|exact Hy].
Qed.

(** A translation parameter: indices 0 and 1. *)
Lemma sim_trans : forall type hpv idx prev b sh N, 0 <= idx <= 1 -> 96 <= N -> 0 <= hpv <= 1 ->
  b = (if type =? F.TRANSLATION then 9 - (1 - hpv) else 12) ->
  sh = (if type =? F.TRANSLATION then 13 + (1 - hpv) else 10) ->
  - 2 ^ 22 <= prev <= 2 ^ 22 ->
  sim N (get_bits_subexp (Z.shiftr prev sh) b) (F.read_global_param type hpv idx prev)
    (fun a v => v = a * Z.shiftl 1 sh /\ - 2 ^ 22 <= v <= 2 ^ 22).
Proof.
  intros type hpv idx prev b sh N Hi HN Hh Eb Es HP. unfold F.read_global_param.
  replace (idx <? 2) with true by lia. replace (idx mod 3 =? 2) with false by lia. cbv zeta.
  replace (16 - (if type =? F.TRANSLATION then 3 - (1 - hpv) else 6)) with sh
    by (rewrite Es; destruct (_ =? _); lia).
  rewrite <- Eb, Z.sub_0_r.
  assert (D : b = 12 /\ sh = 10 \/ b = 9 /\ sh = 13 \/ b = 8 /\ sh = 14).
  { rewrite Eb, Es. destruct (_ =? _); lia. }
  rewrite shiftr_div, shiftl_mul, Z.mul_1_l by lia. change (2 ^ 22) with 4194304 in *.
  eapply sim_map_r; [apply sim_subexp; try lia|].
  - destruct D as [[-> ->]|[[-> ->]|[-> ->]]];
    [change (2 ^ 12) with 4096; change (2 ^ 10) with 1024
    |change (2 ^ 9) with 512; change (2 ^ 13) with 8192
    |change (2 ^ 8) with 256; change (2 ^ 14) with 16384]; lia.
  - cbv beta. intros a y (-> & Hy). split; [lia|]. revert Hy.
    destruct D as [[-> ->]|[[-> ->]|[-> ->]]];
    [change (2 ^ 12) with 4096; change (2 ^ 10) with 1024
    |change (2 ^ 9) with 512; change (2 ^ 13) with 8192
    |change (2 ^ 8) with 256; change (2 ^ 14) with 16384]; lia.
Qed.

Definition gm_hyps (p : fprefix) (g : F.general) (r : frefs) (rf : F.references) : Prop :=
  pri_ok p g (refidx r) (F.ref_frame_idx rf) /\ hp r = F.allow_high_precision_mv rf /\ 0 <= hp r <= 1.

Lemma default_gm_ok : gm_ok [0; 0; 65536; 0; 0; 65536].
Proof. cbn. lia. Qed.

Lemma sim_gmv1 : forall p g r rf refs srefs i N, gm_hyps p g r rf -> slots_rel refs srefs -> (i < 7)%nat -> 600 <= N ->
  sim N (parse_gmv1 refs p r i) (F.global_param srefs g rf i) (fun x y => gm_rel x y /\ gm_wf x).
Proof.
  intros p g r rf refs srefs i N (HP & EH & WH) HS Hi HN. unfold parse_gmv1, F.global_param.
  assert (FIN : forall type a b c d e f, 0 <= type <= 3 -> gm_ok [a; b; c; d; e; f] ->
    gm_rel (mkGmv type [a; b; c; d; e; f]) (type, [a; b; c; d; e; f]) /\ gm_wf (mkGmv type [a; b; c; d; e; f])).
  { intros. split; [split; reflexivity|split; auto]. }
  rd1 b0. flag b0.
  { apply sim_let. cbn [WM_IDENTITY Z.eqb]. sret. apply (FIN 0); [lia|apply default_gm_ok]. }
  apply rbind_assoc_sim. rd1 b1.
  bnd 1 (fun x y => x = y /\ 1 <= x <= 3).
  { flag b1.
    - rd1 b2. sret. flag b2; unfold WM_TRANSLATION, WM_AFFINE, F.TRANSLATION, F.AFFINE; lia.
    - sret. unfold WM_ROT_ZOOM, F.ROTZOOM. lia. }
  intros type ? (<- & Ht). replace (type =? WM_IDENTITY) with false by (unfold WM_IDENTITY; lia).
  bnd 0 (fun rm prev => gm_mat rm = prev /\ gm_ok prev).
  { pose proof HP as (EP & _). rewrite prn_eq, EP.
    destruct (Z.eqb_spec (F.primary_ref_frame g) F.PRIMARY_REF_NONE).
    - sret. split; [reflexivity|apply default_gm_ok].
    - eapply sim_pri; eauto; [unfold PRIMARY_REF_NONE, F.PRIMARY_REF_NONE in *; lia|lia|].
      intros h s S1 S2. cbv beta.
      destruct S2 as (_ & _ & _ & _ & L & W & _).
      destruct S1 as (_ & _ & _ & _ & _ & _ & _ & _ & _ & M & _).
      rewrite (rd_at_nth _ (f_gmv h) _ default_wm) by (unfold zlen; lia). cbn [lift]. sret.
      rewrite Nat2Z.id. rewrite <- M. split.
      + rewrite nth_indep with (d' := gm_mat default_wm) by (rewrite map_length; lia).
        rewrite map_nth. reflexivity.
      + rewrite nth_indep with (d' := gm_mat default_wm) by (rewrite map_length; lia).
        rewrite map_nth. apply (Forall_nth (fun g => gm_wf g) (f_gmv h)); auto; lia. }
  intros rm prev (EM & OK). unfold mat_at. rewrite EM. clear EM HP HS.
  destruct prev as [|q0 [|q1 [|q2 [|q3 [|q4 [|q5 [|]]]]]]]; cbn [gm_ok] in OK; try tauto.
  destruct OK as (Q0 & Q1 & Q2 & Q3 & Q4 & Q5).
  change (Z.to_nat 0) with 0%nat. change (Z.to_nat 1) with 1%nat. change (Z.to_nat 2) with 2%nat.
  change (Z.to_nat 3) with 3%nat. change (Z.to_nat 4) with 4%nat. change (Z.to_nat 5) with 5%nat. cbn [nth].
  rewrite EH in *. set (hpv := F.allow_high_precision_mv rf) in *. clearbody hpv.
  bnd 192 (fun (x : Z * Z * Z * Z) (y : Z * Z) => let '(m2, m3, b, sh) := x in y = (m2, m3) /\
     - 2 ^ 13 <= m2 - 2 ^ 16 <= 2 ^ 13 /\ - 2 ^ 13 <= m3 <= 2 ^ 13 /\
     b = (if type =? F.TRANSLATION then 9 - (1 - hpv) else 12) /\
     sh = (if type =? F.TRANSLATION then 13 + (1 - hpv) else 10)).
  { change (2 ^ 13) with 8192 in *. change (2 ^ 16) with 65536 in *.
    unfold WM_ROT_ZOOM, F.ROTZOOM. destruct (Z.leb_spec 2 type).
    - eapply sim_bind with (N1 := 96); [apply sim_alpha; [lia|lia|reflexivity|exact Q2]| |lia].
      cbv beta. intros a v (-> & Ha). change (2 mod 3 =? 2) with true.
      eapply sim_bind with (N1 := 96); [apply sim_alpha; [lia|lia| |]| |lia];
        change (3 mod 3 =? 2) with false; cbv iota; rewrite ?Z.sub_0_r; [reflexivity|exact Q3|].
      intros b v (-> & Hb). sret. change (2 ^ 12) with 4096 in *.
      replace (type =? F.TRANSLATION) with false by (unfold F.TRANSLATION; lia).
      conj; try lia. f_equal; lia.
    - sret. replace (type =? F.TRANSLATION) with true by (unfold F.TRANSLATION; lia).
      flag hpv; cbn [b2z]; conj; auto; lia. }
  intros [[[m2 m3] b_] sh] [? ?] (E & M2 & M3 & Eb & Es). injection E as -> ->.
  bnd 192 (fun x y : Z * Z => x = y /\ - 2 ^ 13 <= fst x <= 2 ^ 13 /\ - 2 ^ 13 <= snd x - 2 ^ 16 <= 2 ^ 13).
  { change (2 ^ 13) with 8192 in *. change (2 ^ 16) with 65536 in *.
    unfold WM_AFFINE, F.AFFINE. destruct (Z.eqb_spec type 3).
    - eapply sim_bind with (N1 := 96); [apply sim_alpha; [lia|lia| |]| |lia];
        change (4 mod 3 =? 2) with false; cbv iota; rewrite ?Z.sub_0_r; [reflexivity|exact Q4|].
      cbv beta. intros a v (-> & Ha).
      eapply sim_bind with (N1 := 96); [apply sim_alpha; [lia|lia|reflexivity|exact Q5]| |lia].
      cbv beta. intros b v (-> & Hb). change (5 mod 3 =? 2) with true. sret. change (2 ^ 12) with 4096 in *.
      cbn [fst snd]. conj; try lia. f_equal; lia.
    - sret. cbn [fst snd]. conj; auto; lia. }
  intros [m4 m5] ? (<- & M4 & M5). cbn [fst snd] in M4, M5.
  eapply sim_bind with (N1 := 96); [apply sim_trans; auto; lia| |lia].
  intros a v (-> & Ha).
  eapply sim_bind with (N1 := 96); [apply sim_trans; auto; lia| |lia].
  intros b v (-> & Hb). sret. apply FIN; [lia|]. cbn [gm_ok]. auto 10.
Qed.

Lemma sim_gmvs : forall p g r rf refs srefs n i N, gm_hyps p g r rf -> slots_rel refs srefs -> (i + n <= 7)%nat ->
  600 * Z.of_nat n <= N ->
  sim N (parse_gmvs refs p r n i) (F.global_params_from srefs g rf n i)
    (fun x y => Forall2 gm_rel x y /\ Forall gm_wf x /\ length x = n).
Proof.
  induction n; intros i N HG HS Hi HN; cbn [parse_gmvs F.global_params_from].
  - sret. auto.
  - eapply sim_bind with (N1 := 600); [apply sim_gmv1; auto; lia| |lia].
    intros x y (R & W).
    eapply sim_bind with (N1 := 600 * Z.of_nat n); [apply IHn; auto; lia| |lia].
    intros xs ys (R2 & W2 & L). sret. cbn [length]. auto.
Qed.

Lemma sim_gm : forall p g r rf refs srefs N, prefix_rel p g -> prefix_wf p ->
  gm_hyps p g r rf -> slots_rel refs srefs -> 4200 <= N ->
  sim N (if is_inter_or_switch (frame_type p) then parse_gmvs refs p r 7 0 else Ret (repeat default_wm 7))
    (F.global_motion_params srefs g rf) (fun x y => Forall2 gm_rel x y /\ Forall gm_wf x /\ length x = 7%nat).
Proof.
  intros p g r rf refs srefs N HP WP HG HS HN. unfold F.global_motion_params.
  assert (EF : frame_type p = F.frame_type g) by apply HP.
  assert (WF : 0 <= frame_type p <= 3) by apply WP.
  pose proof (intra_spec _ WF) as EI. unfold intra_eq in EI. rewrite <- EF, EI.
  destruct (F.FrameIsIntra (frame_type p)); cbn [negb].
  - sret. cbn [repeat]. conj; [| |reflexivity].
    + repeat constructor.
    + cbn [repeat]. assert (W : gm_wf default_wm) by (split; [change (0 <= 0 <= 3); lia|apply default_gm_ok]). repeat (constructor; [exact W|]). constructor.
  - apply sim_gmvs; auto; lia.
Qed.

(** * Film grain *)
Definition above (prev : option Z) (l : list (Z * Z)) : Prop :=
  match prev, l with Some p, x :: _ => p < fst x | _, _ => True end.
Lemma sim_points : forall n i prev o max N, 0 <= i -> i + Z.of_nat n <= max -> 16 * Z.of_nat n <= N ->
  (if z2b i then o = Some prev else o = None) ->
  sim N (parse_points n i prev max) (F.points n o)
    (fun x y => x = y /\ length x = n /\ points_wf x /\ above o x).
Proof.
  induction n; intros i prev o max N Hi HM HN HO; cbn [parse_points F.points].
  - sret. cbn. conj; auto. destruct o; cbn; auto.
  - apply sim_assert; [lia|]. rdn v 8. change (2 ^ 8) with 256 in *.
    apply sim_require; [lia| |].
    { unfold z2b in *. destruct (i =? 0); cbn [negb] in HO; rewrite HO; cbn [negb andb]; [reflexivity|lia]. }
    intros HV. rdn s 8. change (2 ^ 8) with 256 in *.
    eapply sim_bind with (N1 := 16 * Z.of_nat n) ; [apply IHn with (o := Some v); try lia| |lia].
    { rewrite z2b_pos by lia. replace (0 <? i + 1) with true by lia. reflexivity. }
    intros l ? (<- & L & W & A). sret. cbn [length points_wf above fst snd]. conj; auto; try lia.
    destruct o; cbn [above fst]; [lia|auto].
Qed.

Lemma sim_coeffs : forall n i max N, 0 <= i -> i + Z.of_nat n <= max -> 8 * Z.of_nat n <= N ->
  sim N (parse_coeffs n i max) (F.times n (f 8))
    (fun x y => x = map (fun v => v - 128) y /\ length x = n /\ Forall (fun c => -128 <= c <= 127) x).
Proof.
  induction n; intros i max N Hi HM HN; cbn [parse_coeffs F.times].
  - sret. auto.
  - apply sim_assert; [lia|]. rdn v 8. change (2 ^ 8) with 256 in *.
    eapply sim_bind with (N1 := 8 * Z.of_nat n) ; [apply IHn; lia| |lia].
    intros l y (-> & L & W). sret. cbn [map length]. conj; auto. constructor; [lia|auto].
Qed.

Lemma sim_mult : forall nz b N, z2b nz = b -> 25 <= N ->
  sim N (parse_mult nz) (F.mult_params b) (fun x y => x = mult_of y /\ mult_wf x).
Proof.
  intros nz b N <- HN. unfold parse_mult, F.mult_params. destruct (z2b nz).
  - rdn a 8. rdn c 8. rdn d 9. change (2 ^ 8) with 256 in *. change (2 ^ 9) with 512 in *.
    sret. cbn [mult_of mult_wf]. conj; auto; lia.
  - sret. cbn. conj; auto; lia.
Qed.

Lemma nonempty_z2b : forall A (l : list A) n, length l = Z.to_nat n -> 0 <= n -> F.nonempty l = z2b n.
Proof.
  intros A l n H Hn. rewrite z2b_pos by lia. destruct l; cbn [length F.nonempty] in *; symmetry.
  - apply Z.ltb_ge. lia.
  - apply Z.ltb_lt. lia.
Qed.

(** The zero appended without luma points is part of the zero padding. *)
Lemma pad_snoc : forall A n (x : A) l, (length l < n)%nat -> pad n x (l ++ [x]) = pad n x l.
Proof.
  intros. unfold pad. rewrite <- app_assoc, app_length. cbn [length app].
  replace (n - length l)%nat with (S (n - (length l + 1)))%nat by lia. reflexivity.
Qed.
Lemma sim_uv_coeffs : forall (c : bool) lag (ny : Z) N, 0 <= lag <= 3 -> 208 <= N ->
  sim N (if c then
           rbind (parse_coeffs (Z.to_nat (2 * lag * (lag + 1) + b2z (z2b ny))) 0 28)
             (fun l => if negb (z2b ny) then rbind (assert (2 * lag * (lag + 1) + b2z (z2b ny) <? 28)) (fun _ => Ret (l ++ [0]))
                       else Ret l)
         else Ret [])
    (if c then F.times (Z.to_nat (if z2b ny then 2 * lag * (lag + 1) + 1 else 2 * lag * (lag + 1))) (f 8) else SRet [])
    (fun x y => pad 28 0 x = coeffs_of 28 y /\ coeffs_wf 28 (pad 28 0 x)).
Proof.
  intros c lag ny N Hl HN.
  assert (HL : 0 <= 2 * lag * (lag + 1) <= 24) by nia.
  set (n := 2 * lag * (lag + 1)) in *. clearbody n.
  replace (if z2b ny then n + 1 else n) with (n + b2z (z2b ny)) by (destruct (z2b ny); cbn [b2z]; lia).
  assert (WF : forall x, (length x <= 28)%nat -> Forall (fun c => -128 <= c <= 127) x -> coeffs_wf 28 (pad 28 0 x)).
  { intros. split; [apply pad_length; auto|apply pad_Forall; [lia|auto]]. }
  assert (HB : 0 <= b2z (z2b ny) <= 1) by (destruct (z2b ny); cbn; lia).
  destruct c.
  2:{ sret. split; [reflexivity|apply WF; [cbn; lia|constructor]]. }
  replace (F.times (Z.to_nat (n + b2z (z2b ny))) (f 8)) with (F.times (Z.to_nat (n + b2z (z2b ny))) (f 8)) by reflexivity.
  eapply sim_weaken with (N := 208) (R := fun x y => pad 28 0 x = coeffs_of 28 y /\ coeffs_wf 28 (pad 28 0 x)); [|lia|auto].
  set (k := Z.to_nat (n + b2z (z2b ny))).
  assert (Hk : (k <= 25)%nat) by lia.
  assert (S0 : sim 208 (parse_coeffs k 0 28) (F.times k (f 8))
    (fun x y => x = map (fun v => v - 128) y /\ length x = k /\ Forall (fun c => -128 <= c <= 127) x))
    by (apply sim_coeffs; lia).
  intros s a Hs Ha Hb. specialize (S0 s a Hs Ha Hb). rewrite aexec_bind.
  destruct (srun (F.times k (f 8)) (st_bit s) (a_pos a)) as [[y|] pos'].
  - destruct S0 as (P & x & E & EX & L & W). split; [exact P|]. rewrite E.
    destruct (z2b ny); cbn [negb b2z] in *.
    + exists x. split; [reflexivity|]. split; [subst x; reflexivity|apply WF; [lia|auto]].
    + replace (n + 0 <? 28) with true by lia. exists (x ++ [0]). split; [reflexivity|].
      rewrite pad_snoc by lia. split; [subst x; reflexivity|apply WF; [lia|auto]].
  - destruct S0 as (P & E). split; [exact P|]. rewrite E. reflexivity.
Qed.

Lemma sim_fgdata : forall sh ss seed N, seq_rel sh ss -> seq_wf sh -> 0 <= seed < 65536 -> 1300 <= N ->
  sim N (parse_fgdata sh seed) (F.grain_data ss seed) (fun d s => fg_rel d (Some s) /\ fg_wf d).
Proof.
  intros sh ss seed N HR HW Hse HN. unfold parse_fgdata, F.grain_data.
  assert (Em : monochrome (sh_color sh) = S.mono_chrome (S.color_ ss)) by apply HR.
  assert (Wm : 0 <= monochrome (sh_color sh) <= 1) by apply HW.
  assert (Ex : ss_hor (sh_color sh) = S.subsampling_x (S.color_ ss)) by apply HR.
  assert (Ey : ss_ver (sh_color sh) = S.subsampling_y (S.color_ ss)) by apply HR.
  rewrite <- Em, <- Ex, <- Ey. cbv zeta. clear HR HW Em Ex Ey.
  set (mono := monochrome (sh_color sh)) in *. set (hor := ss_hor (sh_color sh)) in *. set (ver := ss_ver (sh_color sh)) in *.
  clearbody mono hor ver.
  rdn ny 4. change (2 ^ 4) with 16 in *. apply sim_require; [lia|lia|]. intros Hny2.
  eapply sim_bind with (N1 := 224); [apply sim_points with (o := None); try lia; reflexivity| |lia].
  intros yp ? (<- & LY & WY & _).
  bnd 1 (eqr 0 1). { flag mono; [sbitr|sret; split; lia]. }
  intros cs ? [<- Hcs].
  rewrite (nonempty_z2b _ yp ny LY) by lia.
  bnd 328 (fun (x : Z * list (Z * Z) * Z * list (Z * Z)) (y : list (Z * Z) * list (Z * Z)) =>
    let '(nu, up, nv, vp) := x in y = (up, vp) /\ length up = Z.to_nat nu /\ length vp = Z.to_nat nv /\
      0 <= nu <= 10 /\ 0 <= nv <= 10 /\ points_wf up /\ points_wf vp).
  { apply sim_if.
    - rewrite !z2b_1 by lia. rewrite (z2b_pos ny) by lia.
      replace (negb (0 <? ny)) with (ny =? 0) by lia. destruct (hor =? 1), (ver =? 1); reflexivity.
    - intros _. sret. cbn. conj; auto; lia.
    - intros _. rdn nu 4. change (2 ^ 4) with 16 in *. apply sim_require; [lia|lia|]. intros Hnu2.
      eapply sim_bind with (N1 := 160); [apply sim_points with (o := None); try lia; reflexivity| |lia].
      intros up ? (<- & LU & WU & _).
      rdn nv 4. change (2 ^ 4) with 16 in *. apply sim_require; [lia|lia|]. intros Hnv2.
      eapply sim_bind with (N1 := 160); [apply sim_points with (o := None); try lia; reflexivity| |lia].
      intros vp ? (<- & LV & WV & _). sret. conj; auto; lia. }
  intros [[[nu up] nv] vp] [? ?] (E & LU & LV & Hnu & Hnv & WU & WV). injection E as -> ->.
  rewrite (nonempty_z2b _ up nu LU) by lia. rewrite (nonempty_z2b _ vp nv LV) by lia.
  apply sim_require; [lia| |].
  { destruct ((hor =? 1) && (ver =? 1)), (z2b nu), (z2b nv); reflexivity. }
  intros _. rdn scal 2. rdn lag 2. change (2 ^ 2) with 4 in *.
  assert (HL : 0 <= 2 * lag * (lag + 1) <= 24) by nia.
  bnd 192 (fun x y => pad 24 0 x = coeffs_of 24 y /\ coeffs_wf 24 (pad 24 0 x)).
  { destruct (z2b ny).
    - eapply sim_weaken; [apply sim_coeffs with (N := 192); lia|lia|]. cbv beta.
      intros x y (-> & L & W). split; [reflexivity|].
      split; [apply pad_length; lia|apply pad_Forall; [lia|auto]].
    - sret. split; [reflexivity|]. split; [reflexivity|]. apply pad_Forall; [lia|constructor]. }
  intros cy cy' (EY & WCY).
  rewrite !(orb_comm (cs =? 1)), <- (z2b_1 cs) by lia.
  eapply sim_bind with (N1 := 208); [apply sim_uv_coeffs; lia| |lia]. intros cu cu' (EU & WCU).
  eapply sim_bind with (N1 := 208); [apply sim_uv_coeffs; lia| |lia]. intros cv cv' (EV & WCV).
  rdn acs 2. rdn gss 2. change (2 ^ 2) with 4 in *.
  eapply sim_bind with (N1 := 25); [apply sim_mult; [reflexivity|lia]| |lia]. intros um um' (EUM & WUM).
  eapply sim_bind with (N1 := 25); [apply sim_mult; [reflexivity|lia]| |lia]. intros vm vm' (EVM & WVM).
  rd1 ov. rd1 cl. sret. split.
  - unfold fg_rel. cbn. conj; auto.
  - unfold fg_wf. cbn [fg_seed fg_y_points fg_csfl fg_u_points fg_v_points fg_scaling_shift fg_ar_coeff_lag
      fg_ar_coeffs_y fg_ar_coeffs_u fg_ar_coeffs_v fg_ar_coeff_shift fg_grain_scale_shift fg_u_mult fg_v_mult
      fg_overlap_flag fg_clip_to_restricted_range].
    conj; auto; try lia; right; lia.
Qed.

Lemma fg_zero_wf : forall seed, 0 <= seed < 65536 -> fg_wf (with_seed fgdata0 seed).
Proof.
  intros seed Hs. unfold fg_wf, coeffs_wf. cbn [with_seed fgdata0 fg_seed fg_y_points fg_csfl fg_u_points fg_v_points
    fg_scaling_shift fg_ar_coeff_lag
      fg_ar_coeffs_y fg_ar_coeffs_u fg_ar_coeffs_v fg_ar_coeff_shift fg_grain_scale_shift fg_u_mult fg_v_mult
      fg_overlap_flag fg_clip_to_restricted_range points_wf length].
  conj; auto; try lia; try reflexivity; try (left; reflexivity); try (cbn [repeat]; repeat constructor; lia); cbn; lia.
Qed.
Lemma with_seed_wf : forall d seed, fg_wf d -> 0 <= seed < 65536 -> fg_wf (with_seed d seed).
Proof.
  intros d seed H Hs. unfold fg_wf, fg_zero, with_seed in *.
  cbn [fg_seed fg_y_points fg_csfl fg_u_points fg_v_points fg_scaling_shift fg_ar_coeff_lag
      fg_ar_coeffs_y fg_ar_coeffs_u fg_ar_coeffs_v fg_ar_coeff_shift fg_grain_scale_shift fg_u_mult fg_v_mult
      fg_overlap_flag fg_clip_to_restricted_range] in *.
  destruct H as (H1 & H2 & H3 & H4 & H5 & H6 & H7 & H8 & H9 & H10 & H11 & H12 & H13 & H14 & H15 & H16 & H17 & H18 & H19).
  conj; auto; try lia.
  - destruct H9 as [E|]; [left; rewrite E; reflexivity|auto].
  - destruct H14 as [E|]; [left; rewrite E; reflexivity|auto].
Qed.

Lemma sim_fg : forall sh ss p g ridx sidx refs srefs N, seq_rel sh ss -> seq_wf sh -> prefix_rel p g -> prefix_wf p ->
  slots_rel refs srefs -> length ridx = 7%nat -> Forall (fun i => 0 <= i <= 7) ridx ->
  (is_inter_or_switch (frame_type p) = true -> ridx = sidx) -> 1400 <= N ->
  sim N (parse_fg sh refs p ridx) (F.film_grain_params ss srefs g sidx)
    (fun x y => let '(fp, fu, fd) := x in let '(ap, up, fg) := y in
       fp = ap /\ fu = up /\ fg_rel fd fg /\ 0 <= fp <= 1 /\ 0 <= fu <= 1 /\ fg_wf fd).
Proof.
  intros sh ss p g ridx sidx refs srefs N HR HW HP WP HS HL HF HE HN. unfold parse_fg, F.film_grain_params.
  assert (E1 : film_grain_present sh = S.film_grain_params_present ss) by apply HR.
  assert (W1 : 0 <= film_grain_present sh <= 1) by apply HW.
  assert (E2 : show_frame p = F.show_frame g) by apply HP.
  assert (E3 : showable_frame p = F.showable_frame g) by apply HP.
  assert (E4 : frame_type p = F.frame_type g) by apply HP.
  assert (W2 : 0 <= show_frame p <= 1) by apply WP.
  assert (W3 : 0 <= showable_frame p <= 1) by apply WP.
  rewrite <- E1, <- E2, <- E3, <- E4.
  assert (ZR : fg_rel fgdata0 None /\ fg_wf fgdata0).
  { split; [reflexivity|apply (fg_zero_wf 0); lia]. }
  set (fgp := film_grain_present sh) in *. set (sf := show_frame p) in *. set (sa := showable_frame p) in *.
  rewrite (z2b_1 fgp), (z2b_1 sf), (z2b_1 sa) by lia.
  replace ((fgp =? 0) || (sf =? 0) && (sa =? 0)) with (negb ((fgp =? 1) && ((sf =? 1) || (sa =? 1)))).
  2:{ clearbody fgp sf sa. flag fgp; flag sf; flag sa; reflexivity. }
  destruct ((fgp =? 1) && ((sf =? 1) || (sa =? 1))); cbn [negb].
  2:{ apply sim_let. cbn. sret. conj; auto; try lia; apply ZR. }
  rd1 ap. flag ap.
  { sret. conj; auto; try lia; apply ZR. }
  rdn seed 16. change (2 ^ 16) with 65536 in *.
  bnd 1 (fun x y => eqr 0 1 x y /\ (x = 0 -> frame_type p = F.INTER_FRAME)).
  { change F.INTER_FRAME with FT_INTER. destruct (Z.eqb_spec (frame_type p) FT_INTER); cbn [negb].
    - eapply sim_weaken; [apply sim_bit with (N := 1); lia|lia|]. auto.
    - sret. split; [split; lia|lia]. }
  intros upd ? [[<- Hu] HI]. flag upd.
  - rdn ri 3. change (2 ^ 3) with 8 in *. 
    assert (ridx = sidx) as <- by (apply HE; rewrite HI; reflexivity).
    rewrite <- (negb_involutive (existsb _ ridx)), <- (if_negb _ _ err).
    apply sim_require; [lia| |].
    { f_equal. unfold F.in_list. clear. induction ridx; cbn; auto. rewrite IHridx, Z.eqb_sym. reflexivity. }
    intros _. eapply sim_bind with (N1 := 0); [apply sim_slot; eauto; lia| |lia].
    intros h r (S1 & S2 & _). sret.
    assert (HF1 : fg_rel (f_fg h) (F.SavedFilmGrain r)) by apply S1.
    assert (HF2 : fg_wf (f_fg h)) by apply S2.
    conj; auto; try lia.
    + destruct (F.SavedFilmGrain r) as [fg|]; cbn [fg_rel] in *.
      * unfold F.set_seed, with_seed. cbn. destruct HF1 as (_ & HF1). split; [reflexivity|exact HF1].
      * rewrite HF1. reflexivity.
    + apply with_seed_wf; auto; lia.
  - eapply sim_bind with (N1 := 1300); [apply sim_fgdata; eauto; lia| |lia].
    intros d s (RD & WD). sret. conj; auto; lia.
Qed.

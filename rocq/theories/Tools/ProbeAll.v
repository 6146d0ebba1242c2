(** Recognition of well-formed streams, and the choice between the demuxers. *)
From Coq Require Import ZArith List Bool Lia.
From Verif Require Import Base.CInt Base.Lemmas Tools.Input Tools.InputSpec Tools.InputProofs
  Tools.IvfOpen Tools.Section5Proofs Tools.ProbeSpec Tools.ProbeProofs Tools.Md5Proofs.
Import ListNotations.
Open Scope Z_scope.
Open Scope outcome_scope.

Lemma leb_dec_form : forall lb, leb_form lb -> forall n r, (length lb <= n)%nat ->
  leb_dec n (lb ++ r) = Some (leb_value lb, zlen lb).
Proof.
  induction 1 as [b Hb|b l Hb F IH]; intros n r L; (destruct n; [cbn in L; lia|]); cbn [app leb_dec leb_value].
  - replace (b <? 128) with true by lia. rewrite Z.mod_small by lia. do 2 f_equal. lia.
  - replace (b <? 128) with false by lia. rewrite IH by (cbn [length] in L; lia). rewrite zlen_cons.
    replace (b mod 128) with (b - 128). + do 2 f_equal. lia.
    + apply Z.mod_unique with 1; lia.
Qed.
Lemma leb32_enc : forall v lb r, leb_enc v lb -> leb32 (lb ++ r) = Some (v, zlen lb).
Proof.
  intros v lb r (F & L & V & B). unfold leb32. rewrite (leb_dec_form lb F) by lia. rewrite V.
  now replace (v <? 2 ^ 32) with true by lia.
Qed.
Lemma leb_enc_nonneg : forall v lb, leb_enc v lb -> 0 <= v.
Proof.
  intros v lb (F & _ & <- & _). induction F; cbn [leb_value].
  - pose proof (Z.mod_pos_bound b 128). lia.
  - pose proof (Z.mod_pos_bound b 128). lia.
Qed.
Lemma leb_enc_len : forall v lb, leb_enc v lb -> 1 <= zlen lb <= 8.
Proof.
  intros v lb (F & L & _). apply leb_form_nonempty in F. unfold zlen in *. lia.
Qed.

Lemma hdr_dec : forall t n hd r, s5_hdr t n hd -> obu_hdr false (hd ++ r) = Some (t, n, zlen hd).
Proof.
  intros t n hd r (h & ext & lb & -> & Hh & T & S & L & B & E). cbn [app obu_hdr].
  replace (128 <=? h) with false by lia. rewrite S, T. change (1 =? 1) with true.
  assert (X : 0 <= (h / 4) mod 2 < 2) by (apply Z.mod_pos_bound; lia).
  set (e := (h / 4) mod 2) in *.
  pose proof (leb_enc_len _ _ E) as LL. pose proof (zlen_nonneg _ r).
  assert (Y : zl ((ext ++ lb) ++ r) <> 0).
  { change (zl ((ext ++ lb) ++ r)) with (zlen ((ext ++ lb) ++ r)). rewrite !zlen_app. pose proof (zlen_nonneg _ ext). lia. }
  replace (zl ((ext ++ lb) ++ r) =? 0) with false by lia. rewrite andb_false_r. cbv beta iota.
  rewrite <- app_assoc, <- L, skipn_app, skipn_all, Nat.sub_diag. cbn [skipn app].
  rewrite (leb32_enc _ _ _ E). do 2 f_equal. rewrite zlen_cons, zlen_app. unfold zlen. lia.
Qed.
Lemma hdr_pos : forall t n hd, s5_hdr t n hd -> 0 < zlen hd.
Proof. intros t n hd (h & ext & lb & -> & _). rewrite zlen_cons. pose proof (zlen_nonneg _ (ext ++ lb)). lia. Qed.
Lemma skipn_zlen_app : forall (a b : list Z) k, k = zlen a -> skipn (Z.to_nat k) (a ++ b) = b.
Proof.
  intros a b k ->. unfold zlen. rewrite Nat2Z.id, skipn_app, skipn_all, Nat.sub_diag. reflexivity.
Qed.
Lemma firstn_zlen_app : forall (a b : list Z) k, k = zlen a -> firstn (Z.to_nat k) (a ++ b) = a.
Proof.
  intros a b k ->. unfold zlen. rewrite Nat2Z.id, firstn_app, firstn_all, Nat.sub_diag. cbn [firstn]. apply app_nil_r.
Qed.

Lemma look_lead : forall ts l, s5_lead ts l -> forall n seq hd v t r, (length (l ++ hd ++ r) <= n)%nat -> zlen l < HUGE ->
  s5_hdr t v hd -> t = 3 \/ t = 6 -> v < HUGE ->
  s5_look n (l ++ hd ++ r) seq = of_bool (seq || existsb (Z.eqb 1) ts).
Proof.
  induction 1 as [|t0 hd0 p ts l N2 N3 N4 N6 H0 B F IH]; intros n seq hd v t r L LH H T V.
  - cbn [app existsb]. rewrite orb_false_r. cbn [app] in L. pose proof (hdr_pos _ _ _ H) as P.
    pose proof (hdr_dec t v hd r H) as E.
    destruct hd as [|h hd]; [rewrite zlen_nil in P; lia|]. cbn [app] in *. destruct n; [cbn in L; lia|].
    cbn [s5_look]. rewrite E. replace (HUGE <=? v) with false by lia.
    replace ((t =? 3) || (t =? 6)) with true by lia. reflexivity.
  - pose proof (hdr_pos _ _ _ H0) as P. pose proof (hdr_dec t0 (zl p) hd0 (p ++ l ++ hd ++ r) H0) as E.
    rewrite <- !app_assoc in *. rewrite !app_length in L. rewrite !zlen_app in LH.
    pose proof (zlen_nonneg _ l). pose proof (zlen_nonneg _ p).
    destruct hd0 as [|h hd0]; [rewrite zlen_nil in P; lia|]. cbn [app] in *. destruct n; [cbn [length] in L; lia|].
    cbn [s5_look]. rewrite E. change (zl p) with (zlen p).
    replace (HUGE <=? zlen p) with false by lia.
    replace ((t0 =? 3) || (t0 =? 6)) with false by lia. replace ((t0 =? 2) || (t0 =? 4)) with false by lia.
    replace (h :: hd0 ++ p ++ l ++ hd ++ r) with (((h :: hd0) ++ p) ++ l ++ hd ++ r) by (now rewrite <- app_assoc).
    rewrite skipn_zlen_app by (rewrite zlen_app; lia).
    rewrite (IH n (seq || (t0 =? 1)) hd v t r); auto; [|rewrite !app_length; cbn [length] in L; lia|lia].
    cbn [existsb]. rewrite (Z.eqb_sym 1 t0), orb_assoc. reflexivity.
Qed.

Lemma hdr_firstn : forall n (l : list Z) x, obu_hdr true (firstn n l) = Some x -> (0 < n)%nat /\ l <> [].
Proof. intros [|n] [|b l] x E; try discriminate E; split; (lia || discriminate). Qed.

Lemma ab_look_lead : forall ts l, ab_lead ts l -> forall n fu seq lb m tail t v k, (length (l ++ lb ++ tail) <= n)%nat ->
  zlen l < HUGE -> leb_enc m lb -> m < HUGE ->
  obu_hdr true (firstn (Z.to_nat m) tail) = Some (t, v, k) -> t = 3 \/ t = 6 -> v < HUGE -> zlen l + zlen lb + m <= fu ->
  ab_look n (l ++ lb ++ tail) fu seq = of_bool (seq || existsb (Z.eqb 1) ts).
Proof.
  induction 1 as [|t0 v0 k0 lb0 o ts l N2 N3 N4 N6 E0 H0 V0 F IH]; intros n fu seq lb m tail t v k L LH E M H T V FU.
  - cbn [app existsb]. rewrite orb_false_r. cbn [app] in L. rewrite zlen_nil in FU.
    pose proof (leb32_enc m lb tail E) as X. pose proof (leb_enc_len _ _ E) as LL.
    destruct lb as [|b lb]; [rewrite zlen_nil in LL; lia|]. cbn [app] in *. destruct n; [cbn in L; lia|].
    cbn [ab_look]. rewrite X. replace (fu <? m + zlen (b :: lb)) with false by lia.
    replace (HUGE <=? m) with false by lia.
    change (b :: lb ++ tail) with ((b :: lb) ++ tail). rewrite skipn_zlen_app by reflexivity. rewrite H.
    replace (HUGE <=? v) with false by lia. replace ((t =? 3) || (t =? 6)) with true by lia. reflexivity.
  - rewrite !zlen_app in LH, FU. pose proof (zlen_nonneg _ l). pose proof (zlen_nonneg _ o). pose proof (zlen_nonneg _ lb).
    pose proof (leb_enc_nonneg _ _ E). pose proof (leb_enc_len _ _ E) as LL.
    rewrite <- !app_assoc in *.
    pose proof (leb32_enc (zl o) lb0 (o ++ l ++ lb ++ tail) E0) as X. pose proof (leb_enc_len _ _ E0) as LL0.
    rewrite !app_length in L.
    destruct lb0 as [|b lb0]; [rewrite zlen_nil in LL0; lia|]. cbn [app] in *. destruct n; [cbn [length] in L; lia|].
    cbn [ab_look]. rewrite X. change (zl o) with (zlen o).
    replace (fu <? zlen o + zlen (b :: lb0)) with false by lia. replace (HUGE <=? zlen o) with false by lia.
    change (b :: lb0 ++ o ++ l ++ lb ++ tail) with ((b :: lb0) ++ o ++ l ++ lb ++ tail).
    rewrite skipn_zlen_app by reflexivity. rewrite firstn_zlen_app by reflexivity. rewrite H0.
    replace (HUGE <=? v0) with false by lia.
    replace ((t0 =? 3) || (t0 =? 6)) with false by lia. replace ((t0 =? 2) || (t0 =? 4)) with false by lia.
    replace (fu - zlen (b :: lb0) - zlen o =? 0) with false by lia.
    rewrite skipn_zlen_app by reflexivity.
    rewrite (IH n _ (seq || (t0 =? 1)) lb m tail t v k); auto; [|rewrite !app_length; cbn [length] in L; lia|lia|lia].
    cbn [existsb]. rewrite (Z.eqb_sym 1 t0), orb_assoc. reflexivity.
Qed.

(** ** the choice *)
Lemma ivf_probe_ref : forall data, 12 <= zlen data ->
  ivf_probe data = Ok (if list_eq_dec Z.eq_dec (firstn 12 data) ivf_magic then 1 else 0).
Proof.
  intros data L. unfold ivf_probe. rewrite mem_eq_spec; [|lia|exact L]. cbn [obind].
  change (length ivf_magic) with 12%nat. change (skipn (Z.to_nat 0) data) with data.
  destruct (list_eq_dec Z.eq_dec (firstn 12 data) ivf_magic); reflexivity.
Qed.
(** nothing is taken for two formats *)
Lemma ivf_not_ab : forall data, firstn 12 data = ivf_magic -> ab_stream data = No.
Proof.
  intros data E. rewrite <- (firstn_skipn 12 data), E. unfold ab_stream. reflexivity.
Qed.
Lemma ivf_not_s5 : forall data, firstn 12 data = ivf_magic -> s5_stream data = No.
Proof.
  intros data E. rewrite <- (firstn_skipn 12 data), E. reflexivity.
Qed.
Section ALL.
Variable data : list Z.
Hypothesis DL : zlen data = 2048.
Hypothesis DB : bytes data.
Variable fuel : nat.
Hypothesis HF : (2048 <= fuel)%nat.

(** what [input_open] should select *)
Definition choice (d : list Z) : option demuxer :=
  if list_eq_dec Z.eq_dec (firstn 12 d) ivf_magic then Some D_ivf
  else match ab_stream d, s5_stream d with
       | Yes, _ => Some D_annexb
       | _, Yes => Some D_section5
       | _, _ => None
       end.
Lemma probe_all_ref : ab_stream data <> Huge -> s5_stream data <> Huge -> probe_all fuel data = Ok (choice data).
Proof.
  intros HA HS. unfold probe_all, choice. rewrite ivf_probe_ref by lia. cbn [obind].
  destruct (list_eq_dec Z.eq_dec (firstn 12 data) ivf_magic) as [E|E]; [reflexivity|]. change (z2b 0) with false. cbv beta iota.
  rewrite (annexb_probe_ref data DL DB HA fuel HF). cbn [obind].
  rewrite (section5_probe_ref data DL DB HS fuel HF).
  destruct (ab_stream data), (s5_stream data); try reflexivity; congruence.
Qed.
End ALL.

(** a low-overhead stream *)
Lemma s5_recognised : forall ts l hd t v r, s5_lead ts l -> In 1 ts -> s5_hdr t v hd -> t = 3 \/ t = 6 -> v < HUGE ->
  zlen ([18; 0] ++ l ++ hd ++ r) = 2048 -> bytes ([18; 0] ++ l ++ hd ++ r) ->
  s5_stream ([18; 0] ++ l ++ hd ++ r) = Yes /\ ab_stream ([18; 0] ++ l ++ hd ++ r) = No
  /\ firstn 12 ([18; 0] ++ l ++ hd ++ r) <> ivf_magic.
Proof.
  intros ts l hd t v r F I H T V L BY. split; [|split].
  - unfold s5_stream. change (obu_hdr false ([18; 0] ++ l ++ hd ++ r)) with (Some (2, 0, 2)). 
    change (HUGE <=? 0) with false. change (negb (2 =? 2) || negb (0 =? 0)) with false. cbv beta iota.
    change (skipn (Z.to_nat 2) ([18; 0] ++ l ++ hd ++ r)) with (l ++ hd ++ r).
    rewrite !zlen_app in L. change (zlen [18; 0]) with 2 in L.
    pose proof (zlen_nonneg _ l). pose proof (zlen_nonneg _ hd). pose proof (zlen_nonneg _ r).
    rewrite (look_lead ts l F _ false hd v t r); auto; [|cbn [length app]; lia|unfold HUGE; lia].
    cbn [orb]. replace (existsb (Z.eqb 1) ts) with true; [reflexivity|]. symmetry. apply existsb_exists. exists 1. auto.
  - unfold ab_stream. change (leb32 ([18; 0] ++ l ++ hd ++ r)) with (Some (18, 1)). cbv beta iota.
    change (skipn (Z.to_nat 1) ([18; 0] ++ l ++ hd ++ r)) with (0 :: l ++ hd ++ r).
    change (leb32 (0 :: l ++ hd ++ r)) with (Some (0, 1)). cbv beta iota. change (18 <? 0 + 1) with false. cbv beta iota.
    change (skipn (Z.to_nat 1) (0 :: l ++ hd ++ r)) with (l ++ hd ++ r).
    destruct (leb32 (l ++ hd ++ r)) as [[ou k3]|] eqn:E; [|reflexivity].
    unfold leb32 in E. destruct (leb_dec 8 (l ++ hd ++ r)) as [[x k]|] eqn:E1; [|discriminate E].
    destruct (x <? 2 ^ 32); [|discriminate E]. injection E as -> ->.
    unfold bytes in BY. apply Forall_app in BY as [_ BY]. apply leb_dec_range in E1; [|exact BY].
    replace (0 <=? ou + k3) with true by lia. reflexivity.
  - intros E. discriminate E.
Qed.

(** an Annex B stream *)
Lemma ab_recognised : forall tu lt fu lf lo td kt ts l lb m tail t v k,
  leb_enc tu lt -> leb_enc fu lf -> leb_enc (zlen td) lo -> obu_hdr true td = Some (2, 0, kt) ->
  ab_lead ts l -> In 1 ts -> leb_enc m lb -> m < HUGE ->
  obu_hdr true (firstn (Z.to_nat m) tail) = Some (t, v, k) -> t = 3 \/ t = 6 -> v < HUGE ->
  zlen lf + fu <= tu -> zlen lo + zlen td + zlen l + zlen lb + m <= fu ->
  zlen (lt ++ lf ++ lo ++ td ++ l ++ lb ++ tail) = 2048 ->
  ab_stream (lt ++ lf ++ lo ++ td ++ l ++ lb ++ tail) = Yes.
Proof.
  intros tu lt fu lf lo td kt ts l lb m tail t v k ET EF EO HT F I EM M H T V TU FU L.
  rewrite !zlen_app in L.
  pose proof (leb_enc_len _ _ ET). pose proof (leb_enc_len _ _ EF). pose proof (leb_enc_len _ _ EO).
  pose proof (leb_enc_len _ _ EM). pose proof (leb_enc_nonneg _ _ EM).
  pose proof (zlen_nonneg _ td). pose proof (zlen_nonneg _ l). pose proof (zlen_nonneg _ tail).
  unfold ab_stream. rewrite (leb32_enc _ _ _ ET). cbv beta iota zeta. rewrite skipn_zlen_app by reflexivity.
  rewrite (leb32_enc _ _ _ EF). replace (tu <? fu + zlen lf) with false by lia. rewrite skipn_zlen_app by reflexivity.
  rewrite (leb32_enc _ _ _ EO). replace (fu <=? zlen td + zlen lo) with false by lia.
  replace (HUGE <=? zlen td) with false by (unfold HUGE; lia). rewrite skipn_zlen_app by reflexivity.
  rewrite firstn_zlen_app by reflexivity. rewrite HT. change (HUGE <=? 0) with false.
  change (negb (2 =? 2) || negb (0 =? 0)) with false. cbv beta iota. rewrite skipn_zlen_app by reflexivity.
  rewrite (ab_look_lead ts l F _ _ false lb m tail t v k); auto.
  - cbn [orb]. replace (existsb (Z.eqb 1) ts) with true; [reflexivity|]. symmetry. apply existsb_exists. exists 1. auto.
  - rewrite !app_length. lia.
  - unfold HUGE. lia.
  - lia.
Qed.

(** the choice on each *)
Lemma choose_s5 : forall d, s5_stream d = Yes -> ab_stream d = No -> firstn 12 d <> ivf_magic -> choice d = Some D_section5.
Proof.
  intros d S A I. unfold choice. rewrite S, A. destruct (list_eq_dec Z.eq_dec (firstn 12 d) ivf_magic); [congruence|reflexivity].
Qed.
Lemma choose_ab : forall d, ab_stream d = Yes -> choice d = Some D_annexb.
Proof.
  intros d A. unfold choice. rewrite A.
  destruct (list_eq_dec Z.eq_dec (firstn 12 d) ivf_magic) as [E|_]; [|reflexivity]. apply ivf_not_ab in E. congruence.
Qed.
Lemma choose_ivf : forall d, firstn 12 d = ivf_magic -> choice d = Some D_ivf.
Proof. intros d E. unfold choice. destruct (list_eq_dec Z.eq_dec (firstn 12 d) ivf_magic); [reflexivity|congruence]. Qed.

(** The "Section 5" demuxer. *)
From Coq Require Import ZArith List Bool Lia.
From Verif Require Import Base.CInt Base.Lemmas Base.Finite Tools.Input Tools.InputSpec Tools.InputProofs
  Tools.IvfProofs Tools.IvfOpen.
Import ListNotations.
Open Scope Z_scope.
Open Scope outcome_scope.

Lemma at_bytes : forall f rest, at_ f rest -> bytes (f_data f) -> bytes rest.
Proof.
  intros f rest (pre & D & _) B. rewrite D in B. unfold bytes in *. apply Forall_app in B. tauto.
Qed.

(** ** single reads, both ways *)
Lemma fread1 : forall f rest, at_ f rest ->
  match rest with
  | [] => exists f', fread f 1 = (None, f') /\ f_data f' = f_data f /\ f_pos f' = f_pos f /\ f_eof f' = true
  | b :: tl => exists f', fread f 1 = (Some [b], f') /\ at_ f' tl /\ f_data f' = f_data f /\ f_pos f' = f_pos f + 1
  end.
Proof.
  intros f [|b tl] A.
  - destruct A as (pre & D & P). unfold fread. cbn [Z.eqb]. rewrite D, P, app_nil_r.
    replace (zlen pre + 1 <=? zlen pre) with false by lia. eexists. split; [reflexivity|]. cbn. repeat split; lia.
  - destruct (fread_at f [b] tl 1 A eq_refl ltac:(lia)) as (f' & E & A' & D & P). eauto.
Qed.

Lemma leb128_loop_inv : forall n i val f rest v res f', at_ f rest -> bytes rest -> 0 <= i -> i + Z.of_nat n <= 8 ->
  0 <= val < 2 ^ (7 * i) -> leb128_loop n i val f = (Some (v, res), f') ->
  exists bs tl, rest = bs ++ tl /\ leb_form bs /\ (length bs <= n)%nat /\ v = val + leb_value bs * 2 ^ (7 * i)
    /\ v <= UINT_MAX /\ res = i + zlen bs /\ at_ f' tl /\ f_data f' = f_data f /\ f_pos f' = f_pos f + zlen bs.
Proof.
  induction n; intros i val f rest v res f' A B Hi Hn Hv E; [discriminate E|].
  cbn [leb128_loop] in E. pose proof (fread1 f rest A) as R. destruct rest as [|b tl].
  { destruct R as (f1 & R & _). rewrite R in E. discriminate E. }
  destruct R as (f1 & R & A1 & D1 & P1). rewrite R in E. change (byte0 [b]) with b in E.
  unfold bytes in B. inversion B as [|? ? Hb B']; subst.
  destruct (leb_step val b i ltac:(lia) Hv) as [S1 S2]. rewrite S1 in E. rewrite land80 in E by lia.
  assert (P : 2 ^ (7 * (i + 1)) = 128 * 2 ^ (7 * i)).
  { replace (7 * (i + 1)) with (7 + 7 * i) by lia. rewrite Z.pow_add_r by lia. reflexivity. }
  destruct (Z.leb_spec 128 b) as [H|H]; cbn [andb orb] in E.
  - destruct (Z.ltb_spec (i + 1) 8) as [H8|H8].
    + apply IHn with (rest := tl) in E; auto; try lia.
      destruct E as (bs & tl' & -> & F & L & -> & U & -> & A' & D' & P').
      exists (b :: bs), tl'. cbn [leb_value]. rewrite P in *. rewrite zlen_cons.
      repeat match goal with |- _ /\ _ => split end; auto; try lia; try congruence.
      all: try (constructor; auto; lia).
      all: try (cbn; lia).
      all: ring.
    + rewrite orb_true_r in E. discriminate E.
  - rewrite orb_false_r in E. destruct (Z.ltb_spec UINT_MAX (val + b mod 128 * 2 ^ (7 * i))) as [H2|H2]; [discriminate E|].
    injection E as <- <- <-. exists [b], tl. cbn [leb_value]. change (zlen [b]) with 1.
    repeat match goal with |- _ /\ _ => split end; auto; try lia.
    all: try (constructor; lia).
    all: try (cbn; lia).
    all: f_equal; f_equal; lia.
Qed.

Lemma leb128_inv : forall f rest v res f', at_ f rest -> bytes rest -> leb128 f = (Some (v, res), f') ->
  exists bs tl, rest = bs ++ tl /\ leb_enc v bs /\ res = zlen bs /\ at_ f' tl /\ f_data f' = f_data f
    /\ f_pos f' = f_pos f + zlen bs.
Proof.
  intros f rest v res f' A B E. unfold leb128 in E.
  destruct (leb128_loop_inv 8 0 0 f rest v res f' A B) as (bs & tl & R & F & L & V & U & RS & A' & D & P); auto; try lia.
  exists bs, tl. change (2 ^ (7 * 0)) with 1 in V. rewrite Z.mul_1_r, Z.add_0_l in V. unfold UINT_MAX in U.
  repeat match goal with |- _ /\ _ => split end; auto; try lia.
  unfold leb_enc. repeat split; auto; lia.
Qed.

(** ** OBU header bits *)
Lemma byte_type : forall h, 0 <= h < 256 -> Z.land (Z.shiftr h 3) 0xf = (h / 8) mod 16.
Proof.
  intros h H. apply Z.eqb_eq.
  apply (all_in_ok 0 255 (fun h => Z.land (Z.shiftr h 3) 0xf =? (h / 8) mod 16)); [vm_compute; reflexivity|lia].
Qed.
Lemma byte_size : forall h, 0 <= h < 256 -> (Z.land h 2 =? 0) = negb ((h / 2) mod 2 =? 1).
Proof.
  intros h H. apply eqb_prop.
  apply (all_in_ok 0 255 (fun h => eqb (Z.land h 2 =? 0) (negb ((h / 2) mod 2 =? 1)))); [vm_compute; reflexivity|lia].
Qed.
Lemma byte_ext : forall h, 0 <= h < 256 -> z2b (Z.land h 4) = ((h / 4) mod 2 =? 1).
Proof.
  intros h H. apply eqb_prop.
  apply (all_in_ok 0 255 (fun h => eqb (z2b (Z.land h 4)) ((h / 4) mod 2 =? 1))); [vm_compute; reflexivity|lia].
Qed.
Lemma mod2 : forall x, x mod 2 = 0 \/ x mod 2 = 1.
Proof. intros x. pose proof (Z.mod_pos_bound x 2 ltac:(lia)). lia. Qed.

(** ** one OBU *)
(** the part of the loop that consumes an OBU whose type fits *)
Definition s5_body (h : Z) (f : file) : option Z * file :=
  let has_extension := b2z (z2b (Z.land h 0x4)) in
  let '(r, f) := if z2b has_extension then fread f 1 else (Some [], f) in
  match r with
  | None => (None, f)
  | Some _ =>
    match leb128 f with
    | (None, f) => (None, f)
    | (Some (len, res), f) => (Some (1 + has_extension + res + len), snd (fseek_cur f len))
    end
  end.

Lemma scan_unfold : forall fuel first total f, s5_scan (S fuel) first total f =
  match fread f 1 with
  | (None, f) => if negb first && f_eof f then Ok (Some total, f) else Ok (None, f)
  | (Some b, f) =>
    let obu_type := Z.land (Z.shiftr (byte0 b) 3) 0xf in
    if first && negb (obu_type =? OBU_TD) then Ok (None, f)
    else if negb first && (obu_type =? OBU_TD) then Ok (Some total, snd (fseek_cur f (-1)))
    else if Z.land (byte0 b) 0x2 =? 0 then Ok (None, f)
    else match s5_body (byte0 b) f with
         | (None, f) => Ok (None, f)
         | (Some n, f) => s5_scan fuel false (u64 (total + n)) f
         end
  end.
Proof.
  intros. cbn [s5_scan]. destruct (fread f 1) as [[b|] f1]; [|reflexivity]. cbv zeta.
  destruct (first && negb (Z.land (Z.shiftr (byte0 b) 3) 15 =? OBU_TD)); [reflexivity|].
  destruct (negb first && (Z.land (Z.shiftr (byte0 b) 3) 15 =? OBU_TD)); [reflexivity|].
  destruct (Z.land (byte0 b) 2 =? 0); [reflexivity|].
  unfold s5_body.
  destruct (if z2b (b2z (z2b (Z.land (byte0 b) 4))) then fread f1 1 else (Some [], f1)) as [[x|] f2]; [|reflexivity].
  destruct (leb128 f2) as [[[len res]|] f3]; reflexivity.
Qed.
Lemma count_unfold : forall fuel n f, s5_count (S fuel) n f =
  match fread f 1 with
  | (None, _) => Ok (Some n)
  | (Some b, f) =>
    let n := if Z.land (Z.shiftr (byte0 b) 3) 0xf =? OBU_TD then u32 (n + 1) else n in
    if Z.land (byte0 b) 0x2 =? 0 then Ok None else
    match s5_body (byte0 b) f with
    | (None, _) => Ok None
    | (Some _, f) => s5_count fuel n f
    end
  end.
Proof.
  intros. cbn [s5_count]. destruct (fread f 1) as [[b|] f1]; [|reflexivity]. cbv zeta.
  destruct (Z.land (byte0 b) 2 =? 0); [reflexivity|].
  unfold s5_body. replace (z2b (b2z (z2b (Z.land (byte0 b) 4)))) with (z2b (Z.land (byte0 b) 4)) by (destruct (z2b (Z.land (byte0 b) 4)); reflexivity).
  destruct (if z2b (Z.land (byte0 b) 4) then fread f1 1 else (Some [], f1)) as [[x|] f2]; [|reflexivity].
  destruct (leb128 f2) as [[[len res]|] f3]; reflexivity.
Qed.

Lemma body_ok : forall t h o rest f, s5_obu t (h :: o) -> at_ f (o ++ rest) ->
  exists f', s5_body h f = (Some (zlen (h :: o)), f') /\ at_ f' rest /\ f_data f' = f_data f
    /\ f_pos f' = f_pos f + zlen o.
Proof.
  intros t h o rest f H A. inversion H as [type h' ext lb p Hh Ht Hs Le Be El Bp]; subst.
  unfold s5_body. rewrite byte_ext by lia.
  destruct (mod2 (h / 4)) as [M|M]; rewrite M in *.
  - change (Z.to_nat 0) with 0%nat in Le. apply length_zero_iff_nil in Le as ->.
    cbn [app] in *. change (0 =? 1) with false in *. change (z2b (b2z false)) with false. change (b2z false) with 0. cbv beta iota.
    rewrite <- app_assoc in A.
    destruct (leb128_ok _ _ _ _ El A) as (f1 & -> & A1 & D1 & P1).
    destruct (fseek_at f1 p rest (zl p) A1 eq_refl) as (f2 & -> & A2 & D2 & P2). cbn [snd].
    exists f2. rewrite zlen_cons, !zlen_app. change (zl p) with (zlen p) in *.
    repeat match goal with |- _ /\ _ => split end; auto; try congruence; try lia.
    do 2 f_equal. lia.
  - change (Z.to_nat 1) with 1%nat in Le. destruct ext as [|e [|e2 ext]]; try discriminate Le.
    cbn [app] in *. rewrite <- app_assoc in A.
    destruct (fread_at f [e] (lb ++ p ++ rest) 1 A eq_refl ltac:(lia)) as (f0 & F0 & A0 & D0 & P0).
    change (1 =? 1) with true. change (z2b (b2z true)) with true. change (b2z true) with 1. cbv beta iota. rewrite F0.
    destruct (leb128_ok _ _ _ _ El A0) as (f1 & -> & A1 & D1 & P1).
    destruct (fseek_at f1 p rest (zl p) A1 eq_refl) as (f2 & -> & A2 & D2 & P2). cbn [snd].
    exists f2. rewrite !zlen_cons, !zlen_app. change (zl p) with (zlen p) in *.
    repeat match goal with |- _ /\ _ => split end; auto; try congruence; try lia.
    do 2 f_equal. lia.
Qed.

(** what a consumed OBU was *)
Lemma body_inv : forall h f rest n f', 0 <= h < 256 -> (h / 2) mod 2 = 1 -> at_ f rest -> bytes rest ->
  s5_body h f = (Some n, f') ->
  f_data f' = f_data f /\ f_pos f' = f_pos f + n - 1 /\ 2 <= n < 2 ^ 32 + 16 /\
  ((exists o tl, rest = o ++ tl /\ s5_obu ((h / 8) mod 16) (h :: o) /\ n = zlen (h :: o) /\ at_ f' tl)
   \/ zlen (f_data f) < f_pos f').
Proof.
  intros h f rest n f' Hh Hs A B E. unfold s5_body in E. rewrite byte_ext in E by lia.
  destruct (mod2 (h / 4)) as [M|M]; rewrite M in *.
  - change (0 =? 1) with false in E. change (z2b (b2z false)) with false in E. change (b2z false) with 0 in E. cbv beta iota in E.
    destruct (leb128 f) as [[[len res]|] f1] eqn:EL; [|discriminate E].
    destruct (leb128_inv f rest len res f1 A B EL) as (lb & tl & -> & El & -> & A1 & D1 & P1).
    injection E as <- <-. pose proof El as (F & L8 & V & U). pose proof (leb_form_nonempty _ F).
    pose proof (leb_value_nonneg lb). destruct A1 as (pre & Dp & Pp). pose proof (zlen_nonneg _ pre).
    assert (LB : zlen lb <= 8) by (unfold zlen; lia).
    unfold fseek_cur, fseek_to. replace (f_pos f1 + len <? 0) with false by lia. cbn [snd f_data f_pos].
    split; [congruence|]. split; [lia|]. split; [lia|].
    destruct (Z.le_gt_cases len (zlen tl)) as [G|G].
    + left. exists (lb ++ firstn (Z.to_nat len) tl), (skipn (Z.to_nat len) tl).
      assert (ZF : zlen (firstn (Z.to_nat len) tl) = len) by (unfold zlen in *; rewrite firstn_length; lia).
      split; [rewrite <- app_assoc, firstn_skipn; reflexivity|]. split.
      * apply (SO ((h / 8) mod 16) h [] lb (firstn (Z.to_nat len) tl)); auto; try (now constructor).
        -- rewrite M. reflexivity.
        -- change (zl (firstn (Z.to_nat len) tl)) with (zlen (firstn (Z.to_nat len) tl)). now rewrite ZF.
        -- unfold bytes in *. apply Forall_app in B as [_ B]. rewrite <- (firstn_skipn (Z.to_nat len) tl) in B.
           apply Forall_app in B. tauto.
      * split; [rewrite zlen_cons, zlen_app, ZF; lia|].
        exists (pre ++ firstn (Z.to_nat len) tl). cbn [f_data f_pos]. rewrite zlen_app, ZF, <- app_assoc, firstn_skipn.
        split; [exact Dp|lia].
    + right. rewrite <- D1, Dp, zlen_app. lia.
  - change (1 =? 1) with true in E. change (z2b (b2z true)) with true in E. change (b2z true) with 1 in E. cbv beta iota in E.
    pose proof (fread1 f rest A) as R. destruct rest as [|e rest].
    { destruct R as (f0 & R & _). rewrite R in E. discriminate E. }
    destruct R as (f0 & R & A0 & D0 & P0). rewrite R in E.
    assert (Be : bytes rest) by (unfold bytes in *; inversion B; assumption).
    destruct (leb128 f0) as [[[len res]|] f1] eqn:EL; [|discriminate E].
    destruct (leb128_inv f0 rest len res f1 A0 Be EL) as (lb & tl & -> & El & -> & A1 & D1 & P1).
    injection E as <- <-. pose proof El as (F & L8 & V & U). pose proof (leb_form_nonempty _ F).
    pose proof (leb_value_nonneg lb). destruct A1 as (pre & Dp & Pp). pose proof (zlen_nonneg _ pre).
    assert (LB : zlen lb <= 8) by (unfold zlen; lia).
    unfold fseek_cur, fseek_to. replace (f_pos f1 + len <? 0) with false by lia. cbn [snd f_data f_pos].
    split; [congruence|]. split; [lia|]. split; [lia|].
    destruct (Z.le_gt_cases len (zlen tl)) as [G|G].
    + left. exists ([e] ++ lb ++ firstn (Z.to_nat len) tl), (skipn (Z.to_nat len) tl).
      assert (ZF : zlen (firstn (Z.to_nat len) tl) = len) by (unfold zlen in *; rewrite firstn_length; lia).
      split; [cbn [app]; rewrite <- app_assoc, firstn_skipn; reflexivity|]. split.
      * apply (SO ((h / 8) mod 16) h [e] lb (firstn (Z.to_nat len) tl)); auto.
        -- rewrite M. reflexivity.
        -- unfold bytes in *. inversion B; subst. constructor; [assumption|constructor].
        -- change (zl (firstn (Z.to_nat len) tl)) with (zlen (firstn (Z.to_nat len) tl)). now rewrite ZF.
        -- unfold bytes in *. apply Forall_app in Be as [_ Be]. rewrite <- (firstn_skipn (Z.to_nat len) tl) in Be.
           apply Forall_app in Be. tauto.
      * split; [cbn [app]; rewrite !zlen_cons, zlen_app, ZF; lia|].
        exists (pre ++ firstn (Z.to_nat len) tl). cbn [f_data f_pos]. rewrite zlen_app, ZF, <- app_assoc, firstn_skipn.
        split; [exact Dp|lia].
    + right. rewrite <- D0, <- D1, Dp, zlen_app. lia.
Qed.

Lemma obu_head : forall t o, s5_obu t o -> exists h o', o = h :: o' /\ 0 <= h < 256 /\ (h / 8) mod 16 = t
  /\ (h / 2) mod 2 = 1.
Proof. intros t o H. inversion H; subst. eauto 10. Qed.

(** ** a whole temporal unit *)
Lemma scan_rest : forall l, s5_rest l -> forall fuel total f tail, at_ f (l ++ tail) -> s5_follow tail -> bytes tail ->
  (length l < fuel)%nat -> 0 <= total -> total + zlen l < 2 ^ 64 ->
  exists f', s5_scan fuel false total f = Ok (Some (total + zlen l), f') /\ f_data f' = f_data f
    /\ f_pos f' = f_pos f + zlen l.
Proof.
  induction 1 as [|t o l Ht Ho Hl IH]; intros fuel total f tail A FO BT Hf Ht0 Hm; (destruct fuel; [cbn in Hf; lia|]);
    rewrite scan_unfold.
  - cbn [app] in A. pose proof (fread1 f tail A) as R. rewrite zlen_nil, !Z.add_0_r. destruct tail as [|h tail].
    + destruct R as (f' & -> & D & P & E). rewrite E. cbn [negb andb]. eauto.
    + destruct R as (f' & -> & A' & D & P). change (byte0 [h]) with h. cbn [s5_follow] in FO.
      unfold bytes in BT. inversion BT; subst.
      rewrite byte_type, FO by lia. cbn [andb negb]. change (2 =? OBU_TD) with true. cbv zeta. cbn [andb].
      destruct A' as (pre & Dp & Pp). destruct A as (pre' & Dp' & Pp'). pose proof (zlen_nonneg _ pre').
      unfold fseek_cur, fseek_to. replace (f_pos f' + -1 <? 0) with false by lia. cbn [snd].
      eexists. split; [reflexivity|]. cbn. split; [exact D|lia].
  - destruct (obu_head t o Ho) as (h & o' & -> & Hh & HT & HS).
    cbn [app] in A. rewrite <- app_assoc in A.
    pose proof (fread1 f _ A) as (f1 & -> & A1 & D1 & P1). change (byte0 [h]) with h.
    rewrite byte_type, HT, byte_size, HS by lia. cbn [andb negb]. cbv zeta.
    unfold OBU_TD. replace (t =? 2) with false by lia. change (1 =? 1) with true. cbn [andb negb].
    destruct (body_ok t h o' (l ++ tail) f1 Ho A1) as (f2 & -> & A2 & D2 & P2).
    rewrite zlen_app, zlen_cons in *. pose proof (zlen_nonneg _ l). pose proof (zlen_nonneg _ o').
    rewrite u64_id by lia.
    destruct (IH fuel (total + (1 + zlen o')) f2 tail A2 FO BT) as (f' & E & D' & P'); try lia.
    { rewrite app_length in Hf. cbn in Hf. lia. }
    exists f'. rewrite E. split; [f_equal; f_equal; f_equal; lia|]. split; [congruence|lia].
Qed.

Lemma scan_unit : forall p, s5_unit p -> forall fuel f tail, at_ f (p ++ tail) -> s5_follow tail -> bytes tail ->
  (length p < fuel)%nat -> zlen p < 2 ^ 64 ->
  exists f', s5_scan fuel true 0 f = Ok (Some (zlen p), f') /\ f_data f' = f_data f /\ f_pos f' = f_pos f + zlen p.
Proof.
  intros p [o l Ho Hl] fuel f tail A FO BT Hf Hm. destruct fuel; [cbn in Hf; lia|]. rewrite scan_unfold.
  destruct (obu_head 2 o Ho) as (h & o' & -> & Hh & HT & HS).
  cbn [app] in A. rewrite <- app_assoc in A.
  pose proof (fread1 f _ A) as (f1 & -> & A1 & D1 & P1). change (byte0 [h]) with h.
  rewrite byte_type, HT, byte_size, HS by lia. cbn [andb negb]. cbv zeta.
  change (2 =? OBU_TD) with true. change (1 =? 1) with true. cbn [andb negb].
  destruct (body_ok 2 h o' (l ++ tail) f1 Ho A1) as (f2 & -> & A2 & D2 & P2).
  rewrite zlen_app, zlen_cons in *. pose proof (zlen_nonneg _ l). pose proof (zlen_nonneg _ o').
  rewrite u64_id by lia.
  destruct (scan_rest l Hl fuel (0 + (1 + zlen o')) f2 tail A2 FO BT) as (f' & E & D' & P'); try lia.
  { rewrite app_length in Hf. cbn in Hf. lia. }
  exists f'. rewrite E. split; [f_equal; f_equal; f_equal; lia|]. split; [congruence|lia].
Qed.

(** the converse: a scan that ends well has seen a unit, or has run past the end *)
Lemma scan_past : forall fuel total f, past f -> (0 < fuel)%nat ->
  exists f', s5_scan fuel false total f = Ok (Some total, f') /\ f_data f' = f_data f /\ f_pos f' = f_pos f.
Proof.
  intros [|fuel] total f P Hf; [lia|]. rewrite scan_unfold. unfold past in P.
  unfold fread. cbn [Z.eqb]. replace (f_pos f + 1 <=? zlen (f_data f)) with false by lia.
  cbn. eexists. split; [reflexivity|]. cbn. split; [reflexivity|lia].
Qed.

Lemma scan_total : forall fuel first total f rest, at_ f rest -> bytes rest -> (length rest < fuel)%nat ->
  0 <= total -> total + zlen rest < 2 ^ 63 ->
  exists r f', s5_scan fuel first total f = Ok (r, f') /\ f_data f' = f_data f /\
  forall t, r = Some t -> total <= t < 2 ^ 64 /\ f_pos f' = f_pos f + (t - total) /\
    (zlen (f_data f) < f_pos f + (t - total)
     \/ exists p tail, rest = p ++ tail /\ (if first then s5_unit p else s5_rest p) /\ s5_follow tail /\ t = total + zlen p).
Proof.
  induction fuel; intros first total f rest A B Hf H0 HM; [lia|].
  rewrite scan_unfold. pose proof (fread1 f rest A) as R. destruct rest as [|h rest].
  { destruct R as (f' & -> & D & P & E). rewrite E, andb_true_r. destruct first; cbn [negb].
    - exists None, f'. split; [reflexivity|]. split; [exact D|]. discriminate.
    - exists (Some total), f'. split; [reflexivity|]. split; [exact D|]. intros t T. injection T as <-.
      rewrite zlen_nil in HM. split; [lia|]. split; [lia|]. right. exists [], []. rewrite zlen_nil. repeat split; try constructor; lia. }
  destruct R as (f1 & -> & A1 & D1 & P1). change (byte0 [h]) with h. cbv zeta.
  assert (Hh : 0 <= h < 256 /\ bytes rest) by (unfold bytes in *; inversion B; auto). destruct Hh as [Hh B'].
  rewrite byte_type, byte_size by lia. unfold OBU_TD.
  assert (G : forall (b : bool), negb b && ((h / 8) mod 16 =? 2) = false -> b && negb ((h / 8) mod 16 =? 2) = false ->
    exists r f', (if negb ((h / 2) mod 2 =? 1) then Ok (None, f1)
       else match s5_body h f1 with
            | (None, f) => Ok (None, f)
            | (Some n, f) => s5_scan fuel false (u64 (total + n)) f
            end) = Ok (r, f') /\ f_data f' = f_data f /\
  forall t, r = Some t -> total <= t < 2 ^ 64 /\ f_pos f' = f_pos f + (t - total) /\
    (zlen (f_data f) < f_pos f + (t - total)
     \/ exists p tail, h :: rest = p ++ tail /\ (if b then s5_unit p else s5_rest p) /\ s5_follow tail /\ t = total + zlen p)).
  { intros b T1 T2. destruct (Z.eqb_spec ((h / 2) mod 2) 1) as [HS|HS]; cbn [negb].
    2: { exists None, f1. split; [reflexivity|]. split; [exact D1|]. discriminate. }
    destruct (s5_body h f1) as [[n|] f2] eqn:EB.
    2: { exists None, f2. split; [reflexivity|]. split; [|discriminate].
         (* the data never change *)
         rewrite <- D1. clear -EB.
         unfold s5_body in EB.
         assert (FR : forall g, f_data (snd (fread g 1)) = f_data g).
         { intros g. unfold fread. cbn [Z.eqb]. destruct (f_pos g + 1 <=? zlen (f_data g)); reflexivity. }
         assert (LR : forall n i v g, f_data (snd (leb128_loop n i v g)) = f_data g).
         { induction n; intros i v g; [reflexivity|]. cbn [leb128_loop]. pose proof (FR g) as FG.
           destruct (fread g 1) as [[b|] g1]; [|exact FG]. cbn [snd] in FG.
           destruct (z2b (Z.land (byte0 b) 128) && (i + 1 <? 8)); [rewrite IHn; exact FG|].
           destruct ((UINT_MAX <? Z.lor v (u64 (Z.shiftl (Z.land (byte0 b) 127) (i * 7)))) || z2b (Z.land (byte0 b) 128));
             exact FG. }
         destruct (if z2b (b2z (z2b (Z.land h 4))) then fread f1 1 else (Some [], f1)) as [[x|] g1] eqn:EX.
         - assert (XD : f_data g1 = f_data f1).
           { destruct (z2b (b2z (z2b (Z.land h 4)))); [rewrite <- (FR f1), EX; reflexivity|injection EX as _ <-; reflexivity]. }
           pose proof (LR 8%nat 0 0 g1) as LG. change (leb128_loop 8 0 0 g1) with (leb128 g1) in LG.
           destruct (leb128 g1) as [[[len res]|] g2]; [discriminate EB|]. injection EB as <-. cbn [snd] in LG. congruence.
         - assert (XD : f_data g1 = f_data f1).
           { destruct (z2b (b2z (z2b (Z.land h 4)))); [rewrite <- (FR f1), EX; reflexivity|discriminate EX]. }
           injection EB as <-. exact XD. }
    destruct (body_inv h f1 rest n f2 Hh HS A1 B' EB) as (D2 & P2 & Hn & X).
    pose proof (zlen_nonneg _ rest). rewrite zlen_cons in HM.
    destruct X as [(o & tl & -> & Ho & EN & A2)|X].
    - assert (ZO : zlen (h :: o) = 1 + zlen o) by apply zlen_cons. rewrite ZO in EN.
      rewrite zlen_app in *. pose proof (zlen_nonneg _ o). pose proof (zlen_nonneg _ tl).
      rewrite u64_id by lia.
      assert (BT : bytes tl) by (unfold bytes in *; apply Forall_app in B'; tauto).
      destruct (IHfuel false (total + n) f2 tl A2 BT) as (r & f' & E & D' & X); try lia.
      { cbn in Hf. rewrite app_length in Hf. unfold zlen in *. lia. }
      exists r, f'. rewrite E. split; [reflexivity|]. split; [congruence|].
      intros t T. destruct (X t T) as (T3 & P3 & X3). split; [lia|]. split; [lia|].
      destruct X3 as [X3|(p & tail & -> & R & FO & ->)]; [left; rewrite D2, D1 in X3; lia|].
      right. exists ((h :: o) ++ p), tail.
      split; [cbn [app]; rewrite <- app_assoc; reflexivity|]. split; [|split; [exact FO|rewrite zlen_app; lia]].
      destruct b; cbn [negb andb] in T1, T2.
      + apply negb_false_iff, Z.eqb_eq in T2. rewrite T2 in Ho. now constructor.
      + apply Z.eqb_neq in T1. econstructor; eauto.
    - assert (NL : u64 (total + n) = total + n) by (apply u64_id; lia). rewrite NL.
      assert (PF : past f2) by (unfold past; rewrite D2; lia).
      destruct (scan_past fuel (total + n) f2 PF) as (f' & E & D' & P').
      { cbn in Hf. lia. }
      exists (Some (total + n)), f'. rewrite E. split; [reflexivity|]. split; [congruence|].
      intros t T. injection T as <-. split; [lia|]. split; [lia|]. left. rewrite <- D1. lia. }
  destruct first; cbn [negb andb] in *.
  - destruct (Z.eqb_spec ((h / 8) mod 16) 2) as [HT|HT]; cbn [negb] in *.
    + destruct (G true) as (r & f' & E & X); [cbn; auto|cbn; auto|]. exists r, f'. split; [exact E|exact X].
    + exists None, f1. split; [reflexivity|]. split; [exact D1|]. discriminate.
  - destruct (Z.eqb_spec ((h / 8) mod 16) 2) as [HT|HT]; cbn [negb] in *.
    + destruct A1 as (pre & Dp & Pp). destruct A as (pre' & Dp' & Pp'). pose proof (zlen_nonneg _ pre').
      unfold fseek_cur, fseek_to. replace (f_pos f1 + -1 <? 0) with false by lia. cbn [snd].
      eexists. eexists. split; [reflexivity|]. cbn [f_data f_pos]. split; [exact D1|]. intros t T. injection T as <-.
      pose proof (zlen_nonneg _ (h :: rest)). split; [lia|]. split; [lia|]. right. exists [], (h :: rest). rewrite zlen_nil.
      repeat split; try constructor; auto; lia.
    + destruct (G false) as (r & f' & E & X); [cbn; auto|cbn; auto|]. exists r, f'. split; [exact E|exact X].
Qed.

(** ** reading *)
Section READ.
Variable alloc : Z -> bool.

(** reading returns exactly the temporal unit at the position, if there is one *)
Theorem section5_exact : forall f rest, at_ f rest -> bytes rest -> zlen rest < 2 ^ 63 ->
  exists r f', section5_read alloc f = Ok (r, f') /\ f_data f' = f_data f /\
  (forall p, r = Some p ->
     alloc (zlen p) = true /\ s5_unit p /\ exists tail, rest = p ++ tail /\ s5_follow tail /\ at_ f' tail) /\
  (forall p tail, s5_unit p -> rest = p ++ tail -> s5_follow tail -> alloc (zlen p) = true -> r = Some p).
Proof.
  intros f rest A B HM. unfold section5_read.
  assert (LD : (length rest < S (length (f_data f)))%nat).
  { destruct A as (pre & D & _). rewrite D, app_length. lia. }
  assert (P0 : 0 <= f_pos f) by (destruct A as (pre & _ & ->); apply zlen_nonneg).
  destruct (scan_total (S (length (f_data f))) true 0 f rest A B LD ltac:(lia) ltac:(lia)) as (r & f1 & E & D1 & X).
  rewrite E. cbn [obind].
  (* completeness of the scan *)
  assert (C : forall p tail, s5_unit p -> rest = p ++ tail -> s5_follow tail -> r = Some (zlen p)).
  { intros p tail U -> FO. assert (BT : bytes tail) by (unfold bytes in *; apply Forall_app in B; tauto).
    rewrite zlen_app in HM. pose proof (zlen_nonneg _ tail). rewrite app_length in LD.
    destruct (scan_unit p U (S (length (f_data f))) f tail A FO BT) as (f2 & E2 & _); [lia|lia|].
    rewrite E2 in E. injection E as <- _. reflexivity. }
  destruct r as [t|].
  2: { exists None, f1. split; [reflexivity|]. split; [exact D1|]. split; [discriminate|].
       intros p tail U R FO _. discriminate (C p tail U R FO). }
  destruct (X t eq_refl) as (T0 & P1 & Y).
  assert (FB : exists f2, fseek_cur f1 (- t) = (true, f2) /\ f_data f2 = f_data f /\ f_pos f2 = f_pos f).
  { unfold fseek_cur, fseek_to. replace (f_pos f1 + - t) with (f_pos f) by lia.
    replace (f_pos f <? 0) with false by lia. eexists. split; [reflexivity|]. cbn. auto. }
  destruct FB as (f2 & -> & D2 & P2). cbn [snd].
  destruct (alloc t) eqn:EA; cbn [negb].
  2: { exists None, f2. split; [reflexivity|]. split; [exact D2|]. split; [discriminate|].
       intros p tail U R FO AL. pose proof (C p tail U R FO) as CT. injection CT as ->. congruence. }
  destruct Y as [Y|(p & tail & R & U & FO & T)].
  - (* ran past the end *)
    unfold fread. replace (t =? 0) with false.
    2: { symmetry. apply Z.eqb_neq. intros ->. destruct A as (pre & D & P). rewrite D, zlen_app, P in Y.
         pose proof (zlen_nonneg _ rest). lia. }
    rewrite D2, P2. replace (f_pos f + t <=? zlen (f_data f)) with false by lia.
    eexists. eexists. split; [reflexivity|]. split; [reflexivity|]. split; [discriminate|].
    intros p tail U R FO AL. pose proof (C p tail U R FO) as CT. injection CT as ->.
    exfalso. destruct A as (pre & D & P). rewrite D, P, R, !zlen_app in Y.
    pose proof (zlen_nonneg _ tail). lia.
  - assert (ZP : 0 < zlen p).
    { destruct U as [o l Ho Hl]. destruct (obu_head 2 o Ho) as (h & o' & -> & _).
      rewrite zlen_app, zlen_cons. pose proof (zlen_nonneg _ o'). pose proof (zlen_nonneg _ l). lia. }
    assert (A2 : at_ f2 (p ++ tail)).
    { destruct A as (pre & D & P). exists pre. rewrite D2, P2, <- R. auto. }
    assert (TP : t = zlen p) by lia. rewrite TP in *.
    destruct (fread_at f2 p tail (zlen p) A2 eq_refl ZP) as (f3 & -> & A3 & D3 & P3).
    exists (Some p), f3. split; [reflexivity|]. split; [congruence|]. split.
    + intros q Q. injection Q as <-. split; [exact EA|]. split; [exact U|]. exists tail. auto.
    + intros q tl Uq Rq FOq AL. pose proof (C q tl Uq Rq FOq) as CT. injection CT as CT.
      assert (p = q).
      { rewrite R in Rq. unfold zlen in CT.
        assert (firstn (length p) (p ++ tail) = firstn (length p) (q ++ tl)) by now rewrite Rq.
        replace (length p) with (length q) in H at 2 by lia.
        rewrite !firstn_app, !Nat.sub_diag, !firstn_all in H. cbn [firstn] in H.
        now rewrite !app_nil_r in H. }
      subst q. reflexivity.
Qed.

(** the packets of a well-formed file *)
Fixpoint s5_reads (n : nat) (f : file) : outcome (list (option (list Z))) :=
  match n with
  | O => Ok []
  | S n => let! r := section5_read alloc f in let! l := s5_reads n (snd r) in Ok (fst r :: l)
  end.

Lemma unit_pos : forall p, s5_unit p -> 0 < zlen p.
Proof.
  intros p [o l Ho Hl]. destruct (obu_head 2 o Ho) as (h & o' & -> & _).
  rewrite zlen_app, zlen_cons. pose proof (zlen_nonneg _ o'). pose proof (zlen_nonneg _ l). lia.
Qed.
Lemma follow_units : forall us, Forall s5_unit us -> s5_follow (concat us).
Proof.
  intros us H. destruct H as [|u us [o l Ho Hl] _]; [exact I|].
  destruct (obu_head 2 o Ho) as (h & o' & -> & _ & HT & _). cbn. exact HT.
Qed.

Lemma s5_reads_end : forall n f, at_ f [] -> s5_reads n f = Ok (repeat None n).
Proof.
  induction n; intros f A; [reflexivity|]. cbn [s5_reads repeat].
  unfold section5_read. rewrite scan_unfold. pose proof (fread1 f [] A) as (f1 & -> & D & P & E).
  cbn [negb andb obind]. cbv beta iota. cbn [obind fst snd]. rewrite IHn; [reflexivity|].
  destruct A as (pre & Dp & Pp). exists pre. split; congruence.
Qed.

Theorem section5_roundtrip : forall us f n, Forall s5_unit us -> at_ f (concat us) -> bytes (concat us) ->
  zlen (concat us) < 2 ^ 63 -> (forall u, In u us -> alloc (zlen u) = true) ->
  s5_reads (length us + n) f = Ok (map Some us ++ repeat None n).
Proof.
  induction us as [|u us IH]; intros f n F A B HM AL.
  - cbn [length Nat.add map app]. now apply s5_reads_end.
  - inversion F as [|? ? U F']; subst. cbn [concat] in *.
    destruct (section5_exact f _ A B HM) as (r & f1 & E & D1 & S1 & C1).
    pose proof (C1 u (concat us) U eq_refl (follow_units us F') (AL u ltac:(cbn; auto))) as ->.
    destruct (S1 u eq_refl) as (_ & _ & tail & R & _ & A1). apply app_inv_head in R. subst tail.
    cbn [length Nat.add s5_reads map app]. rewrite E. cbn [obind fst snd].
    rewrite zlen_app in HM. pose proof (zlen_nonneg _ u).
    unfold bytes in B. apply Forall_app in B as [_ B].
    rewrite (IH f1 n F' A1 B); [reflexivity|lia|]. intros v Hv. apply AL. cbn; auto.
Qed.
End READ.

(** ** opening *)
Lemma count_rest : forall l, s5_rest l -> forall fuel n f tail, at_ f (l ++ tail) -> (length l < fuel)%nat ->
  exists fuel' f', s5_count fuel n f = s5_count fuel' n f' /\ at_ f' tail /\ (fuel <= fuel' + length l)%nat.
Proof.
  induction 1 as [|t o l Ht Ho Hl IH]; intros fuel n f tail A Hf.
  - exists fuel, f. repeat split; auto. cbn. lia.
  - destruct fuel; [cbn in Hf; lia|]. rewrite count_unfold.
    destruct (obu_head t o Ho) as (h & o' & -> & Hh & HT & HS).
    cbn [app] in A. rewrite <- app_assoc in A.
    pose proof (fread1 f _ A) as (f1 & -> & A1 & D1 & P1). change (byte0 [h]) with h. cbv zeta.
    rewrite byte_type, HT, byte_size, HS by lia. unfold OBU_TD. replace (t =? 2) with false by lia.
    change (1 =? 1) with true. cbn [negb].
    destruct (body_ok t h o' (l ++ tail) f1 Ho A1) as (f2 & -> & A2 & D2 & P2).
    rewrite app_length in *. cbn [length] in *.
    destruct (IH fuel n f2 tail A2 ltac:(lia)) as (fuel' & f' & E & A' & L').
    exists fuel', f'. rewrite E. repeat split; auto. lia.
Qed.

Lemma count_units : forall us, Forall s5_unit us -> forall fuel n f, at_ f (concat us) -> (length (concat us) < fuel)%nat ->
  0 <= n -> n + zlen us < 2 ^ 32 -> s5_count fuel n f = Ok (Some (n + zlen us)).
Proof.
  induction 1 as [|u us U F IH]; intros fuel n f A Hf Hn HM.
  - destruct fuel; [cbn in Hf; lia|]. rewrite count_unfold. pose proof (fread1 f [] A) as (f1 & -> & _).
    rewrite zlen_nil, Z.add_0_r. reflexivity.
  - destruct U as [o l Ho Hl]. cbn [concat] in *. rewrite zlen_cons in HM. pose proof (zlen_nonneg _ us).
    destruct fuel; [cbn in Hf; lia|]. rewrite count_unfold.
    destruct (obu_head 2 o Ho) as (h & o' & -> & Hh & HT & HS).
    rewrite <- app_assoc in A. cbn [app] in A.
    pose proof (fread1 f _ A) as (f1 & -> & A1 & D1 & P1). change (byte0 [h]) with h. cbv zeta.
    rewrite byte_type, HT, byte_size, HS by lia. change (2 =? OBU_TD) with true.
    change (1 =? 1) with true. cbn [negb].
    destruct (body_ok 2 h o' (l ++ concat us) f1 Ho A1) as (f2 & -> & A2 & D2 & P2).
    rewrite !app_length in *. cbn [length] in *. rewrite u32_id by lia.
    destruct (count_rest l Hl fuel (n + 1) f2 (concat us) A2 ltac:(lia)) as (fuel' & f' & E & A' & L').
    rewrite E, (IH fuel' (n + 1) f' A') by lia. rewrite zlen_cons. do 2 f_equal. lia.
Qed.

Lemma section5_open_ok : forall us, Forall s5_unit us -> zlen us < 2 ^ 32 ->
  section5_open (concat us) = Ok (Some (zlen us, fopen (concat us))).
Proof.
  intros us F H. unfold section5_open. rewrite (count_units us F _ 0 (fopen (concat us)) (fopen_at _)) by lia.
  reflexivity.
Qed.

(** opening any file terminates *)
Lemma body_moves : forall h f n f', 0 <= f_pos f -> s5_body h f = (Some n, f') ->
  f_data f' = f_data f /\ f_pos f < f_pos f' .
Proof.
  intros h f n f' P E. unfold s5_body in E.
  assert (FR : forall g b g', fread g 1 = (Some b, g') -> f_data g' = f_data g /\ f_pos g' = f_pos g + 1).
  { intros g b g' E1. apply fread_inv in E1. tauto. }
  assert (LR : forall n i v g x g', leb128_loop n i v g = (Some x, g') -> f_data g' = f_data g /\ f_pos g < f_pos g').
  { induction n0; intros i v g x g' E1; [discriminate E1|]. cbn [leb128_loop] in E1.
    destruct (fread g 1) as [[b|] g1] eqn:E2; [|discriminate E1]. apply FR in E2 as [D2 P2].
    destruct (z2b (Z.land (byte0 b) 128) && (i + 1 <? 8)).
    - apply IHn0 in E1 as [D1 P1]. split; [congruence|lia].
    - destruct ((UINT_MAX <? Z.lor v (u64 (Z.shiftl (Z.land (byte0 b) 127) (i * 7)))) || z2b (Z.land (byte0 b) 128));
        [discriminate E1|]. injection E1 as _ <-. split; [congruence|lia]. }
  destruct (if z2b (b2z (z2b (Z.land h 4))) then fread f 1 else (Some [], f)) as [[x|] g1] eqn:EX; [|discriminate E].
  assert (XD : f_data g1 = f_data f /\ f_pos f <= f_pos g1).
  { destruct (z2b (b2z (z2b (Z.land h 4)))); [apply FR in EX as [-> ->]; split; [reflexivity|lia]|injection EX as _ <-; split; [reflexivity|lia]]. }
  destruct (leb128 g1) as [[[len res]|] g2] eqn:EL; [|discriminate E].
  pose proof (leb128_range _ _ _ _ EL) as [R1 R2]. apply LR in EL as [D2 P2].
  injection E as _ <-. unfold fseek_cur, fseek_to. replace (f_pos g2 + len <? 0) with false by lia. cbn.
  split; [destruct XD; congruence|lia].
Qed.

Lemma count_total : forall fuel n f, 0 <= f_pos f -> zlen (f_data f) - f_pos f < Z.of_nat fuel -> (0 < fuel)%nat ->
  s5_count fuel n f <> Undef.
Proof.
  induction fuel; intros n f P H H0; [lia|]. rewrite count_unfold.
  destruct (fread f 1) as [[b|] f1] eqn:E1; [|discriminate]. cbv zeta.
  apply fread_inv in E1 as (D1 & P1 & L1 & _).
  destruct (Z.land (byte0 b) 2 =? 0); [discriminate|].
  destruct (s5_body (byte0 b) f1) as [[k|] f2] eqn:E2; [|discriminate].
  apply body_moves in E2 as [D2 P2]; [|lia]. apply IHfuel; [lia|rewrite D2, D1; lia|lia].
Qed.
Lemma section5_open_defined : forall l, section5_open l <> Undef.
Proof.
  intros l. unfold section5_open.
  pose proof (count_total (S (length l)) 0 (fopen l)) as H. cbn [fopen f_pos f_data] in H. unfold zlen in H.
  destruct (s5_count (S (length l)) 0 (fopen l)) as [[n|]|]; try discriminate.
  exfalso. apply H; [lia|lia|lia|reflexivity].
Qed.

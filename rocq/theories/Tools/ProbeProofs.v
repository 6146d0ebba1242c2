(** The probes against [ProbeSpec]. *)
From Coq Require Import ZArith List Bool Lia.
From Verif Require Import Base.CInt Base.Lemmas Base.Finite Tools.Input Tools.InputSpec Tools.InputProofs
  Tools.IvfOpen Tools.Section5Proofs Tools.ProbeSpec Tools.Md5Proofs.
Import ListNotations.
Open Scope Z_scope.
Open Scope outcome_scope.

Lemma fits_int_true : forall x, fits_int x = true <-> - 2 ^ 31 <= x < 2 ^ 31.
Proof. intros. unfold fits_int, INT_MIN, INT_MAX. rewrite andb_true_iff, !Z.leb_le. lia. Qed.

(** [data] from [pos] on is [w ++ w'] *)
Definition win (data : list Z) (pos : Z) (w w' : list Z) : Prop :=
  0 <= pos /\ skipn (Z.to_nat pos) data = w ++ w'.

Lemma win_rd : forall data pos b w w', win data pos (b :: w) w' -> rd_at data pos = Ok b.
Proof.
  intros data pos b w w' [P E]. unfold rd_at. replace (pos <? 0) with false by lia.
  replace (nth_error data (Z.to_nat pos)) with (Some b); [reflexivity|].
  rewrite <- (firstn_skipn (Z.to_nat pos) data) at 1.
  assert (L : length (firstn (Z.to_nat pos) data) = Z.to_nat pos).
  { rewrite firstn_length. assert (length (skipn (Z.to_nat pos) data) <> 0)%nat by (rewrite E; cbn; lia).
    rewrite skipn_length in H. lia. }
  rewrite nth_error_app2 by lia. rewrite L, Nat.sub_diag, E. reflexivity.
Qed.
Lemma win_next : forall data pos b w w', win data pos (b :: w) w' -> win data (pos + 1) w w'.
Proof.
  intros data pos b w w' [P E]. split; [lia|]. rewrite Z2Nat.inj_add by lia. rewrite <- skipn_skipn', E. reflexivity.
Qed.
Lemma win_skip : forall data pos w w' k, win data pos w w' -> 0 <= k <= zlen w ->
  win data (pos + k) (skipn (Z.to_nat k) w) w'.
Proof.
  intros data pos w w' k [P E] K. split; [lia|]. rewrite Z2Nat.inj_add by lia. rewrite <- skipn_skipn', E.
  rewrite skipn_app. f_equal. unfold zlen in K. replace (Z.to_nat k - length w)%nat with 0%nat by lia. reflexivity.
Qed.

Lemma leb_dec_range : forall n l v k, leb_dec n l = Some (v, k) -> bytes l -> 0 <= v < 2 ^ (7 * Z.of_nat n) /\ 1 <= k <= Z.of_nat n /\ k <= zlen l.
Proof.
  induction n; intros l v k E B; [discriminate E|]. destruct l as [|b l]; [discriminate E|]. cbn [leb_dec] in E.
  unfold bytes in B. inversion B as [|? ? Hb B']; subst.
  assert (P : 2 ^ (7 * Z.of_nat (S n)) = 128 * 2 ^ (7 * Z.of_nat n)).
  { replace (7 * Z.of_nat (S n)) with (7 + 7 * Z.of_nat n) by lia. rewrite Z.pow_add_r by lia. reflexivity. }
  assert (0 < 2 ^ (7 * Z.of_nat n)) by (apply Z.pow_pos_nonneg; lia).
  rewrite zlen_cons. pose proof (zlen_nonneg _ l).
  destruct (Z.ltb_spec b 128).
  - injection E as <- <-. lia.
  - destruct (leb_dec n l) as [[v' k']|] eqn:E'; [|discriminate E]. injection E as <- <-.
    apply IHn in E' as (V & K & L); [|exact B']. lia.
Qed.

Lemma leb_loop_ref : forall n i val data pos w w', win data pos w w' -> bytes w -> 0 <= i -> i + Z.of_nat n = 8 ->
  0 <= val < 2 ^ (7 * i) -> zlen w <= 2048 -> (0 < n)%nat ->
  leb_loop n i val data pos (zlen w)
  = Ok (match leb_dec n w with
        | Some (v, k) => if val + v * 2 ^ (7 * i) <? 2 ^ 32 then Some (val + v * 2 ^ (7 * i), i + k) else None
        | None => None
        end).
Proof.
  induction n; intros i val data pos w w' W B Hi Hn Hv HL H0; [lia|].
  cbn [leb_loop leb_dec]. pose proof (zlen_nonneg _ w).
  replace (fits_int (zlen w - 1)) with true by (symmetry; apply fits_int_true; lia). cbn [obind].
  destruct w as [|b w].
  { reflexivity. }
  rewrite zlen_cons in *. pose proof (zlen_nonneg _ w). replace (1 + zlen w =? 0) with false by lia.
  rewrite (win_rd _ _ _ _ _ W). cbn [obind].
  unfold bytes in B. inversion B as [|? ? Hb B']; subst.
  destruct (leb_step val b i ltac:(lia) Hv) as [S1 S2]. rewrite S1. rewrite land80 by lia.
  assert (P : 2 ^ (7 * (i + 1)) = 128 * 2 ^ (7 * i)).
  { replace (7 * (i + 1)) with (7 + 7 * i) by lia. rewrite Z.pow_add_r by lia. reflexivity. }
  assert (PP : 0 < 2 ^ (7 * i)) by (apply Z.pow_pos_nonneg; lia).
  destruct (Z.ltb_spec b 128) as [L|L].
  - replace (128 <=? b) with false by lia. cbn [andb orb]. rewrite orb_false_r.
    rewrite (Z.mod_small b 128) by lia. unfold UINT_MAX.
    destruct (Z.ltb_spec (val + b * 2 ^ (7 * i)) (2 ^ 32)) as [M|M].
    + replace (4294967295 <? val + b * 2 ^ (7 * i)) with false by lia. reflexivity.
    + replace (4294967295 <? val + b * 2 ^ (7 * i)) with true by lia. reflexivity.
  - replace (128 <=? b) with true by lia.
    assert (MB : b mod 128 = b - 128).
    { replace b with (b - 128 + 1 * 128) at 1 by lia. rewrite Z_mod_plus_full. apply Z.mod_small. lia. }
    rewrite MB in *.
    destruct (Z.ltb_spec (i + 1) 8) as [M|M]; cbn [andb].
    + replace (1 + zlen w - 1) with (zlen w) by lia.
      rewrite (IHn (i + 1) (val + (b - 128) * 2 ^ (7 * i)) data (pos + 1) w w'); try lia; auto; [|now apply win_next in W].
      destruct (leb_dec n w) as [[v k]|]; [|reflexivity].
      rewrite P. replace (val + (b - 128) * 2 ^ (7 * i) + v * (128 * 2 ^ (7 * i)))
        with (val + (b - 128 + 128 * v) * 2 ^ (7 * i)) by ring.
      replace (i + 1 + k) with (i + (k + 1)) by lia. reflexivity.
    + rewrite orb_true_r. assert (n = 0)%nat by lia. subst n. reflexivity.
Qed.

Lemma leb_ref : forall data pos w w', win data pos w w' -> bytes w -> zlen w <= 2048 ->
  leb data pos (zlen w) = Ok (leb32 w).
Proof.
  intros data pos w w' W B L. unfold leb. rewrite (leb_loop_ref 8 0 0 data pos w w'); auto; try lia.
  unfold leb32. destruct (leb_dec 8 w) as [[v k]|]; [|reflexivity].
  change (2 ^ (7 * 0)) with 1. rewrite Z.mul_1_r, !Z.add_0_l. reflexivity.
Qed.

Lemma leb32_range : forall l v k, leb32 l = Some (v, k) -> bytes l -> 0 <= v < 2 ^ 32 /\ 1 <= k <= 8 /\ k <= zlen l.
Proof.
  intros l v k E B. unfold leb32 in E. destruct (leb_dec 8 l) as [[v' k']|] eqn:ED; [|discriminate E].
  destruct (Z.ltb_spec v' (2 ^ 32)); [|discriminate E]. injection E as <- <-.
  apply leb_dec_range in ED; [|exact B]. lia.
Qed.

Lemma skipn_bytes : forall n l, bytes l -> bytes (skipn n l).
Proof.
  intros n l B. unfold bytes in *. rewrite <- (firstn_skipn n l) in B. apply Forall_app in B. tauto.
Qed.
Lemma firstn_bytes : forall n l, bytes l -> bytes (firstn n l).
Proof.
  intros n l B. unfold bytes in *. rewrite <- (firstn_skipn n l) in B. apply Forall_app in B. tauto.
Qed.

Lemma hdr_bits : forall h, 0 <= h < 128 ->
  Z.shiftr (Z.land h 0x78) 3 = (h / 8) mod 16 /\ Z.shiftr (Z.land h 0x4) 2 = (h / 4) mod 2
  /\ Z.shiftr (Z.land h 0x2) 1 = (h / 2) mod 2 /\ z2b (Z.land h 0x80) = false.
Proof.
  intros h H.
  pose proof (all_in_ok 0 127 (fun h =>
    (Z.shiftr (Z.land h 0x78) 3 =? (h / 8) mod 16) && (Z.shiftr (Z.land h 0x4) 2 =? (h / 4) mod 2)
    && (Z.shiftr (Z.land h 0x2) 1 =? (h / 2) mod 2) && negb (z2b (Z.land h 0x80))) ltac:(vm_compute; reflexivity) h ltac:(lia)) as G.
  cbv beta in G. rewrite !andb_true_iff, !Z.eqb_eq, negb_true_iff in G. tauto.
Qed.

Ltac tozlen := repeat match goal with
  | |- context [@zl ?A ?l] => change (@zl A l) with (@zlen A l)
  | H : context [@zl ?A ?l] |- _ => change (@zl A l) with (@zlen A l) in H
  end.

Lemma hdr_ref : forall data pos w w' imp, win data pos w w' -> bytes w -> zlen w <= 2048 ->
  match obu_hdr imp w with
  | None => parse_obu_header data pos (zlen w) imp = Ok None
  | Some (t, v, k) => v < HUGE -> parse_obu_header data pos (zlen w) imp = Ok (Some (k + v, v, t))
  end.
Proof.
  intros data pos w w' imp W B L. unfold obu_hdr, parse_obu_header.
  destruct w as [|h w]; [reflexivity|]. rewrite zlen_cons in *. pose proof (zlen_nonneg _ w).
  replace (1 + zlen w =? 0) with false by lia. rewrite (win_rd _ _ _ _ _ W). cbn [obind].
  unfold bytes in B. inversion B as [|? ? Hh B']; subst.
  destruct (Z.leb_spec 128 h) as [H1|H1].
  { rewrite land80 by lia. replace (128 <=? h) with true by lia. reflexivity. }
  destruct (hdr_bits h ltac:(lia)) as (-> & -> & -> & ->).
  unfold iadd. rewrite (proj2 (fits_int_true (1 + zlen w + -1))) by lia. cbn [obind].
  replace (1 + zlen w + -1) with (zlen w) by lia.
  pose proof (win_next _ _ _ _ _ W) as W1. unfold HUGE.
  assert (K : forall e w1, 0 <= e <= 1 -> win data (pos + 1 + e) w1 w' -> bytes w1 -> zlen w1 <= 2048 ->
    match (if (h / 2) mod 2 =? 1
           then match leb32 w1 with Some (v, k) => Some ((h / 8) mod 16, v, 1 + e + k) | None => None end
           else if imp then Some ((h / 8) mod 16, zl w1, 1 + e) else None) with
    | None => (if z2b ((h / 2) mod 2) then
         let! r := leb data (pos + 1 + e) (zlen w1) in
         match r with
         | None => Ok None
         | Some (obu_size, ret) =>
           let! r := iadd (s32 obu_size) ret in let! r := iadd r 1 in let! r := iadd r e in Ok (Some (r, obu_size, (h / 8) mod 16))
         end
       else if negb imp then Ok None
       else let! r := iadd (zlen w1) 1 in let! r := iadd r e in Ok (Some (r, u64 (zlen w1), (h / 8) mod 16))) = Ok None
    | Some (t, v, k) => v < HUGE -> (if z2b ((h / 2) mod 2) then
         let! r := leb data (pos + 1 + e) (zlen w1) in
         match r with
         | None => Ok None
         | Some (obu_size, ret) =>
           let! r := iadd (s32 obu_size) ret in let! r := iadd r 1 in let! r := iadd r e in Ok (Some (r, obu_size, (h / 8) mod 16))
         end
       else if negb imp then Ok None
       else let! r := iadd (zlen w1) 1 in let! r := iadd r e in Ok (Some (r, u64 (zlen w1), (h / 8) mod 16))) = Ok (Some (k + v, v, t))
    end).
  { intros e w1 He W2 B2 L2. pose proof (zlen_nonneg _ w1).
    destruct (mod2 (h / 2)) as [M|M]; rewrite M; [change (0 =? 1) with false; change (z2b 0) with false|change (1 =? 1) with true; change (z2b 1) with true]; cbv beta iota.
    - destruct imp; cbn [negb]; [|reflexivity]. intros _. unfold iadd.
      rewrite (proj2 (fits_int_true (zlen w1 + 1))) by lia. cbn [obind].
      rewrite (proj2 (fits_int_true (zlen w1 + 1 + e))) by lia. cbn [obind].
      rewrite u64_id by lia. tozlen. do 4 f_equal. lia.
    - rewrite (leb_ref data (pos + 1 + e) w1 w' W2 B2 L2). cbn [obind].
      destruct (leb32 w1) as [[v k]|] eqn:EL; [|reflexivity]. apply leb32_range in EL as (V & K & KL); [|exact B2].
      unfold HUGE. intros HV. unfold iadd. rewrite s32_id by lia.
      rewrite (proj2 (fits_int_true (v + k))) by lia. cbn [obind].
      rewrite (proj2 (fits_int_true (v + k + 1))) by lia. cbn [obind].
      rewrite (proj2 (fits_int_true (v + k + 1 + e))) by lia. cbn [obind].
      do 4 f_equal. lia. }
  tozlen.
  destruct (mod2 (h / 4)) as [M|M]; rewrite M in *.
  - change (0 =? 1) with false. change (z2b 0) with false. cbn [andb obind]. change (Z.to_nat 0) with 0%nat.
    change (skipn 0 w) with w.
    specialize (K 0 w ltac:(lia)). unfold iadd, HUGE in K. apply K; auto; [|lia].
    rewrite Z.add_0_r. exact W1.
  - change (1 =? 1) with true. change (z2b 1) with true. cbn [andb].
    destruct (Z.eqb_spec (zlen w) 0) as [Z0|Z0]; [reflexivity|].
    rewrite (proj2 (fits_int_true (zlen w + -1))) by lia. cbn [obind].
    destruct w as [|e w]; [rewrite zlen_nil in Z0; lia|]. change (Z.to_nat 1) with 1%nat. change (skipn 1 (e :: w)) with w.
    rewrite zlen_cons in *. replace (1 + zlen w + -1) with (zlen w) by lia.
    inversion B'; subst.
    specialize (K 1 w ltac:(lia)). unfold iadd, HUGE in K. apply K; auto; [|lia].
    now apply win_next in W1.
Qed.

Lemma hdr_range : forall imp l t v k, obu_hdr imp l = Some (t, v, k) -> bytes l ->
  0 <= v /\ 1 <= k <= 10 /\ k <= zlen l /\ (imp = false -> 2 <= k) /\ (v = v).
Proof.
  intros imp l t v k E B. unfold obu_hdr in E. destruct l as [|h l]; [discriminate E|].
  rewrite zlen_cons. pose proof (zlen_nonneg _ l).
  unfold bytes in B. inversion B as [|? ? Hh B']; subst.
  destruct (128 <=? h); [discriminate E|]. tozlen.
  destruct (mod2 (h / 4)) as [M|M]; rewrite M in E.
  - change (0 =? 1) with false in E. cbn [andb] in E. change (skipn (Z.to_nat 0) l) with l in E.
    destruct ((h / 2) mod 2 =? 1).
    + destruct (leb32 l) as [[v' k']|] eqn:EL; [|discriminate E]. apply leb32_range in EL; [|exact B'].
      injection E as <- <- <-. lia.
    + destruct imp; [|discriminate E]. injection E as <- <- <-. tozlen. repeat split; try lia; discriminate.
  - change (1 =? 1) with true in E. cbn [andb] in E.
    destruct (Z.eqb_spec (zlen l) 0); [discriminate E|]. change (Z.to_nat 1) with 1%nat in E.
    destruct l as [|e l]; [exfalso; rewrite zlen_nil in *; lia|]. change (skipn 1 (e :: l)) with l in E.
    rewrite zlen_cons in *. pose proof (zlen_nonneg _ l). inversion B' as [|? ? He B'']; subst.
    destruct ((h / 2) mod 2 =? 1).
    + destruct (leb32 l) as [[v' k']|] eqn:EL; [|discriminate E]. apply leb32_range in EL; [|exact B''].
      injection E as <- <- <-. lia.
    + destruct imp; [|discriminate E]. injection E as <- <- <-. tozlen. repeat split; try lia; discriminate.
Qed.

Definition verdict_z (v : verdict) : Z := match v with Yes => 1 | _ => 0 end.

Lemma win_all : forall (data : list Z) pos, 0 <= pos -> win data pos (skipn (Z.to_nat pos) data) [].
Proof. intros. split; [lia|]. now rewrite app_nil_r. Qed.
Lemma skip_zlen : forall (l : list Z) pos, 0 <= pos -> zlen (skipn (Z.to_nat pos) l) = Z.max 0 (zlen l - pos).
Proof. intros. unfold zlen. rewrite skipn_length. lia. Qed.

Section BUF.
Variable data : list Z.
Hypothesis DL : zlen data = 2048.
Hypothesis DB : bytes data.

Lemma look_ref : forall fuel cnt seq, 0 <= cnt -> 2048 - cnt <= Z.of_nat fuel ->
  s5_look fuel (skipn (Z.to_nat cnt) data) seq <> Huge -> cnt < 2 ^ 31 ->
  s5_probe_loop fuel data cnt (b2z seq) = Ok (verdict_z (s5_look fuel (skipn (Z.to_nat cnt) data) seq)).
Proof.
  induction fuel; intros cnt seq H0 HF HV HC.
  - cbn [s5_probe_loop]. unfold PROBE_SIZE. replace (cnt <? 2048) with false by lia. cbn [negb].
    rewrite skipn_all2 by (unfold zlen in DL; lia). cbn [s5_look]. destruct seq; reflexivity.
  - cbn [s5_probe_loop]. unfold PROBE_SIZE.
    destruct (Z.ltb_spec cnt 2048) as [HL|HL]; cbn [negb].
    2: { rewrite skipn_all2 by (unfold zlen in DL; lia). cbn [s5_look]. destruct seq; reflexivity. }
    set (l := skipn (Z.to_nat cnt) data) in *.
    assert (LL : zlen l = 2048 - cnt) by (unfold l; rewrite skip_zlen by lia; lia).
    assert (BL : bytes l) by (apply skipn_bytes; exact DB).
    cbn [s5_look] in *. destruct l as [|x l'] eqn:EL; [rewrite zlen_nil in LL; lia|]. rewrite <- EL in *. clear x l' EL.
    unfold s5_probe_step. unfold PROBE_SIZE.
    pose proof (hdr_ref data cnt l [] false (win_all data cnt H0) BL ltac:(lia)) as R.
    pose proof (hdr_range false l) as HR.
    destruct (obu_hdr false l) as [[[t v] k]|].
    2: { replace (2048 - cnt) with (zlen l) by lia. rewrite R. reflexivity. }
    destruct (HR t v k eq_refl BL) as (V & K & KL & _). clear HR.
    unfold HUGE in *. destruct (Z.leb_spec (2 ^ 31 - 4096) v) as [HH|HH]; [congruence|].
    replace (2048 - cnt) with (zlen l) by lia. rewrite R by lia. cbn [obind].
    replace (k + v <? 0) with false by lia. unfold iadd.
    rewrite (proj2 (fits_int_true (cnt + (k + v)))) by lia. cbn [obind].
    unfold OBU_SEQ_HDR, OBU_FRAME, OBU_FRAME_HDR, OBU_TD, OBU_TILE_GRP.
    assert (SK : skipn (Z.to_nat (k + v)) l = skipn (Z.to_nat (cnt + (k + v))) data).
    { unfold l. rewrite skipn_skipn'. f_equal. lia. }
    rewrite SK in *.
    destruct (Z.eqb_spec t 1) as [->|T1].
    { cbn [Z.eqb orb] in *. cbn [obind]. rewrite orb_true_r in *.
      apply (IHfuel (cnt + (k + v)) true); auto; lia. }
    rewrite orb_false_r in *. rewrite (orb_comm (t =? 6)).
    destruct ((t =? 3) || (t =? 6)); [cbn [obind]; destruct seq; reflexivity|].
    destruct ((t =? 2) || (t =? 4)); [reflexivity|]. cbn [obind].
    apply (IHfuel (cnt + (k + v)) seq); auto; lia.
Qed.

Theorem section5_probe_ref : s5_stream data <> Huge -> forall fuel, (2048 <= fuel)%nat ->
  section5_probe fuel data = Ok (verdict_z (s5_stream data)).
Proof.
  intros HV fuel HF. unfold section5_probe, s5_stream in *.
  pose proof (hdr_ref data 0 data [] false (win_all data 0 ltac:(lia)) DB ltac:(lia)) as R. rewrite DL in R.
  change PROBE_SIZE with 2048. pose proof (hdr_range false data) as HR.
  destruct (obu_hdr false data) as [[[t v] k]|]; [|rewrite R; reflexivity].
  destruct (HR t v k eq_refl DB) as (V & K & KL & _). clear HR.
  unfold HUGE in *. destruct (Z.leb_spec (2 ^ 31 - 4096) v) as [HH|HH]; [congruence|].
  rewrite R by lia. cbn [obind]. replace (k + v <? 0) with false by lia. cbn [orb]. unfold OBU_TD.
  destruct (Z.eqb_spec t 2) as [T|T]; cbn [negb orb] in *; [|reflexivity].
  destruct (Z.eqb_spec v 0) as [->|V0]; cbn [negb orb] in *.
  2: { replace (0 <? v) with true by lia. reflexivity. }
  change (0 <? 0) with false. cbv beta iota. rewrite Z.add_0_r in *.
  assert (LN : length data = 2048%nat) by (unfold zlen in DL; lia). rewrite LN in *.
  (* more fuel does not matter *)
  assert (M : forall f1 f2 l s, (length l <= f1)%nat -> (length l <= f2)%nat -> bytes l -> s5_look f1 l s = s5_look f2 l s).
  { clear. induction f1; intros f2 l s L1 L2 BL; destruct l as [|x l]; try (cbn in L1; lia); try (destruct f2; reflexivity).
    destruct f2; [cbn in L2; lia|]. cbn [s5_look].
    pose proof (hdr_range false (x :: l)) as HR.
    destruct (obu_hdr false (x :: l)) as [[[t' v'] k']|]; [|reflexivity].
    destruct (HR t' v' k' eq_refl BL) as (V' & K' & KL' & _).
    destruct (HUGE <=? v'); [reflexivity|]. destruct ((t' =? 3) || (t' =? 6)); [reflexivity|].
    destruct ((t' =? 2) || (t' =? 4)); [reflexivity|].
    apply IHf1; [rewrite skipn_length; cbn [length] in *; lia|rewrite skipn_length; cbn [length] in *; lia|now apply skipn_bytes]. }
  assert (LS : (length (skipn (Z.to_nat k) data) <= 2048)%nat) by (rewrite skipn_length; lia).
  rewrite (M 2048%nat fuel) in * by (try lia; now apply skipn_bytes).
  apply (look_ref fuel k false); auto; lia.
Qed.

(** ** Annex B *)
Lemma leb_at : forall cnt, 0 <= cnt <= 2048 ->
  leb data cnt (2048 - cnt) = Ok (leb32 (skipn (Z.to_nat cnt) data)).
Proof.
  intros cnt H. pose proof (skip_zlen data cnt ltac:(lia)) as L. rewrite DL in L.
  replace (2048 - cnt) with (zlen (skipn (Z.to_nat cnt) data)) by lia.
  apply (leb_ref data cnt _ []); [apply win_all; lia|now apply skipn_bytes|lia].
Qed.
Lemma hdr_at : forall cnt ou, 0 <= cnt <= 2048 -> 0 <= ou < 2 ^ 31 ->
  match obu_hdr true (firstn (Z.to_nat ou) (skipn (Z.to_nat cnt) data)) with
  | None => parse_obu_header data cnt (Z.min (2048 - cnt) ou) true = Ok None
  | Some (t, v, k) => v < HUGE -> parse_obu_header data cnt (Z.min (2048 - cnt) ou) true = Ok (Some (k + v, v, t))
  end.
Proof.
  intros cnt ou H HO. pose proof (skip_zlen data cnt ltac:(lia)) as L. rewrite DL in L.
  set (l := skipn (Z.to_nat cnt) data) in *.
  assert (ZW : zlen (firstn (Z.to_nat ou) l) = Z.min (2048 - cnt) ou).
  { unfold zlen in *. rewrite firstn_length. lia. }
  rewrite <- ZW. apply (hdr_ref data cnt _ (skipn (Z.to_nat ou) l)).
  - split; [lia|]. now rewrite firstn_skipn.
  - apply firstn_bytes, skipn_bytes, DB.
  - lia.
Qed.

Lemma ab_look_ref : forall fuel cnt tu fu seq, 0 <= cnt -> 2048 - cnt <= Z.of_nat fuel -> 0 <= fu < 2 ^ 33 ->
  ab_look fuel (skipn (Z.to_nat cnt) data) fu seq <> Huge ->
  ab_probe_loop fuel data cnt tu fu (b2z seq) = Ok (verdict_z (ab_look fuel (skipn (Z.to_nat cnt) data) fu seq)).
Proof.
  induction fuel; intros cnt tu fu seq H0 HF HU HV.
  - cbn [ab_probe_loop]. unfold PROBE_SIZE. replace (cnt <? 2048) with false by lia. cbn [negb].
    rewrite skipn_all2 by (unfold zlen in DL; lia). cbn [ab_look]. destruct seq; reflexivity.
  - cbn [ab_probe_loop]. unfold PROBE_SIZE.
    destruct (Z.ltb_spec cnt 2048) as [HL|HL]; cbn [negb].
    2: { rewrite skipn_all2 by (unfold zlen in DL; lia). cbn [ab_look]. destruct seq; reflexivity. }
    unfold iadd. rewrite (proj2 (fits_int_true (2048 + - cnt))) by lia. cbn [obind].
    replace (2048 + - cnt) with (2048 - cnt) by lia.
    rewrite (leb_at cnt) by lia. cbn [obind].
    pose proof (skip_zlen data cnt ltac:(lia)) as L. rewrite DL in L.
    set (l := skipn (Z.to_nat cnt) data) in *.
    assert (BL : bytes l) by (apply skipn_bytes; exact DB).
    cbn [ab_look] in *. destruct l as [|x l'] eqn:EL; [rewrite zlen_nil in L; lia|]. rewrite <- EL in *. clear x l' EL.
    destruct (leb32 l) as [[ou k]|] eqn:EO; [|reflexivity].
    apply leb32_range in EO as (VO & KO & KL); [|exact BL].
    destruct (Z.ltb_spec fu (ou + k)) as [HG|HG]; [reflexivity|].
    unfold HUGE in *. destruct (Z.leb_spec (2 ^ 31 - 4096) ou) as [HH|HH]; [congruence|].
    rewrite (proj2 (fits_int_true (cnt + k))) by lia. cbn [obind].
    rewrite (proj2 (fits_int_true (2048 + - (cnt + k)))) by lia. cbn [obind].
    replace (2048 + - (cnt + k)) with (2048 - (cnt + k)) by lia.
    rewrite s32_id by lia.
    assert (SK : skipn (Z.to_nat k) l = skipn (Z.to_nat (cnt + k)) data).
    { unfold l. rewrite skipn_skipn'. f_equal. lia. }
    rewrite SK in *.
    pose proof (hdr_at (cnt + k) ou ltac:(lia) ltac:(lia)) as R.
    pose proof (hdr_range true (firstn (Z.to_nat ou) (skipn (Z.to_nat (cnt + k)) data))) as HR.
    destruct (obu_hdr true (firstn (Z.to_nat ou) (skipn (Z.to_nat (cnt + k)) data))) as [[[t v] hk]|];
      [|rewrite R; reflexivity].
    destruct (HR t v hk eq_refl ltac:(apply firstn_bytes, skipn_bytes, DB)) as (V & HK & _). clear HR.
    unfold HUGE in *. destruct (Z.leb_spec (2 ^ 31 - 4096) v) as [HH2|HH2]; [congruence|].
    rewrite R by lia. cbn [obind]. replace (hk + v <? 0) with false by lia.
    rewrite (proj2 (fits_int_true (cnt + k + ou))) by lia. cbn [obind].
    unfold OBU_SEQ_HDR, OBU_FRAME, OBU_FRAME_HDR, OBU_TD, OBU_TILE_GRP. rewrite (orb_comm (t =? 6)).
    destruct ((t =? 3) || (t =? 6)); [destruct seq; reflexivity|].
    destruct ((t =? 2) || (t =? 4)); [reflexivity|].
    rewrite (u64_id (fu - k)) by lia. rewrite (u64_id (fu - k - ou)) by lia.
    destruct (Z.eqb_spec (fu - k - ou) 0) as [E0|E0].
    { replace (fu - k - ou <=? 0) with true by lia. reflexivity. }
    replace (fu - k - ou <=? 0) with false by lia.
    assert (SK2 : skipn (Z.to_nat ou) (skipn (Z.to_nat (cnt + k)) data) = skipn (Z.to_nat (cnt + k + ou)) data).
    { rewrite skipn_skipn'. f_equal. lia. }
    rewrite SK2 in *.
    replace (if t =? 1 then 1 else b2z seq) with (b2z (seq || (t =? 1)))
      by (destruct seq, (t =? 1); reflexivity).
    apply (IHfuel (cnt + k + ou)); auto; lia.
Qed.

Theorem annexb_probe_ref : ab_stream data <> Huge -> forall fuel, (2048 <= fuel)%nat ->
  annexb_probe fuel data = Ok (verdict_z (ab_stream data)).
Proof.
  intros HV fuel HF. unfold annexb_probe, ab_stream in *.
  change PROBE_SIZE with 2048.
  pose proof (leb_at 0 ltac:(lia)) as E1. rewrite Z.sub_0_r in E1. change (skipn (Z.to_nat 0) data) with data in E1.
  rewrite E1. cbn [obind].
  destruct (leb32 data) as [[tu k1]|] eqn:EL1; [|reflexivity].
  apply leb32_range in EL1 as (V1 & K1 & KL1); [|exact DB].
  rewrite (leb_at k1) by lia. cbn [obind].
  destruct (leb32 (skipn (Z.to_nat k1) data)) as [[fu k2]|] eqn:EL2; [|reflexivity].
  apply leb32_range in EL2 as (V2 & K2 & KL2); [|now apply skipn_bytes].
  rewrite skip_zlen, DL in KL2 by lia.
  destruct (Z.ltb_spec tu (fu + k2)) as [G1|G1]; [reflexivity|].
  assert (S2 : skipn (Z.to_nat k2) (skipn (Z.to_nat k1) data) = skipn (Z.to_nat (k1 + k2)) data).
  { rewrite skipn_skipn'. f_equal. lia. }
  rewrite S2 in *.
  rewrite (leb_at (k1 + k2)) by lia. cbn [obind].
  destruct (leb32 (skipn (Z.to_nat (k1 + k2)) data)) as [[ou k3]|] eqn:EL3; [|reflexivity].
  apply leb32_range in EL3 as (V3 & K3 & KL3); [|now apply skipn_bytes].
  rewrite skip_zlen, DL in KL3 by lia.
  destruct (Z.leb_spec fu (ou + k3)) as [G2|G2]; [reflexivity|].
  unfold HUGE in *. destruct (Z.leb_spec (2 ^ 31 - 4096) ou) as [HH|HH]; [congruence|].
  assert (S3 : skipn (Z.to_nat k3) (skipn (Z.to_nat (k1 + k2)) data) = skipn (Z.to_nat (k1 + k2 + k3)) data).
  { rewrite skipn_skipn'. f_equal. lia. }
  rewrite S3 in *. rewrite s32_id by lia.
  pose proof (hdr_at (k1 + k2 + k3) ou ltac:(lia) ltac:(lia)) as R.
  pose proof (hdr_range true (firstn (Z.to_nat ou) (skipn (Z.to_nat (k1 + k2 + k3)) data))) as HR.
  destruct (obu_hdr true (firstn (Z.to_nat ou) (skipn (Z.to_nat (k1 + k2 + k3)) data))) as [[[t v] hk]|];
    [|rewrite R; reflexivity].
  destruct (HR t v hk eq_refl ltac:(apply firstn_bytes, skipn_bytes, DB)) as (V & HK & _). clear HR.
  unfold HUGE in *. destruct (Z.leb_spec (2 ^ 31 - 4096) v) as [HH2|HH2]; [congruence|].
  rewrite R by lia. cbn [obind]. replace (hk + v <? 0) with false by lia. cbn [orb]. unfold OBU_TD.
  destruct (Z.eqb_spec t 2) as [T|T]; cbn [negb orb] in *; [|reflexivity].
  destruct (Z.eqb_spec v 0) as [->|V0]; cbn [negb orb] in *.
  2: { replace (0 <? v) with true by lia. reflexivity. }
  change (0 <? 0) with false. cbv beta iota. unfold iadd.
  rewrite (proj2 (fits_int_true (k1 + k2 + k3 + ou))) by lia. cbn [obind].
  assert (S4 : skipn (Z.to_nat ou) (skipn (Z.to_nat (k1 + k2 + k3)) data) = skipn (Z.to_nat (k1 + k2 + k3 + ou)) data).
  { rewrite skipn_skipn'. f_equal. lia. }
  rewrite S4 in *.
  assert (LN : length data = 2048%nat) by (unfold zlen in DL; lia). rewrite LN in *.
  assert (M : forall f1 f2 l fu s, (length l <= f1)%nat -> (length l <= f2)%nat -> bytes l -> ab_look f1 l fu s = ab_look f2 l fu s).
  { clear. induction f1; intros f2 l fu s L1 L2 BL; destruct l as [|x l]; try (cbn in L1; lia); try (destruct f2; reflexivity).
    destruct f2; [cbn in L2; lia|]. cbn [ab_look].
    destruct (leb32 (x :: l)) as [[ou' k']|] eqn:EL; [|reflexivity].
    apply leb32_range in EL as (V' & K' & KL'); [|exact BL].
    destruct (fu <? ou' + k'); [reflexivity|]. destruct (HUGE <=? ou'); [reflexivity|].
    destruct (obu_hdr true (firstn (Z.to_nat ou') (skipn (Z.to_nat k') (x :: l)))) as [[[t' v'] hk']|]; [|reflexivity].
    destruct (HUGE <=? v'); [reflexivity|]. destruct ((t' =? 3) || (t' =? 6)); [reflexivity|].
    destruct ((t' =? 2) || (t' =? 4)); [reflexivity|]. destruct (fu - k' - ou' =? 0); [reflexivity|].
    apply IHf1; [rewrite !skipn_length; cbn [length] in *; lia|rewrite !skipn_length; cbn [length] in *; lia|now apply skipn_bytes, skipn_bytes]. }
  assert (LS : (length (skipn (Z.to_nat (k1 + k2 + k3 + ou)) data) <= 2048)%nat) by (rewrite skipn_length; lia).
  rewrite (M 2048%nat fuel) in * by (try lia; now apply skipn_bytes).
  rewrite (u64_id (fu - (ou + k3))) by lia.
  replace (fu - (ou + k3)) with (fu - k3 - ou) by lia.
  apply (ab_look_ref fuel (k1 + k2 + k3 + ou) _ (fu - k3 - ou) false); auto; lia.
Qed.

End BUF.

(** ** IVF *)
Lemma mem_eq_spec : forall r data' p, 0 <= p -> p + zlen r <= zlen data' ->
  mem_eq data' p r = Ok (if list_eq_dec Z.eq_dec (firstn (length r) (skipn (Z.to_nat p) data')) r then true else false).
Proof.
  induction r as [|x r IH]; intros d p Hp H.
  { reflexivity. }
  rewrite zlen_cons in H. pose proof (zlen_nonneg _ r). cbn [mem_eq length].
  destruct (skipn (Z.to_nat p) d) as [|y l] eqn:E.
  { assert (length (skipn (Z.to_nat p) d) = 0)%nat by now rewrite E. rewrite skipn_length in H1. unfold zlen in *. lia. }
  assert (W : win d p (y :: l) []) by (split; [lia|rewrite app_nil_r; exact E]).
  rewrite (win_rd _ _ _ _ _ W). cbn [obind]. rewrite IH by lia. cbn [obind].
  apply win_next in W as [_ W]. rewrite app_nil_r in W. rewrite W. cbn [firstn].
  destruct (list_eq_dec Z.eq_dec (firstn (length r) l) r) as [E1|E1];
    destruct (list_eq_dec Z.eq_dec (y :: firstn (length r) l) (x :: r)) as [E2|E2];
    destruct (Z.eqb_spec y x); try reflexivity; exfalso; congruence.
Qed.

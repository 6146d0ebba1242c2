(** Annex B: arbitrary files. *)
From Coq Require Import ZArith List Bool Lia.
From Verif Require Import Base.CInt Base.Lemmas Tools.Input Tools.InputSpec Tools.InputProofs
  Tools.IvfProofs Tools.IvfOpen Tools.Section5Proofs.
Import ListNotations.
Open Scope Z_scope.
Open Scope outcome_scope.

Section AB.
Variable alloc : Z -> bool.

(** A packet is the bytes that follow its length field in the file. *)
Lemma annexb_slice : forall c rest p c', at_ (ab_f c) rest -> bytes rest -> annexb_read alloc c = (Some p, c') ->
  exists pre lb tail, rest = pre ++ lb ++ p ++ tail /\ leb_enc (zlen p) lb /\ 0 < zlen p /\ at_ (ab_f c') tail.
Proof.
  intros c rest p c' A B E. unfold annexb_read in E.
  assert (T : forall c c1, at_ (ab_f c) rest -> ab_get_tu c = (true, c1) ->
    exists pre r1, rest = pre ++ r1 /\ at_ (ab_f c1) r1).
  { intros c0 c1 A0 E0. unfold ab_get_tu in E0. destruct (ab_tu c0 =? 0).
    - destruct (leb128 (ab_f c0)) as [[[v res]|] f1] eqn:EL; [|discriminate E0]. injection E0 as <-.
      destruct (leb128_inv _ _ _ _ _ A0 B EL) as (lb & tl & R & _ & _ & A1 & _). exists lb, tl. auto.
    - injection E0 as <-. exists [], rest. auto. }
  destruct (ab_get_tu c) as [[|] c1] eqn:E1; [|discriminate E].
  destruct (T c c1 A E1) as (pre1 & r1 & R1 & A1). clear T.
  assert (B1 : bytes r1) by (unfold bytes in *; rewrite R1 in B; apply Forall_app in B; tauto).
  assert (T : forall c2, ab_get_fu c1 = (true, c2) -> exists pre r2, r1 = pre ++ r2 /\ at_ (ab_f c2) r2).
  { intros c2 E0. unfold ab_get_fu in E0. destruct (ab_fu c1 =? 0).
    - destruct (leb128 (ab_f c1)) as [[[v res]|] f1] eqn:EL; [|discriminate E0].
      destruct (ab_tu c1 <? u64 (v + res)); [discriminate E0|]. injection E0 as <-.
      destruct (leb128_inv _ _ _ _ _ A1 B1 EL) as (lb & tl & R & _ & _ & A2 & _). exists lb, tl. auto.
    - injection E0 as <-. exists [], r1. auto. }
  destruct (ab_get_fu c1) as [[|] c2] eqn:E2; [|discriminate E].
  destruct (T c2 eq_refl) as (pre2 & r2 & R2 & A2). clear T.
  assert (B2 : bytes r2) by (unfold bytes in *; rewrite R2 in B1; apply Forall_app in B1; tauto).
  unfold ab_get_obu in E.
  destruct (leb128 (ab_f c2)) as [[[len res]|] f1] eqn:EL; [|discriminate E].
  destruct (leb128_inv _ _ _ _ _ A2 B2 EL) as (lb & tl & R & El & -> & A3 & _).
  destruct (ab_fu c2 <? u64 (len + zlen lb)); [discriminate E|].
  destruct (alloc len); cbn [negb] in E; [|discriminate E].
  destruct (fread f1 len) as [[d|] f2] eqn:EF; [|discriminate E]. injection E as <- <-. cbn [ab_f].
  pose proof EF as EF'. apply fread_inv in EF as (D & P & L & V & N).
  assert (LN : 0 <= len) by (destruct El as (F & _ & <- & _); apply leb_value_nonneg).
  destruct A3 as (pre & D3 & P3). rewrite D3, zlen_app, P3 in L.
  assert (ZD : zlen (firstn (Z.to_nat len) tl) = len) by (unfold zlen in *; rewrite firstn_length; lia).
  assert (DE : d = firstn (Z.to_nat len) tl).
  { pose proof (slice_app pre (firstn (Z.to_nat len) tl) (skipn (Z.to_nat len) tl)) as SA.
    rewrite firstn_skipn, ZD in SA. now rewrite V, D3, P3. }
  exists (pre1 ++ pre2), lb, (skipn (Z.to_nat len) tl). rewrite DE, ZD.
  split; [|split; [exact El|split; [lia|]]].
  - rewrite R1, R2, R. rewrite firstn_skipn, <- app_assoc. reflexivity.
  - exists (pre ++ firstn (Z.to_nat len) tl). rewrite D, P, P3, D3, zlen_app, ZD, <- app_assoc, firstn_skipn. auto.
Qed.
End AB.

Lemma ab_count_total : forall fuel n f, 0 <= f_pos f -> zlen (f_data f) - f_pos f < Z.of_nat fuel -> (0 < fuel)%nat ->
  ab_count fuel n f <> Undef.
Proof.
  assert (LR : forall n i v g x g', leb128_loop n i v g = (Some x, g') ->
    f_data g' = f_data g /\ f_pos g < f_pos g' /\ f_pos g < zlen (f_data g)).
  { induction n; intros i v g x g' E1; [discriminate E1|]. cbn [leb128_loop] in E1.
    destruct (fread g 1) as [[b|] g1] eqn:E2; [|discriminate E1]. apply fread_inv in E2 as (D2 & P2 & L2 & _).
    destruct (z2b (Z.land (byte0 b) 128) && (i + 1 <? 8)).
    - apply IHn in E1 as (D1 & P1 & L1). split; [congruence|lia].
    - destruct ((UINT_MAX <? Z.lor v (u64 (Z.shiftl (Z.land (byte0 b) 127) (i * 7)))) || z2b (Z.land (byte0 b) 128));
        [discriminate E1|]. injection E1 as _ <-. split; [congruence|lia]. }
  induction fuel; intros n f P H H0; [lia|]. cbn [ab_count].
  destruct (leb128 f) as [[[len res]|] f1] eqn:EL; [|discriminate].
  pose proof (leb128_range _ _ _ _ EL) as [R1 R2]. apply LR in EL as (D1 & P1 & L1).
  unfold fseek_cur, fseek_to. replace (f_pos f1 + len <? 0) with false by lia. cbn [snd].
  apply IHfuel; cbn [f_pos f_data]; [lia|rewrite D1; lia|lia].
Qed.
Lemma annexb_open_defined : forall l, annexb_open l <> Undef.
Proof.
  intros l. unfold annexb_open.
  pose proof (ab_count_total (S (length l)) 0 (fopen l)) as H. cbn [fopen f_pos f_data] in H. unfold zlen in H.
  destruct (ab_count (S (length l)) 0 (fopen l)) as [n|]; [discriminate|].
  exfalso. apply H; [lia|lia|lia|reflexivity].
Qed.
Lemma annexb_open_ok : forall k ps l, ab_file k ps l -> Z.of_nat k < 2 ^ 32 ->
  annexb_open l = Ok (Z.of_nat k, {| ab_f := fopen l; ab_tu := 0; ab_fu := 0 |}).
Proof.
  intros k ps l H K. unfold annexb_open. pose proof (ab_file_length _ _ _ H).
  rewrite (ab_count_ok k ps l H (S (length l)) 0 (fopen l) []); try lia; auto.
  rewrite app_nil_r. apply fopen_at.
Qed.

(** The sequence header parser implements the AV1 syntax. *)
From Coq Require Import ZArith List Bool Lia.
From Verif Require Import Base.CInt Base.Lemmas Base.Finite GetBits.Model GetBits.Spec GetBits.Abstract
  GetBits.Proofs GetBits.SpecProg GetBits.Sim GetBits.VarLen GetBits.Reads GetBits.AtPos Obu.SimTac Obu.SeqModel Obu.SeqRel.
Import ListNotations.
Open Scope Z_scope.

(** * Simulation, section by section *)

Lemma negb_negb_or : forall a b c : bool, b = negb c -> (a && b)%bool = negb (negb a || c).
Proof. intros. subst. destruct a, c; auto. Qed.

Lemma sim_timing : forall strict N, 300 <= N ->
  sim N (parse_timing strict) (S.timing_section strict)
    (fun t s => timing_rel t s /\ timing_wf t).
Proof.
  intros strict N HN. unfold parse_timing, S.timing_section.
  rd1 tip. apply sim_if; [apply z2b_1; lia| |].
  2:{ intros Ht. sret. split; [|unfold timing_wf; cbn; lia]. unfold timing_rel. cbn. repeat split. }
  intros Ht. rewrite z2b_1 in Ht by lia. assert (tip = 1) by lia. subst tip.
  rdn nuit 32. rdn ts 32.
  apply sim_require; [lia| |].
  { apply negb_negb_or. rewrite !z2b_pos by lia. destruct (0 <? nuit), (0 <? ts); auto. }
  intros _. rd1 epi.
  bnd 64 (fun x y => x = plus1_if epi y).
  { apply sim_if; [apply z2b_1; lia| |].
    - intros He. rewrite z2b_1 in He by lia. assert (epi = 1) by lia. subst epi.
      eapply sim_bind with (N1 := 64); [apply sim_uvlc; lia|intros v ? [<- Hv]|lia].
      apply sim_require; [lia| |].
      { destruct (Z.eqb_spec v 4294967295), (Z.ltb_spec v (2 ^ 32 - 1)); auto; lia. }
      intros Hv2. sret. unfold plus1_if. simpl. apply u32_id. lia.
    - intros He. rewrite z2b_1 in He by lia. assert (epi = 0) by lia. subst epi. sret. reflexivity. }
  intros ntpp ntpp' Hn. rd1 dm. apply sim_if; [apply z2b_1; lia| |]; intros Hd;
    rewrite z2b_1 in Hd by lia.
  - assert (dm = 1) by lia. subst dm. rdn edb 5. rdn nuidt 32.
    apply sim_require; [lia| |].
    { apply negb_negb_or. rewrite !z2b_pos by lia. auto. }
    intros _. rdn brd 5. rdn fpd 5. sret. split; [|unfold timing_wf; cbn; lia].
    unfold timing_rel, plus1_if. cbn. repeat split; auto.
  - assert (dm = 0) by lia. subst dm. sret. split; [|unfold timing_wf; cbn; lia].
    unfold timing_rel, plus1_if. cbn. repeat split; auto.
Qed.

Lemma land_idc : forall idc, 0 <= idc < 4096 ->
  Z.land idc 255 = idc mod 256 /\ z2b (Z.land idc 3840) = negb (idc / 256 =? 0).
Proof.
  intros idc H.
  assert (E : (Z.land idc 255 =? idc mod 256) && eqb (z2b (Z.land idc 3840)) (negb (idc / 256 =? 0)) = true).
  { apply (all_in_ok 0 4095 (fun idc => (Z.land idc 255 =? idc mod 256)
      && eqb (z2b (Z.land idc 3840)) (negb (idc / 256 =? 0)))); [vm_compute; reflexivity|lia]. }
  apply andb_prop in E. destruct E as [E1 E2]. split; [lia|apply eqb_prop; auto].
Qed.

Lemma sim_op : forall t s dispmip N, timing_rel t s -> timing_wf t -> 0 <= dispmip <= 1 -> 100 <= N ->
  sim N (parse_op t dispmip) (S.operating_point_section s dispmip)
    (fun x y => op_rel 0 (fst x) y /\ oi_rel (snd x) y /\ op_wf (fst x)).
Proof.
  intros t s dispmip N HR HW Hdm HN. unfold parse_op, S.operating_point_section.
  destruct HR as (_ & _ & _ & _ & _ & RD & RE & _).
  destruct HW as (W1 & W2 & _).
  rdn idc 12. destruct (land_idc idc Hidc) as [L1 L2].
  apply sim_require; [lia| |].
  { rewrite L1, L2, negb_involutive. unfold z2b. rewrite negb_involutive.
    destruct (idc =? 0), (idc mod 256 =? 0), (idc / 256 =? 0); auto. }
  intros _. change (f 5) with (f (3 + 2)).
  apply sim_split; try lia. intros maj mino Hmaj Hmin. cbv beta.
  bnd 1 (fun x y : Z => x = y).
  { apply sim_if; [destruct (Z.ltb_spec 3 (2 + maj)), (Z.ltb_spec 7 (maj * 2 ^ 2 + mino)); auto; lia| |]; intros _.
    - eapply sim_weaken; [apply sim_f1 with (N := 1); lia|lia|tauto].
    - sret. auto. }
  intros tier ? <-.
  bnd 66 (fun (x : Z * op_info) y => let '(p, d, e, l) := y in (fst x = p /\
     snd x = mkOpInfo d e l) /\ 0 <= fst x <= 1).
  { apply sim_if; [rewrite z2b_1 by lia; congruence| |]; intros Hc; rewrite z2b_1 in Hc by lia.
    - rewrite RE. unfold plus1_if. rewrite <- RD, Hc.
      assert (L : 1 <= S.buffer_delay_length_minus_1 s + 1 <= 32).
      { rewrite RE in W2. unfold plus1_if in W2. rewrite <- RD in W2. rewrite Hc in W2. apply W2. lia. }
      rd1 dmpp. apply sim_if; [apply z2b_1; lia| |]; intros Hp; rewrite z2b_1 in Hp by lia.
      + assert (dmpp = 1) by lia. subst dmpp.
        rdn dbd (S.buffer_delay_length_minus_1 s + 1).
        rdn ebd (S.buffer_delay_length_minus_1 s + 1). rd1 ldm. sret. split; [auto|cbn; lia].
      + assert (dmpp = 0) by lia. subst dmpp. sret. split; [auto|cbn; lia].
    - sret. split; [auto|cbn; lia]. }
  intros [dmpp oi] [[[p d] e] l] [[E1 E2] HP]. simpl in E1, E2, HP. subst.
  assert (FIN : forall dispp idd delay, idd = (if dispp =? 1 then delay + 1 else 10) ->
    op_rel 0 (mkOpPoint (2 + maj) mino idd idc tier p dispp)
      (S.mkOperatingPoint idc (maj * 2 ^ 2 + mino) tier p d e l dispp delay) /\
    oi_rel (mkOpInfo d e l) (S.mkOperatingPoint idc (maj * 2 ^ 2 + mino) tier p d e l dispp delay) /\
    op_wf (mkOpPoint (2 + maj) mino idd idc tier p dispp)).
  { intros dispp idd delay E. unfold op_rel, oi_rel, op_wf. cbn - [Z.div Z.modulo Z.mul Z.add].
    repeat split; auto; change (2 ^ 2) with 4; lia. }
  assert (dispmip = 0 \/ dispmip = 1) as [-> | ->] by lia; cbn [z2b Z.eqb negb].
  - apply sim_let. cbn [z2b Z.eqb negb]. apply sim_let. apply sim_bind_ret_r. sret. apply FIN. auto.
  - apply sbind_assoc_sim. rd1 dispp.
    assert (dispp = 0 \/ dispp = 1) as [-> | ->] by lia; cbn [z2b Z.eqb Pos.eqb negb].
    + apply sim_let. apply sim_bind_ret_r. sret. apply FIN. auto.
    + apply sbind_assoc_sim. apply rbind_assoc_sim. rdn dl 4.
      apply sim_let. apply sim_bind_ret_r. sret. apply FIN. auto.
Qed.

Lemma sim_ops : forall n i t s dispmip N, timing_rel t s -> timing_wf t -> 0 <= dispmip <= 1 ->
  100 * Z.of_nat n <= N -> 0 <= i -> i + Z.of_nat n <= 32 ->
  sim N (parse_ops n i t dispmip) (S.operating_point_loop n s dispmip)
    (fun x y => Forall2 (op_rel 0) (fst x) y /\ Forall2 oi_rel (snd x) y /\ length y = n /\ Forall op_wf (fst x)).
Proof.
  induction n; intros i t s dispmip N HR HW Hd HN Hi Hin; cbn [parse_ops S.operating_point_loop].
  - sret. cbn. auto.
  - apply sim_assert; [apply Z.ltb_lt; lia|].
    eapply sim_bind with (N1 := 100); [apply sim_op; auto; lia| |lia].
    intros [op oi] o (E1 & E2 & EW). cbn [fst snd] in E1, E2, EW.
    eapply sim_bind with (N1 := 100 * Z.of_nat n); [apply IHn; eauto; lia| |lia].
    intros [ops ois] os (E3 & E4 & E5 & E6). cbn [fst snd] in E3, E4, E6. sret. cbn [fst snd length].
    split; [|split; [|split]]; [constructor; auto|constructor; auto|lia|constructor; auto].
Qed.

Definition ops_rel (reduced : Z) (ops : list op_point) (ois : list op_info) (l : list S.operating_point) : Prop :=
  exists o1 o2,
     ops = o1 ++ repeat op_point0 (32 - length l) /\
     ois = o2 ++ repeat op_info0 (32 - length l) /\
     Forall2 (op_rel reduced) o1 l /\ Forall2 oi_rel o2 l.

Lemma Forall2_len : forall A B (R : A -> B -> Prop) l1 l2, Forall2 R l1 l2 -> length l1 = length l2.
Proof. induction 1; simpl; auto. Qed.

Lemma Forall_op0 : forall n, Forall op_wf (repeat op_point0 n).
Proof. induction n; simpl; constructor; auto. unfold op_wf. cbn. lia. Qed.

Lemma sim_op_section : forall strict rsph N, 0 <= rsph <= 1 -> 4000 <= N ->
  sim N (parse_op_section strict rsph) (S.level_section strict rsph)
    (fun x y => let '(t, dm, n, ops, ois) := x in let '(t', dm', l) := y in
       timing_rel t t' /\ timing_wf t /\ dm = dm' /\ 0 <= dm <= 1 /\ n = zlen l /\ 1 <= n <= 32 /\ ops_rel rsph ops ois l /\
       Forall op_wf ops /\ (rsph = 1 -> decoder_model_info_present t = 0)).
Proof.
  intros strict rsph N Hr HN. unfold parse_op_section, S.level_section.
  apply sim_if; [apply z2b_1; lia| |]; intros Hc; rewrite z2b_1 in Hc by lia.
  - assert (rsph = 1) by lia. subst rsph. change (f 5) with (f (3 + 2)).
    apply sim_split; try lia. intros maj mino Hmaj Hmin. sret.
    split; [cbv; repeat split|]. split; [unfold timing_wf; cbn; lia|]. split; [auto|]. split; [lia|].
    split; [reflexivity|]. split; [lia|].
    split; [|split; [constructor; [unfold op_wf; cbn; lia|apply Forall_op0]|reflexivity]].
    exists [mkOpPoint maj mino 10 0 0 0 0], [op_info0]. split; [reflexivity|]. split; [reflexivity|].
    split; constructor; auto.
    + unfold op_rel. cbn - [Z.div Z.modulo Z.mul Z.add]. repeat split; auto; change (2 ^ 2) with 4; lia.
    + repeat split.

  - assert (rsph = 0) by lia. subst rsph.
    eapply sim_bind with (N1 := 300); [apply sim_timing; lia| |lia].
    intros t t' [HT HW]. rd1 dm. rdn n 5.
    eapply sim_bind with (N1 := 100 * Z.of_nat (Z.to_nat (n + 1))); [apply sim_ops; eauto; lia| |lia].
    intros [ops ois] l (E1 & E2 & E3 & E4). cbn [fst snd] in E1, E2, E4. sret.
    split; [auto|]. split; [auto|]. split; [auto|]. split; [lia|]. split; [unfold zlen; lia|]. split; [lia|].
    split; [|split; [unfold pad; apply Forall_app; split; [auto|apply Forall_op0]|lia]].
    exists ops, ois. unfold pad. rewrite (Forall2_len _ _ _ _ _ E1), (Forall2_len _ _ _ _ _ E2). auto.
Qed.

Lemma sim_frame_ids : forall rsph N, 0 <= rsph <= 1 -> 8 <= N ->
  sim N (parse_frame_ids rsph) (S.frame_id_section rsph)
    (fun x y => let '(p, d, n) := x in let '(p', d', a') := y in
       p = p' /\ 0 <= p <= 1 /\ d = (if p' =? 1 then d' + 2 else 0) /\ n = (if p' =? 1 then a' + d' + 3 else 0) /\
       0 <= d' <= 15 /\ 0 <= a' <= 7).
Proof.
  intros rsph N Hr HN. unfold parse_frame_ids, S.frame_id_section.
  assert (rsph = 0 \/ rsph = 1) as [-> | ->] by lia; cbn [z2b Z.eqb Pos.eqb negb].
  - rd1 p. assert (p = 0 \/ p = 1) as [-> | ->] by lia; cbn [z2b Z.eqb Pos.eqb negb].
    + sret. cbn. lia.
    + rdn d 4. rdn a 3. sret. cbn [Z.eqb Pos.eqb]. lia.
  - sret. cbn. lia.
Qed.

Lemma sim_tools : forall rsph N, 0 <= rsph <= 1 -> 20 <= N ->
  sim N (parse_tools rsph) (S.tool_section rsph)
    (fun t s => tools_rel t s /\ 0 <= order_hint t <= 1 /\ 0 <= screen_content_tools t <= 2 /\
       0 <= force_integer_mv t <= 2 /\ 0 <= order_hint_n_bits t <= 8 /\
       (order_hint t = 0 -> order_hint_n_bits t = 0) /\ (order_hint t = 1 -> 1 <= order_hint_n_bits t) /\
       tools_wf t).
Proof.
  intros rsph N Hr HN. unfold parse_tools, S.tool_section.
  apply sim_if; [apply z2b_1; lia| |]; intros Hc.
  - sret. unfold tools_rel, tools_wf. cbn. unfold DAV1D_ADAPTIVE. repeat split; lia.
  - rd1 ii. rd1 mc. rd1 wm. rd1 df. rd1 oh.
    bnd 2 (fun x y : Z * Z => x = y /\ 0 <= snd x <= 1 /\ (snd x = 1 -> oh = 1)).
    { apply sim_if; [apply z2b_1; lia| |]; intros Ho; rewrite z2b_1 in Ho by lia.
      - rd1 jc. rd1 rm. sret. cbn. repeat split; lia.
      - sret. cbn. repeat split; lia. }
    intros [jc rm] ? (<- & Hrm & Hrm2). cbn [snd] in Hrm, Hrm2. rd1 b.
    bnd 1 (eqr 0 2).
    { apply sim_if; [apply z2b_1; lia| |]; intros _.
      - sret. split; [auto|cbv; split; discriminate].
      - eapply sim_weaken; [apply sim_bit with (N := 1)|lia|]; [lia|]. unfold eqr. intros; lia. }
    intros sct ? [<- Hsct].
    bnd 2 (eqr 0 2).
    { apply sim_if; [apply z2b_pos; lia| |]; intros _.
      - rd1 b2. apply sim_if; [apply z2b_1; lia| |]; intros _.
        + sret. split; [auto|cbv; split; discriminate].
        + eapply sim_weaken; [apply sim_bit with (N := 1)|lia|]; [lia|]. unfold eqr. intros; lia.
      - sret. split; [auto|lia]. }
    intros fim ? [<- Hfim].
    bnd 3 (fun x y : Z => x = y /\ 0 <= x <= 8 /\ (oh = 0 -> x = 0) /\ (oh = 1 -> 1 <= x)).
    { apply sim_if; [apply z2b_1; lia| |]; intros Hoh1; rewrite z2b_1 in Hoh1 by lia.
      - rdn v 3. sret. lia.
      - sret. lia. }
    intros ohb ? (<- & Hohb). sret. unfold tools_rel, tools_wf. cbn. repeat split; auto; lia.
Qed.

Lemma sim_color : forall strict profile N, 0 <= profile <= 2 -> 60 <= N ->
  sim N (parse_color strict profile) (S.color_section strict profile)
    (fun t s => color_rel t s /\ color_wf profile t).
Proof.
  intros strict profile N Hp HN. unfold parse_color, S.color_section.
  rd1 hb.
  bnd 1 (fun x y => 8 + 2 * x = y /\ 0 <= x <= 2 /\ (x = 2 -> profile = 2)).
  { rewrite z2b_1 by lia. destruct (Z.eqb_spec profile 2); cbn [andb].
    - assert (hb = 0 \/ hb = 1) as [-> | ->] by lia; cbn [Z.eqb Pos.eqb].
      + sret. lia.
      + rd1 b. sret. assert (b = 0 \/ b = 1) as [-> | ->] by lia; cbn [Z.eqb Pos.eqb]; lia.
    - sret. assert (hb = 0 \/ hb = 1) as [-> | ->] by lia; cbn [Z.eqb Pos.eqb]; lia. }
  clear hb Hhb. intros hb bd (<- & Hhb & Hhb2).
  bnd 1 (fun x y => x = y /\ 0 <= x <= 1 /\ (profile = 1 -> x = 0)).
  { destruct (Z.eqb_spec profile 1); cbn [negb].
    - sret. lia.
    - eapply sim_weaken; [apply sim_f1 with (N := 1); lia|lia|]. intros x y [A B]; cbv beta; repeat split; try lia; auto; intros; lia. }
  intros mono ? (<- & Hmono & Hmono1). rd1 cdp.
  bnd 24 (fun x y : Z * Z * Z => x = y /\ let '(p, t, m) := x in 0 <= p <= 255 /\ 0 <= t <= 255 /\ 0 <= m <= 255).
  { apply sim_if; [apply z2b_1; lia| |]; intros _.
    - rdn p 8. rdn t 8. rdn m 8. sret. split; [auto|lia].
    - sret. split; [auto|cbv; repeat split; discriminate]. }
  intros [[pr tr] mx] ? (<- & Hpr & Htr & Hmx).
  assert (mono = 0 \/ mono = 1) as [-> | ->] by lia; cbn [z2b Z.eqb Pos.eqb negb].
  - bnd 8 (fun (x : Z * Z * Z * Z * Z) (y : Z * Z * Z * Z) =>
      let '(r, ly, h, v, ch) := x in y = (r, h, v, ch) /\ ly = layout_of 0 h v /\
      0 <= r <= 1 /\ 0 <= h <= 1 /\ 0 <= v <= h /\ 0 <= ch <= 3 /\
      (profile = 0 -> ly = I420) /\ (profile = 1 -> ly = I444) /\ (profile = 2 -> hb < 2 -> ly = I422)).
    { apply sim_if; [reflexivity| |]; intros _.
      - apply sim_require; [lia| |].
        { unfold S.profile_allows.
          assert (profile = 0 \/ profile = 1 \/ profile = 2) as D by lia.
          assert (hb = 0 \/ hb = 1 \/ hb = 2) as D2 by lia.
          destruct D as [->|[->| ->]]; destruct D2 as [->|[->| ->]]; try reflexivity; lia. }
        intros PA. sret. split; [reflexivity|]. split; [reflexivity|]. split; [lia|]. split; [lia|]. split; [lia|].
        split; [cbv; split; discriminate|].
        unfold S.profile_allows in PA.
        destruct (Z.eqb_spec (8 + 2 * hb) 12); [|].
        + repeat split; intros; try lia.
        + repeat split; intros; subst; cbn in PA; try discriminate; auto.
      - rd1 r.
        bnd 2 (fun (x : Z * Z * Z) (y : Z * Z) => let '(ly, h, v) := x in y = (h, v) /\ ly = layout_of 0 h v /\
          0 <= h <= 1 /\ 0 <= v <= h /\
          (profile = 0 -> ly = I420) /\ (profile = 1 -> ly = I444) /\ (profile = 2 -> hb < 2 -> ly = I422)).
        { assert (profile = 0 \/ profile = 1 \/ profile = 2) as D by lia.
          destruct D as [->|[->| ->]]; cbn [Z.eqb Pos.eqb].
          - sret. repeat split; try lia.
          - sret. repeat split; try lia.
          - destruct (Z.eqb_spec hb 2).
            + replace (8 + 2 * hb =? 12) with true by lia. apply rbind_assoc_sim. rd1 h.
              assert (h = 0 \/ h = 1) as [-> | ->] by lia; cbn [z2b Z.eqb Pos.eqb negb].
              * apply sim_let. apply sim_let. apply sim_bind_ret_r. sret. repeat split; try lia.
              * apply rbind_assoc_sim. rd1 v. apply sim_let. sret.
                assert (v = 0 \/ v = 1) as [-> | ->] by lia; repeat split; try lia.
            + replace (8 + 2 * hb =? 12) with false by lia. apply sim_let. sret. repeat split; try lia. }
        intros [[ly h] v] [h' v'] (E & El & Hh & Hv & Hl). inversion E. subst h' v'.
        bnd 2 (eqr 0 3).
        { apply sim_if; [|intros _; apply sim_bits; lia|intros _; sret; split; [auto|cbv; split; discriminate]].
          assert (h = 0 \/ h = 1) as [-> | ->] by lia; assert (v = 0 \/ v = 1) as [-> | ->] by lia; reflexivity. }
        intros ch ? [<- Hch]. sret. split; [auto|]. split; [auto|]. split; [lia|]. auto. }
    intros [[[[r ly] h] v] ch] y (-> & El & Hr & Hh & Hv & Hch & HL1 & HL2 & HL3).
    apply sim_require; [lia| |].
    { subst ly. unfold layout_of.
      assert (h = 0 \/ h = 1) as [-> | ->] by lia; assert (v = 0 \/ v = 1) as [-> | ->] by lia; try lia;
        unfold MC_IDENTITY, S.MC_IDENTITY; destruct strict, (mx =? 0); reflexivity. }
    intros _. rd1 uvd. sret. unfold color_rel, color_wf. cbn - [Z.add Z.mul].
    repeat split; auto; try lia; try (intros; right; auto).
  - apply rbind_assoc_sim. rd1 r. apply sim_let.
    apply sim_require; [lia| |].
    { unfold MC_IDENTITY, S.MC_IDENTITY, I400, I444. destruct strict, (mx =? 0); reflexivity. }
    intros _. apply sim_let. sret. unfold color_rel, color_wf. cbn - [Z.add Z.mul].
    repeat split; auto; try lia; try (cbv; discriminate).
Qed.

Lemma sim_seq : forall strict N, 5000 <= N ->
  sim N (parse_seq_body strict) (S.sequence_header_obu strict) (fun h s => seq_rel h s /\ seq_wf h).
Proof.
  intros strict N HN. unfold parse_seq_body, S.sequence_header_obu.
  rdn prof 3. apply sim_require; [lia| |].
  { destruct (Z.ltb_spec 2 prof), (Z.leb_spec prof 2); auto; lia. }
  intros Hprof2. rd1 still. rd1 rsph. apply sim_require; [lia| |].
  { rewrite !z2b_1 by lia. rewrite negb_involutive. f_equal.
    assert (still = 0 \/ still = 1) as [-> | ->] by lia; reflexivity. }
  intros Hred.
  eapply sim_bind with (N1 := 4000); [apply sim_op_section; lia| |lia].
  intros [[[[t dm] n] ops] ois] [[t' dm'] l] (HT & HTW & <- & Hdm & Hn & Hn2 & Hops & HopsW & Hrt).
  rdn wnb 4. rdn hnb 4.
  rdn mw (wnb + 1). rdn mh (hnb + 1).
  eapply sim_bind with (N1 := 8); [apply sim_frame_ids; lia| |lia].
  intros [[fp fd] fn] [[fp' fd'] fa'] (<- & Hfp & Hfd & Hfn & Hfd' & Hfa').
  rd1 sb. rd1 fi. rd1 ief.
  eapply sim_bind with (N1 := 20); [apply sim_tools; lia| |lia].
  intros tl tl' (HTL & HT1 & HT2 & HT3 & HT4 & HT5 & HT6 & HT7).
  rd1 sr. rd1 cd. rd1 rs.
  eapply sim_bind with (N1 := 60); [apply sim_color; lia| |lia].
  intros col col' (HC & HCW). rd1 fg. sret. split.
  - unfold seq_rel. cbn - [Z.add]. repeat (split; [solve [auto | lia | exact Hops]|]). auto.
  - unfold seq_wf. cbn - [Z.add Z.pow].
    assert (Hfid : fp = 1 -> 2 <= fd <= 17 /\ 3 <= fn <= 25).
    { intros ->. cbn [Z.eqb Pos.eqb] in *. lia. }
    repeat match goal with |- _ /\ _ => split end; try lia; auto; try (apply HCW).
Qed.

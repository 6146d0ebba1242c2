(** Tile group OBUs: the effect of a step on the pending tiles. *)
From Coq Require Import ZArith List Bool Lia.
From Verif Require Import Base.CInt Base.Lemmas GetBits.Model GetBits.Spec GetBits.AtPos GetBits.SpecProg
  Obu.SeqModel Obu.SeqRel Obu.ObuSpec Obu.FrameModel Obu.FrameRel Obu.FrameHist
  Dec.State Dec.Submit Dec.ObuModel Dec.LibModel Dec.Front Dec.Wf Dec.Inv Dec.Meta Dec.Step Dec.SubmitProofs Dec.Parse Dec.Api Dec.Facts.
Import ListNotations.
Open Scope Z_scope.

Definition n_tiles_of (h : frame_hdr) : Z := t_cols (f_tiling h) * t_rows (f_tiling h).

Lemma tile_group_det : forall h buf pos st en data st' en' data', tile_group_at h buf pos st en data ->
  tile_group_at h buf pos st' en' data' -> st = st' /\ en = en' /\ data = data'.
Proof. intros h buf pos st en data st' en' data' (p & E & _ & ->) (p' & E' & _ & ->). rewrite E in E'. injection E' as <- <- <-. auto. Qed.

Section Tiles.
Variables (o : oracle) (s : settings) (buf : list Z) (m : props) (d d' : dec) (r : Z) (e : list ev).
Hypothesis (HN : 1 <= s_n_fc s) (HL : live o s d) (HO : d_out d = None) (HB : Forall is_byte buf) (HZ : 0 < zlen buf)
  (HP : parse_obus o s buf m d = Ok (r, d', e)).
Variables (oh : obu_hdr) (start stop : Z) (h : frame_hdr).
Hypothesis (HX : next_obu buf 0 = Some (oh, start, stop)) (HT : obu_type oh = OBU_TILE_GRP)
  (HS : s_strict s && (stream_bit buf (zlen buf) 0 =? 1) = false)
  (HD : layer_dropped (d_idc d) (obu_type oh) (obu_extension_flag oh) (temporal_id oh) (spatial_id oh) = false)
  (HH : d_fhdr d = Some h).
Let pay := firstn (Z.to_nat stop) buf.

Lemma tile_step : forall st en data, tile_group_at h pay (8 * start) st en data ->
  (en < st \/ st <> d_n_tiles d) /\ r = EINVAL_ /\ d_tiles d' = [] /\ d_n_tiles d' = 0 /\ e = [] /\ d_fhdr d' = Some h \/
  st <= en /\ st = d_n_tiles d /\ en + 1 <> n_tiles_of h /\ r = stop /\ e = [] /\ d_fhdr d' = Some h /\
    d_n_tiles d' = en + 1 /\ d_tiles d' = d_tiles d ++ [mkTgrp st en data m] \/
  st <= en /\ st = d_n_tiles d /\ en + 1 = n_tiles_of h /\ exists x e0 e1, e = e0 ++ x :: e1 /\ outs e0 /\ outs e1 /\
    (x = EvSkip h /\ dft_drops s h = true \/
     dft_drops s h = false /\ ((exists r0, x = EvRefuse h r0) \/
       exists j r0, x = EvSubmit j r0 /\ j_hdr j = h /\ j_tiles j = d_tiles d ++ [mkTgrp st en data m])).
Proof.
  intros st en data TG. destruct (live_ok o s d HN HL) as ((I & _) & _).
  destruct (the_step o s buf m d d' r e HN HL HO HB HZ HP) as (SE & _).
  destruct SE as [(_ & _ & _ & [SE|SE])|(oh' & start' & stop' & N & _ & B1 & B2 & [(LD & _)|(_ & x & X & Y)])]; try congruence.
  rewrite HX in N. injection N as <- <- <-.
  assert (T2 : switch_eff s (obu_type oh) (temporal_id oh) (spatial_id oh) m (firstn (Z.to_nat stop) buf) start d x) by exact X. clear X.
  rewrite HT in T2.
  destruct T2 as [(A & _)|[([A|[A|(A & _)]] & _)|[(_ & [(A & _)|(h' & A & T2)])|[(A & _)|[(A & _)|(_ & A & _)]]]]]; try discriminate; try congruence.
  rewrite HH in A. injection A as <-.
  destruct T2 as [(_ & A)|(st' & en' & data' & TG' & S0 & T2)]; [exfalso; eapply A; exact TG|].
  destruct (tile_group_det _ _ _ _ _ _ _ _ _ TG TG') as (<- & <- & <-). clear TG'.
  destruct T2 as [(A & ->)|(A1 & A2 & ->)].
  { destruct Y as (-> & -> & ->). left. dsimp. auto 10. }
  right.
  destruct (inv_hdr _ _ I h HH) as (q & ES & PP & UL & CH).
  assert (SX : show_existing_frame h = 0).
  { destruct (parsed_facts _ _ _ _ PP (inv_hist _ _ I)) as [(a & b & i & x & y & -> & _)|(X & _)]; [|auto].
    exfalso. destruct TG as (p & TG & _). cbn in TG. injection TG as <- <- _. lia. }
  set (d1 := w_n_tiles (en + 1) (w_tiles (d_tiles d ++ [mkTgrp st en data m]) d)) in *.
  assert (D1 : d_seq d1 = Some q /\ d_fhdr d1 = Some h /\ d_n_tiles d1 = en + 1 /\ d_tiles d1 = d_tiles d ++ [mkTgrp st en data m])
    by (subst d1; dsimp; auto). clearbody d1. destruct D1 as (D1 & D2 & D3 & D4).
  destruct Y as [(-> & -> & -> & Y)|[(q1 & h1 & Y1 & Y2 & Y3 & Y4)|(q1 & h1 & Y1 & Y2 & Y3 & Y4 & Y5)]].
  - left. destruct Y as [Y|[Y|(h1 & Y1 & _ & Y2)]]; try congruence. rewrite D2 in Y1. injection Y1 as <-.
    unfold n_tiles_of. rewrite D3 in Y2. auto 10.
  - rewrite D2 in Y2. injection Y2 as <-. lia.
  - right. rewrite D2 in Y2. injection Y2 as <-. split; [auto|]. split; [auto|]. split; [unfold n_tiles_of; lia|].
    destruct Y5 as [(DF & _ & _ & ->)|(DF & r0 & d2 & _ & SB & _)].
    + exists (EvSkip h), [], []. split; [reflexivity|]. split; [constructor|]. split; [constructor|]. auto.
    + destruct SB as (e0 & x & e1 & E0 & O0 & O1 & SB). exists x, e0, e1. split; [auto|]. split; [auto|]. split; [auto|]. right. split; [auto|].
      destruct SB as [(-> & _)|(j & p & -> & JK & _)]; [left; eauto|right]. exists j, r0. split; [auto|].
      split; [apply (jk_hdr _ _ _ _ JK)|]. rewrite (jk_tiles _ _ _ _ JK). auto.
Qed.
End Tiles.

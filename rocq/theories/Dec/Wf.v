(** Invariant of the decoder state between two steps, and the parts of it that
    the switch over OBU types touches. *)
From Coq Require Import ZArith List Bool Lia.
From Verif Require Import Base.CInt Base.Lemmas GetBits.Model GetBits.Spec GetBits.Abstract
  GetBits.Proofs GetBits.SpecProg GetBits.Sim GetBits.VarLen GetBits.AtPos Obu.SimTac
  Obu.SeqModel Obu.SeqRel Obu.SeqProofs Obu.ObuSpec Obu.SeqTop
  Obu.FrameModel Obu.FrameRel Obu.FrameHist Dec.State Dec.Submit Dec.ObuModel Dec.Front.
Import ListNotations.
Open Scope Z_scope.
Local Open Scope outcome_scope.

(** * Results of parser programs *)

Fixpoint post {A} (P : A -> Prop) (m : rd A) : Prop :=
  match m with
  | Ret a => P a
  | Fail _ | Stuck => True
  | RBit k | RPos k => forall v, post P (k v)
  | RBits _ k | RSBits _ k => forall v, post P (k v)
  | RErr k | RRest k => forall b, post P (k b)
  | RSetErr k | RAlign k => post P k
  end.
Lemma post_exec : forall A (P : A -> Prop) m c x c', post P m -> exec m c = Ok (inl x, c') -> P x.
Proof.
  induction m; intros c x c' HP HE; cbn [post exec] in *;
    repeat match type of HE with
      | context [obind ?o _] => destruct o as [[]|] eqn:?; cbn [obind] in HE; try discriminate
      | context [obind ?o _] => destruct o eqn:?; cbn [obind] in HE; try discriminate
      end; try congruence; eauto.
Qed.
Lemma post_bind : forall A B (Q : A -> Prop) (P : B -> Prop) m g,
  post Q m -> (forall x, Q x -> post P (g x)) -> post P (rbind m g).
Proof. induction m; intros g HQ HG; cbn [post rbind] in *; auto. Qed.
Lemma post_True : forall A (m : rd A), post (fun _ => True) m.
Proof. induction m; cbn; auto. Qed.
Lemma post_any : forall A B (P : B -> Prop) (m : rd A) g, (forall x, post P (g x)) -> post P (rbind m g).
Proof. intros. eapply post_bind; [apply post_True|auto]. Qed.

(** Without a primary reference, an enabled segmentation is coded in full. *)
Definition seg_coded (h : frame_hdr) : Prop :=
  z2b (sg_enabled (f_seg h)) = true -> primary_ref_frame (f_pre h) = PRIMARY_REF_NONE ->
  sg_update_map (f_seg h) = 1 /\ sg_temporal (f_seg h) = 0.
Lemma seg_post : forall refs p ridx, post (fun sg => z2b (sg_enabled sg) = true ->
  primary_ref_frame p = PRIMARY_REF_NONE -> sg_update_map sg = 1 /\ sg_temporal sg = 0) (parse_seg refs p ridx).
Proof.
  intros. unfold parse_seg. apply post_any. intros en. destruct (z2b en) eqn:E.
  - eapply post_bind with (Q := fun x => primary_ref_frame p = PRIMARY_REF_NONE -> fst (fst x) = 1 /\ snd (fst x) = 0).
    + destruct (Z.eqb_spec (primary_ref_frame p) PRIMARY_REF_NONE) as [X|X]; [cbn; auto|].
      apply post_any; intros um. apply post_any; intros tp. apply post_any; intros ud. cbn. intros; contradiction.
    + intros ((um & tp) & ud) HQ. apply post_any. intros sd. cbn. intros _ X. apply (HQ X).
  - cbn. intros X. congruence.
Qed.
Lemma hdr_shape : forall sh refs strict tid sid, post (fun h =>
    (exists idx fpd fid, h = show_existing_hdr tid sid idx fpd fid) \/
    (show_existing_frame h = 0 /\ seg_coded h /\ f_temporal_id h = tid /\ f_spatial_id h = sid))
  (parse_frame_hdr sh refs strict tid sid).
Proof.
  intros. unfold parse_frame_hdr. cbv zeta. apply post_any. intros sef. destruct (z2b sef).
  - apply post_any; intros idx. apply post_any; intros fpd. apply post_any; intros fid. cbn. left. eauto.
  - do 2 (apply post_any; intro). apply post_any; intro. apply post_any; intro. apply post_any; intro.
    eapply post_bind; [apply seg_post|]. intros sg Hsg.
    do 11 (apply post_any; intro). apply post_any. intros ((fp & fu) & fd). cbn [post]. right.
    split; [reflexivity|]. split; [|auto]. unfold seg_coded. cbn. exact Hsg.
Qed.

(** [h] was read by parse_frame_hdr while the slots held [refs], under a sequence
    header that equals [q] up to operating_parameter_info. *)
Definition parsed (strict : bool) (refs : refs_t) (q : seq_hdr) (h : frame_hdr) : Prop :=
  exists sh ss tid sid buf pos c c', seq_rel sh ss /\ seq_wf sh /\ without_op_info sh = without_op_info q /\
    0 <= tid /\ 0 <= sid /\ at_pos buf pos c /\ pos + 15200 <= 8 * zlen buf + 2 ^ 31 /\
    exec (parse_frame_hdr sh refs strict tid sid) c = Ok (inl h, c').

Lemma coded_wf_sb : forall q q' h, sb128 q = sb128 q' -> coded_wf q h -> coded_wf q' h.
Proof. intros q q' h E H. unfold coded_wf in *. rewrite <- E. exact H. Qed.

Theorem parsed_facts : forall strict refs q h, parsed strict refs q h -> reachable refs ->
  (exists tid sid idx fpd fid, h = show_existing_hdr tid sid idx fpd fid /\ 0 <= idx <= 7) \/
  (show_existing_frame h = 0 /\ coded_wf q h /\ seg_coded h /\
   reachable (refresh 0 (refresh_frame_flags (f_refs h)) (Some h) refs)).
Proof.
  intros strict refs q h (sh & ss & tid & sid & buf & pos & c & c' & R & W & EQ & Ht & Hs & At & Hb & E) (srefs & HH).
  destruct (post_exec _ _ _ _ _ _ (hdr_shape sh refs strict tid sid) E) as [(idx & fpd & fid & ->)|(S0 & SG & _)].
  - left. exists tid, sid, idx, fpd, fid. split; auto.
    destruct (frame_hdr_exec sh ss refs srefs strict tid sid buf pos c R W (history_slots _ _ HH) Ht Hs At Hb) as
      (r & c'' & p'' & E' & _ & _ & M). rewrite E in E'. injection E' as <- <-. destruct M as (s & _ & _ & [M|M]).
    + apply M.
    + cbn in M. destruct M; discriminate.
  - right. split; auto.
    destruct (accepted sh ss refs srefs strict tid sid buf pos c h c' R W HH Ht Hs At Hb E S0) as (s & p' & _ & _ & CW).
    split; [|split; auto].
    + apply (coded_wf_sb sh); auto. exact (f_equal sb128 EQ).
    + exact (reachable_frame refs sh ss strict tid sid buf pos c h c' (ex_intro _ srefs HH) R W Ht Hs At Hb E S0).
Qed.

(** * Tile groups *)

(** Consecutive tile groups from tile [a] to tile [b - 1]. *)
Fixpoint chain (a : Z) (l : list tgrp) (b : Z) : Prop :=
  match l with
  | [] => a = b
  | t :: l => tg_start t = a /\ tg_start t <= tg_end t /\ chain (tg_end t + 1) l b
  end.
Lemma chain_app : forall l a b t, chain a l b -> tg_start t = b -> tg_start t <= tg_end t ->
  chain a (l ++ [t]) (tg_end t + 1).
Proof. induction l; intros a0 b t H H0 H1; cbn in *; [subst; auto|]. destruct H as (A & B & C). eauto. Qed.
Lemma chain_le : forall l a b, chain a l b -> a <= b.
Proof. induction l; intros a0 b H; cbn in *; [lia|]. destruct H as (A & B & C). apply IHl in C. lia. Qed.
(** Every tile belongs to exactly one group. *)
Lemma chain_cover : forall l a b i, chain a l b -> a <= i < b ->
  exists l1 t l2, l = l1 ++ t :: l2 /\ tg_start t <= i <= tg_end t /\
    Forall (fun t' => tg_end t' < i) l1 /\ Forall (fun t' => i < tg_start t') l2.
Proof.
  induction l as [|t l IH]; intros a b i H Hi; cbn in H; [lia|]. destruct H as (A & B & C).
  destruct (Z.le_gt_cases i (tg_end t)).
  - exists [], t, l. split; [reflexivity|]. split; [lia|]. split; [constructor|].
    assert (forall l a b, chain a l b -> i < a -> Forall (fun t' => i < tg_start t') l) as FF.
    { clear. induction l as [|t l IH]; intros a b H Hi; constructor; cbn in H; destruct H as (A & B & C); [lia|].
      eapply IH; eauto. lia. }
    eapply FF; eauto. lia.
  - destruct (IH _ _ i C ltac:(lia)) as (l1 & t' & l2 & -> & X1 & X2 & X3). exists (t :: l1), t', l2.
    split; [reflexivity|]. split; auto.
Qed.

(** 5.11.1 tile_group_obu(), up to byte_alignment(). *)
Definition tile_group_head (h : frame_hdr) : sp (Z * Z) :=
  let NumTiles := t_cols (f_tiling h) * t_rows (f_tiling h) in
  let tileBits := t_log2_cols (f_tiling h) + t_log2_rows (f_tiling h) in
  (let* tile_start_and_end_present_flag := (if 1 <? NumTiles then f 1 else SRet 0) in
   if tile_start_and_end_present_flag =? 0 then SRet (0, NumTiles - 1)
   else let* tg_start := f tileBits in
        let* tg_end := f tileBits in
        SRet (tg_start, tg_end))%sp.

Definition tile_bits_ok (h : frame_hdr) : Prop :=
  1 < t_cols (f_tiling h) * t_rows (f_tiling h) -> 1 <= t_log2_cols (f_tiling h) + t_log2_rows (f_tiling h) <= 12.
Lemma coded_tile_bits : forall q h, coded_wf q h -> tile_bits_ok h.
Proof.
  intros q h (_ & _ & _ & T & _) H. destruct T as (_ & _ & _ & _ & T1 & T2 & T3 & T4 & T5 & T6 & _).
  split; [|lia]. destruct (Z.eq_dec (t_log2_cols (f_tiling h)) 0) as [E1|]; [|lia].
  destruct (Z.eq_dec (t_log2_rows (f_tiling h)) 0) as [E2|]; [|lia].
  rewrite E1 in T5. rewrite E2 in T6. change (2 ^ 0) with 1 in *. nia.
Qed.
Lemma sim_tile_hdr : forall h N, tile_bits_ok h -> 32 <= N ->
  sim N (parse_tile_hdr h) (tile_group_head h) (fun x y => x = y /\ 0 <= fst x).
Proof.
  intros h N HB HN. unfold parse_tile_hdr, tile_group_head. cbv zeta.
  eapply sim_bind with (N1 := 1) (S := fun x y => x = y /\ (x = 0 \/ x = 1 /\ 1 < t_cols (f_tiling h) * t_rows (f_tiling h))).
  - destruct (Z.ltb_spec 1 (t_cols (f_tiling h) * t_rows (f_tiling h))).
    + eapply sim_weaken; [apply (sim_f1 1); lia|lia|]. cbv beta. intros x y (-> & Hx). split; auto. lia.
    + sret. auto.
  - intros x y (<- & [->|(-> & HM)]).
    + change (z2b 0) with false. change (0 =? 0) with true. cbn iota. sret. cbn. split; [reflexivity|lia].
    + change (z2b 1) with true. change (1 =? 0) with false. cbn iota. specialize (HB HM).
      set (n := t_log2_cols (f_tiling h) + t_log2_rows (f_tiling h)) in *. clearbody n.
      rdn st n. rdn en n. sret. cbn. split; [reflexivity|lia].
  - lia.
Qed.

(** Simulation on a reader whose error flag may already be set. *)
Lemma sim_exec_wf : forall A B N (p : rd A) (q : sp B) (R : A -> B -> Prop) c,
  sim N p q R -> gb_wf c -> a_pos (apos_of c) + N <= 8 * gb_end c + 2 ^ 31 ->
  match srun q (st_bit (stream_of c)) (a_pos (apos_of c)) with
  | (Some y, pos') => a_pos (apos_of c) <= pos' <= a_pos (apos_of c) + N /\
      exists x c', exec p c = Ok (inl x, c') /\ R x y /\ gb_wf c' /\ same_buf c c' /\
        apos_of c' = {| a_pos := pos'; a_err := gb_err c || (8 * gb_end c <? pos') |}
  | (None, pos') => exists c', exec p c = Ok (inr DAV1D_EINVAL, c') /\ gb_wf c' /\ same_buf c c'
  end.
Proof.
  intros A B N p q R c HS W Hb.
  specialize (HS (stream_of c) (apos_of c) (stream_of_ok c) (gb_wf_pos c W) Hb).
  destruct (srun q (st_bit (stream_of c)) (a_pos (apos_of c))) as [[y|] pos'].
  - destruct HS as (P & x & E & RR). destruct (exec_refines _ p c _ _ W E) as (c' & X1 & X2 & X3 & X5).
    split; [lia|]. exists x, c'. auto.
  - destruct HS as (P & E). destruct (exec_refines _ p c _ _ W E) as (c' & X1 & X2 & X3 & X5). eauto.
Qed.

(** What a tile group OBU (or the tile group of a frame OBU) starting at bit [pos]
    of [buf] says. *)
Definition tile_group_at (h : frame_hdr) (buf : list Z) (pos st en : Z) (data : list Z) : Prop :=
  exists p, srun (tile_group_head h) (stream_bit buf (zlen buf)) pos = (Some (st, en), p) /\
    p <= 8 * zlen buf /\ data = skipn (Z.to_nat ((p + 7) / 8)) buf.

Lemma slice_end : forall l a, 0 <= a <= zlen l -> slice l a (zlen l) = skipn (Z.to_nat a) l.
Proof.
  intros l a H. unfold slice. apply firstn_all2. rewrite skipn_length. unfold zlen in *. lia.
Qed.

(** Outcomes of the tile group case, for a reader that is either in a regular
    position or already past the end with the error flag set. *)
Theorem tile_group_ok : forall m c d h buf, d_fhdr d = Some h -> tile_bits_ok h ->
  gb_wf c -> gb_buf c = buf -> gb_end c = zlen buf -> a_pos (apos_of c) + 32 <= 8 * zlen buf + 2 ^ 31 ->
  (gb_err c = true \/ at_pos buf (a_pos (apos_of c)) c) ->
  exists x, tile_group m c d = Ok x /\
  ((x = SwErr d /\ forall st en data, at_pos buf (a_pos (apos_of c)) c ->
       ~ tile_group_at h buf (a_pos (apos_of c)) st en data) \/
   (at_pos buf (a_pos (apos_of c)) c /\
    exists st en data, tile_group_at h buf (a_pos (apos_of c)) st en data /\ 0 <= st /\
     ((en < st \/ st <> d_n_tiles d) /\ x = SwErr (w_n_tiles 0 (w_tiles [] d)) \/
      st <= en /\ st = d_n_tiles d /\
      x = SwGo (w_n_tiles (en + 1) (w_tiles (d_tiles d ++ [mkTgrp st en data m]) d))))).
Proof.
  intros m c d h buf Hh HB W E1 E2 Hp Hr. unfold tile_group. rewrite Hh.
  pose proof (sim_exec_wf _ _ 32 _ _ _ c (sim_tile_hdr h 32 HB ltac:(lia)) W ltac:(lia)) as HS.
  replace (st_bit (stream_of c)) with (stream_bit buf (zlen buf)) in HS by (unfold stream_of; rewrite E1, E2; reflexivity).
  destruct (srun (tile_group_head h) (stream_bit buf (zlen buf)) (a_pos (apos_of c))) as [[(st & en)|] p] eqn:ER.
  2:{ exfalso. clear - ER. unfold tile_group_head in ER. cbv zeta in ER.
      destruct (1 <? _); cbn [sbind f srun] in ER; [destruct (_ =? 0)|]; cbn in ER; discriminate. }
  destruct HS as (Pp & x & c1 & X1 & (X2 & X3) & W1 & (B1 & B2) & A1). cbn [fst] in X3. subst x. rewrite X1. cbn [obind].
  destruct (align_ok c1 W1) as (c2 & G1 & G2 & (G3 & G4) & G5). rewrite G1. cbn [obind].
  assert (EE : gb_err c2 = gb_err c1).
  { change (a_err (apos_of c2) = a_err (apos_of c1)). rewrite G5. reflexivity. }
  assert (E1' : gb_err c1 = gb_err c || (8 * zlen buf <? p)).
  { change (gb_err c1) with (a_err (apos_of c1)). rewrite A1. cbn. rewrite E2. reflexivity. }
  assert (ATE : at_pos buf (a_pos (apos_of c)) c -> gb_err c = (8 * zlen buf <? a_pos (apos_of c))).
  { intros (_ & _ & _ & X). apply (f_equal a_err) in X. exact X. }
  destruct (gb_err c2) eqn:Eerr.
  - eexists. split; [reflexivity|]. left. split; auto. intros st' en' data AT (p' & T1 & T2 & T3).
    rewrite ER in T1. injection T1 as <- <- <-. specialize (ATE AT). rewrite <- EE, ATE in E1'.
    destruct (Z.ltb_spec (8 * zlen buf) (a_pos (apos_of c))), (Z.ltb_spec (8 * zlen buf) p); try discriminate; lia.
  - rewrite <- EE in E1'. symmetry in E1'. apply orb_false_elim in E1'. destruct E1' as (C1 & C2). apply Z.ltb_ge in C2.
    destruct Hr as [Hr|Hr]; [congruence|].
    assert (PT : gb_ptr c2 = (p + 7) / 8 /\ gb_buf c2 = buf /\ gb_end c2 = zlen buf).
    { split; [|split; congruence].
      assert (gb_left c2 = 0). { unfold gb_align in G1. destruct (gb_left c1 <=? 7); [|discriminate]. injection G1 as <-. reflexivity. }
      apply (f_equal a_pos) in G5. rewrite A1 in G5. unfold apos_of, a_align in G5. cbn in G5.
      rewrite B2, E2 in G5. replace (8 * zlen buf <? p) with false in G5 by lia. lia. }
    destruct PT as (P1 & P2 & P3).
    assert (TG : tile_group_at h buf (a_pos (apos_of c)) st en (skipn (Z.to_nat ((p + 7) / 8)) buf)) by (exists p; auto).
    destruct ((en <? st) || negb (st =? d_n_tiles d)) eqn:EC.
    + eexists. split; [reflexivity|]. right. split; auto. exists st, en, (skipn (Z.to_nat ((p + 7) / 8)) buf).
      split; [auto|]. split; [auto|]. left. split; [|reflexivity].
      apply orb_true_iff in EC. destruct EC as [EC|EC]; [left; lia|right]. apply negb_true_iff in EC. lia.
    + eexists. split; [reflexivity|]. right. split; auto. exists st, en, (skipn (Z.to_nat ((p + 7) / 8)) buf).
      split; [auto|]. split; [auto|]. right. apply orb_false_elim in EC. destruct EC as (EC1 & EC2).
      apply negb_false_iff in EC2. split; [lia|]. split; [lia|].
      rewrite P1, P2, P3, slice_end. 2:{ assert (0 <= a_pos (apos_of c)) by (apply gb_wf_pos; auto). split; [apply Z.div_pos; lia|]. apply Zlt_succ_le. apply Z.div_lt_upper_bound; lia. }
      replace (d_n_tiles d + (1 + en - st)) with (en + 1) by lia. reflexivity.
Qed.

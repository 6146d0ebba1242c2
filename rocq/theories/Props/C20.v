(** C20: tile data is split without gaps, overlaps or over-reads. *)
From Coq Require Import ZArith List Bool Lia Sorting.Sorted.
From Verif Require Import Base.CInt Base.Lemmas GetBits.Model GetBits.Spec
  Obu.SeqModel Obu.SeqRel Obu.ObuSpec Obu.FrameModel Obu.FrameRel
  Dec.State Dec.Submit Dec.ObuModel Dec.LibModel Dec.Front Dec.Wf Dec.Inv Dec.Meta Dec.Step Dec.SubmitProofs
  Dec.Parse Dec.Api Dec.Facts Dec.TileSteps Tile.Split Tile.SplitSpec Tile.SplitProofs.
Import ListNotations.
Open Scope Z_scope.

(** The tile groups [l] of a frame of [cols] by [rows] tiles, in order and complete
    (what C21 shows of every frame that is submitted); [nb] size bytes. *)
Section C20.
Variables (nb cols rows update : Z) (refresh : bool) (l : list tgrp).
Hypothesis (NB : 0 <= nb <= 4) (HC : 1 <= cols <= 64) (HR : 1 <= rows <= 64) (HU : 0 <= update < cols * rows)
  (HL : chain 0 l (cols * rows)) (HD : Forall (fun t => Forall is_byte (tg_data t) /\ zlen (tg_data t) < 2 ^ 63) l).
Let run := init_cdf nb cols (cols * rows) update refresh l.
Let holds (t : tgrp) (ts : list (list Z)) : Prop :=
  tiles_of (Z.to_nat nb) (Z.to_nat (tg_end t - tg_start t + 1)) (tg_data t) ts.

Lemma cases : (exists s tss news, run = Ok (Some s) /\ laid_out nb 0 l tss news /\
     s_out s = concat news /\ s_upd s = refresh /\ map ti_idx (s_out s) = upto 0 (Z.to_nat (cols * rows)) /\ Forall (placed cols) (s_out s)) \/
  (run = Ok None /\ Exists (fun t => forall ts, ~ splits nb t ts) l).
Proof. apply (init_cdf_ok nb cols rows (cols * rows) update refresh NB HC HR eq_refl l HD HU HL). Qed.

(** No byte outside a tile group is read and no tile state outside the frame's is
    written. *)
Theorem C20_defined : exists r, run = Ok r.
Proof. destruct cases as [(s & _ & _ & H & _)|(H & _)]; rewrite H; eauto. Qed.

(** The tiles are given the data that the syntax says, in the order of their
    numbers, at their row and column; the CDFs to keep are those of the tile that
    the header names. *)
Theorem C20_tiles : forall s, run = Ok (Some s) ->
  (exists tss, Forall2 holds l tss /\ map (tile_bytes l) (s_out s) = concat tss) /\
  map ti_idx (s_out s) = map Z.of_nat (seq 0 (Z.to_nat (cols * rows))) /\
  Forall (fun t => ti_row t = ti_idx t / cols /\ ti_col t = ti_idx t mod cols) (s_out s) /\
  s_upd s = refresh.
Proof.
  intros s H. destruct cases as [(s' & tss & news & H' & LO & O & U & I & P)|(H' & _)]; rewrite H' in H; [|discriminate].
  injection H as <-. split; [|split; [rewrite I; apply (upto_seq _ 0); lia|auto]].
  exists tss. split; [apply (laid_out_splits _ _ _ _ _ LO)|]. rewrite O. apply (laid_out_bytes _ _ _ _ _ [] LO eq_refl).
Qed.

(** Every tile lies inside its tile group and the tiles do not overlap. *)
Theorem C20_disjoint : forall s, run = Ok (Some s) ->
  Forall (fun t => exists g, nth_error l (Z.to_nat (ti_grp t)) = Some g /\
    0 <= ti_pos t /\ 0 <= ti_sz t /\ ti_pos t + ti_sz t <= zlen (tg_data g)) (s_out s) /\
  StronglySorted (fun t u => ti_grp t < ti_grp u \/ (ti_grp t = ti_grp u /\ ti_pos t + ti_sz t <= ti_pos u)) (s_out s).
Proof.
  intros s H. destruct cases as [(s' & tss & news & H' & LO & O & U & I & P)|(H' & _)]; rewrite H' in H; [|discriminate].
  injection H as <-. rewrite O. split; [apply (laid_out_inside _ _ _ _ _ [] LO eq_refl)|apply (laid_out_sorted nb l 0 tss news ltac:(lia) LO)].
Qed.

(** A frame is rejected if and only if a payload cannot be divided. *)
Theorem C20_rejected : run = Ok None <-> exists t, In t l /\ forall ts, ~ holds t ts.
Proof.
  destruct cases as [(s & tss & news & H & LO & _)|(H & X)]; rewrite H; (split; [|]).
  - discriminate.
  - intros (t & I & N). exfalso. pose proof (laid_out_splits _ _ _ _ _ LO) as F. clear - F I N.
    induction F as [|u us l tss A F IH]; [destruct I|]. destruct I as [->|I]; [exact (N us A)|exact (IH I)].
  - intros _. apply Exists_exists in X. exact X.
  - reflexivity.
Qed.
End C20.

(** The payload of a group can be divided in at most one way. *)
Theorem C20_unique : forall nb k p ts ts', tiles_of nb k p ts -> tiles_of nb k p ts' -> ts = ts'.
Proof. intros nb k p ts ts' H H'. exact (tiles_of_unique nb k p ts H ts' H'). Qed.

(** The above applies to every frame that the parser submits for decoding. *)
Theorem C20_submitted : forall o s buf m d d' r e, 1 <= s_n_fc s -> live o s d -> d_out d = None ->
  Forall is_byte buf -> 0 < zlen buf -> parse_obus o s buf m d = Ok (r, d', e) ->
  forall j r0, In (EvSubmit j r0) e -> let t := f_tiling (j_hdr j) in
  0 <= t_n_bytes t <= 4 /\ 1 <= t_cols t <= 64 /\ 1 <= t_rows t <= 64 /\ 0 <= t_update t < t_cols t * t_rows t /\
  chain 0 (j_tiles j) (t_cols t * t_rows t).
Proof.
  intros o s buf m d d' r e HN HL HO HB HZ HP j r0 HI.
  destruct (submitted o s buf m d d' r e HN HL HO HB HZ HP j r0 HI)
    as (n & q & h & d1 & d2 & p & I1 & Q1 & R1 & S1 & H1 & SE & NT & JK & _).
  destruct (pending_facts s q h d1 I1 S1 H1 SE) as ((_ & _ & _ & W & _) & _ & _ & CH & _).
  rewrite (jk_tiles _ _ _ _ JK), (jk_hdr _ _ _ _ JK). cbv zeta. rewrite <- NT.
  destruct W as (_ & _ & _ & _ & C & R & _ & _ & _ & _ & U & N). rewrite NT. rewrite NT in CH. auto 10.
Qed.

(** Two groups of two and one tiles; a size that does not fit is rejected. *)
Definition tg (a b : Z) (data : list Z) : tgrp := mkTgrp a b data props0.
Example C20_example :
  let l := [tg 0 1 [2; 0; 10; 11; 12; 13]; tg 2 2 [14; 15]] in
  (exists s, init_cdf 2 3 3 1 true l = Ok (Some s) /\ map (tile_bytes l) (s_out s) = [[10; 11; 12]; [13]; [14; 15]] /\
     map ti_col (s_out s) = [0; 1; 2] /\ s_upd s = true) /\
  init_cdf 2 3 3 1 true [tg 0 1 [4; 0; 10; 11; 12; 13]; tg 2 2 []] = Ok None /\
  init_cdf 2 3 3 1 true [tg 0 1 [4]; tg 2 2 []] = Ok None /\ chain 0 l 3.
Proof.
  cbv zeta. split; [eexists; split; [vm_compute; reflexivity|]; vm_compute; auto|].
  split; [vm_compute; reflexivity|]. split; [vm_compute; reflexivity|]. cbn. lia.
Qed.

Print Assumptions C20_defined.
Print Assumptions C20_tiles.
Print Assumptions C20_disjoint.
Print Assumptions C20_rejected.
Print Assumptions C20_unique.
Print Assumptions C20_submitted.

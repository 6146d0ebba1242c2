(** C44: film grain is applied exactly as the AV1 specification says (7.18.3). *)
From Coq Require Import ZArith List Bool Lia.
From Verif Require Import Base.CInt Base.Loop Obu.FrameModel Obu.SeqModel Obu.SeqRel Obu.FrameRel Obu.FrameHist.
From Verif Require Import GetBits.Model GetBits.AtPos.
From Verif Require Import Grain.Model Grain.Spec Grain.Arith Grain.Templates2 Grain.Scaling2 Grain.Apply Grain.Header.
Import ListNotations.
Open Scope Z_scope.

(** What is assumed of a picture: known film grain parameters, a bit depth of 8, 10
    or 12, any nonempty size and any chroma layout. *)
Definition picture_ok (v : video) (d : fgdata) (s : F.film_grain) : Prop :=
  bdok (BitDepth v) /\ params_ok d s (monochrome v) /\ 1 <= frame_w v /\ 1 <= frame_h v /\ sub01 (subX v) /\ sub01 (subY v).

(** The visible part of every output plane is the output of the specification; no
    behaviour is undefined on the way (no read of an unset or out of range table
    entry, no signed overflow, no access outside a plane), and every output pixel is
    in the range of the bit depth. *)
Theorem C44_output : forall v d s i out inY inU inV, picture_ok v d s -> buffers_ok v i out inY inU inV ->
  exists i' out', apply_grain (BitDepth v) d (geom v) i out = Ok (i', out') /\
    shows (BitDepth v) (frame_w v) (frame_h v) (im_y out') (OutY v s inY) /\
    (monochrome v = false -> shows (BitDepth v) (chroma_w v) (chroma_h v) (im_u out') (OutU v s inY inU) /\
                             shows (BitDepth v) (chroma_w v) (chroma_h v) (im_v out') (OutV v s inY inV)).
Proof.
  intros v d s i out inY inU inV (H1 & H2 & H3 & H4 & H5 & H6) HBuf.
  destruct (apply_ok v d s H1 H2 H3 H4 H5 H6 i out inY inU inV HBuf) as (i' & out' & E & A & B & _). eauto.
Qed.

(** The decoded picture, which later frames still refer to, does not change in its
    visible part; only the column after its last one is written.  Outside the visible
    part the output holds what it held before, or a copy of the input. *)
Theorem C44_writes : forall v d s i out inY inU inV i' out', picture_ok v d s -> buffers_ok v i out inY inU inV ->
  apply_grain (BitDepth v) d (geom v) i out = Ok (i', out') ->
  (forall y x, x <> frame_w v -> im_y i' y x = im_y i y x) /\ im_u i' = im_u i /\ im_v i' = im_v i /\
  (forall y x, ~ (0 <= y < frame_h v /\ 0 <= x < frame_w v) -> im_y out' y x = im_y out y x \/ im_y out' y x = im_y i y x) /\
  (monochrome v = false -> forall y x, ~ (0 <= y < chroma_h v /\ 0 <= x < chroma_w v) ->
     (im_u out' y x = im_u out y x \/ im_u out' y x = im_u i y x) /\ (im_v out' y x = im_v out y x \/ im_v out' y x = im_v i y x)).
Proof.
  intros v d s i out inY inU inV i' out' (H1 & H2 & H3 & H4 & H5 & H6) HBuf HE.
  destruct (apply_ok v d s H1 H2 H3 H4 H5 H6 i out inY inU inV HBuf) as (i2 & out2 & E & _ & _ & S & _ & A & B).
  rewrite HE in E. injection E as <- <-. destruct S as (S1 & S2 & S3 & _). auto.
Qed.

(** With restricted range output, planes that receive noise stay in that range. *)
Theorem C44_restricted : forall v d s i out inY inU inV i' out' y x, picture_ok v d s -> buffers_ok v i out inY inU inV ->
  apply_grain (BitDepth v) d (geom v) i out = Ok (i', out') -> fg_clip_to_restricted_range d = 1 -> fg_y_points d <> [] ->
  0 <= y < frame_h v -> 0 <= x < frame_w v ->
  exists p, im_y out' y x = Some p /\ 16 * 2 ^ (BitDepth v - 8) <= p <= 235 * 2 ^ (BitDepth v - 8).
Proof.
  intros v d s i out inY inU inV i' out' y x (H1 & H2 & H3 & H4 & H5 & H6) HBuf HE HC HP Hy Hx.
  destruct (apply_ok v d s H1 H2 H3 H4 H5 H6 i out inY inU inV HBuf) as (i2 & out2 & E & A & _).
  rewrite HE in E. injection E as <- <-. destruct (A y x Hy Hx) as (EA & _). eexists. split; [exact EA|].
  destruct (rel_fields v d s H2) as (_ & _ & _ & EC & _ & _ & PY & _).
  rewrite HC in EC. change (z2b 1) with true in EC. symmetry in EC.
  unfold OutY. replace (0 <? num_points (F.point_y s)) with true.
  - unfold minValue, maxLuma. rewrite EC. apply Clip3_bound. pose proof (bdok_8 _ H1). assert (0 <= 2 ^ (BitDepth v - 8)) by (apply Z.pow_nonneg; lia). lia.
  - rewrite <- PY. destruct (fg_y_points d); [congruence|]. unfold num_points. cbn [length]. symmetry. apply Z.ltb_lt. lia.
Qed.

(** Frames whose output has no grain according to has_grain (and which are output
    without synthesis) are those that the process would leave unchanged. *)
Theorem C44_skipped : forall v d s, picture_ok v d s -> has_grain d = false ->
  forall inY inU inV y x, OutY v s inY y x = inY y x /\
    (0 <= inU y x < 2 ^ BitDepth v -> OutU v s inY inU y x = inU y x) /\
    (0 <= inV y x < 2 ^ BitDepth v -> OutV v s inY inV y x = inV y x).
Proof. intros v d s (H1 & H2 & _). apply no_grain_ok; assumption. Qed.

(** The assumptions on the parameters hold for the parameters coded in an accepted
    frame header, after any history of earlier headers; parameters taken from a
    reference frame get the seed of the current frame. *)
Theorem C44_parameters : forall sh ss refs srefs strict tid sid buf pos c h c',
  seq_rel sh ss -> seq_wf sh -> history refs srefs -> 0 <= tid -> 0 <= sid -> at_pos buf pos c -> pos + 15200 <= 8 * zlen buf + 2 ^ 31 ->
  exec (parse_frame_hdr sh refs strict tid sid) c = Ok (inl h, c') -> show_existing_frame h = 0 -> fg_present h = 1 ->
  (fg_update h = 1 -> exists s, params_ok (f_fg h) s (SeqModel.monochrome (sh_color sh) =? 1)) /\
  (fg_update h = 0 -> exists i h0, In i (refidx (f_refs h)) /\ nth (Z.to_nat i) refs None = Some h0 /\
     forall s m, params_ok (f_fg h0) s m -> params_ok (f_fg h) (F.set_seed s (fg_seed (f_fg h))) m).
Proof.
  intros sh ss refs srefs strict tid sid buf pos c h c' H1 H2 H3 H4 H5 H6 H7 H8 H9 HP. split; intros HU.
  - exact (header_params sh ss refs srefs strict tid sid buf pos c h c' H1 H2 H3 H4 H5 H6 H7 H8 H9 HP HU).
  - destruct (accepted_inherit sh ss refs srefs strict tid sid buf pos c h c' H1 H2 H3 H4 H5 H6 H7 H8 H9 HP HU) as (i & h0 & A & _ & B & EF).
    exists i, h0. split; [exact A|]. split; [exact B|]. intros s m HO. rewrite EF at 1. apply seed_params; [exact HO|].
    destruct (accepted sh ss refs srefs strict tid sid buf pos c h c' H1 H2 H3 H4 H5 H6 H7 H8 H9) as (_ & _ & _ & _ & W). apply W.
Qed.

(** The assumptions are satisfiable: grain on all planes of a 5 by 3 picture in 4:2:0,
    10 bits, with overlap, lag 1 and correlation with luma. *)
Definition ex_s : F.film_grain :=
  F.mkFilmGrain 1234 [(0, 20); (128, 60); (255, 90)] 0 [(10, 40)] [(0, 10); (200, 80)] 2 1
    [128; 130; 120; 140] [128; 128; 129; 131; 150] [128; 128; 127; 100; 90] 1 0 (Some (128, 192, 256)) (Some (130, 180, 250)) 1 1.
Definition ex_d : fgdata :=
  mkFgdata 1234 [(0, 20); (128, 60); (255, 90)] 0 [(10, 40)] [(0, 10); (200, 80)] 10 1
    (coeffs_of 24 [128; 130; 120; 140]) (coeffs_of 28 [128; 128; 129; 131; 150]) (coeffs_of 28 [128; 128; 127; 100; 90]) 7 0
    (mult_of (Some (128, 192, 256))) (mult_of (Some (130, 180, 250))) 1 1.
Definition ex_v : video := mkVideo 10 1 1 false false 5 3.
Example C44_ex_params : picture_ok ex_v ex_d ex_s.
Proof.
  split; [right; left; reflexivity|]. split; [|split; [cbn; lia|split; [cbn; lia|split; right; reflexivity]]].
  split; [|split].
  - cbn. repeat split.
  - unfold fg_wf, points_wf, coeffs_wf, mult_wf, ex_d. cbn. repeat split; try lia; try (right; lia); repeat constructor; cbn; lia.
  - unfold coded_grain. cbv zeta. repeat match goal with |- _ /\ _ => split end;
      try (apply points_coded_wf; [cbn; repeat split; (lia || exact I)|vm_compute; discriminate]);
      try (intros _; apply coeffs_coded; [cbn; repeat (apply Forall_cons; [lia|]); apply Forall_nil|reflexivity]);
      try (cbn; lia); try discriminate; try (intros [K|K]; discriminate).
Qed.
Definition ex_image (p : plane) : image := mkImage p p p 32 32 3 2.
Example C44_ex_buffers : buffers_ok ex_v (ex_image (fun _ _ => Some 500)) (ex_image plane0) (fun _ _ => 500) (fun _ _ => 500) (fun _ _ => 500).
Proof.
  unfold buffers_ok, shows, ex_v, ex_image, chroma_w, chroma_h. cbn. repeat split; try lia.
Qed.
Example C44_ex : exists i out, apply_grain 10 ex_d (geom ex_v) (ex_image (fun _ _ => Some 500)) (ex_image plane0) = Ok (i, out) /\
  im_y out 2 4 = Some (OutY ex_v ex_s (fun _ _ => 500) 2 4) /\ 64 <= OutY ex_v ex_s (fun _ _ => 500) 2 4 <= 940.
Proof.
  destruct (C44_output _ _ _ _ _ _ _ _ C44_ex_params C44_ex_buffers) as (i & out & E & A & _). exists i, out.
  split; [exact E|]. destruct (A 2 4 ltac:(cbn; lia) ltac:(cbn; lia)) as (EA & _). split; [exact EA|].
  destruct (C44_restricted _ _ _ _ _ _ _ _ _ _ 2 4 C44_ex_params C44_ex_buffers E eq_refl ltac:(discriminate) ltac:(cbn; lia) ltac:(cbn; lia)) as (p & EP & HR).
  clear A E. revert EA. generalize (OutY ex_v ex_s (fun _ _ => 500) 2 4). intros o EA. rewrite EP in EA. injection EA as <-. exact HR.
Qed.

Print Assumptions C44_output.
Print Assumptions C44_writes.
Print Assumptions C44_restricted.
Print Assumptions C44_skipped.
Print Assumptions C44_parameters.

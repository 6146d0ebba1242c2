(** C51: intra prediction. The samples that dav1d_prepare_intra_edges gathers and the functions of src/ipred_tmpl.c
    predict from are those of the intra prediction process of the AV1 specification (7.11.2), for every mode, angle, size,
    bit depth and availability of the neighbours; also chroma from luma (7.11.5) and palettes (7.11.4). *)
From Coq Require Import ZArith List Bool Lia.
From Verif Require Import Base.CInt Base.Loop Cdef.Block Mc.Blocks Ipred.Model Ipred.Kernels Ipred.Edge Ipred.Dir Ipred.Recur Ipred.Cfl Ipred.Intra.
From Verif Require Ipred.Spec.
Import ListNotations.
Open Scope Z_scope.
Local Open Scope outcome_scope.

(** A block of 2^lw x 2^lh samples at sample (4 x, 4 y) of a plane [cur], in a tile that ends at sample (4 tw, 4 th) of
    a frame whose last sample is (maxX, maxY). [dst] and [dst_top] read the samples to the left and above; nothing
    that is not available, and nothing after the end of the tile, is read. *)
Section Block.
Variables (bd : Z) (cur : Z -> Z -> Z) (lw lh x y tw th maxX maxY : Z) (have_left have_top tr bl en sm : bool) (dst : Z -> Z -> outcome Z) (dst_top : Z -> outcome Z).
Hypothesis Hd : depth bd.
Hypothesis Hcur : forall r k, pixel bd (cur r k).
Hypothesis Hsz : size lw lh.
Hypothesis Hx : 0 <= x < tw.
Hypothesis Hy : 0 <= y < th.
Hypothesis HX : 4 * tw = maxX + 1 \/ 4 * tw <= maxX + 1 /\ (x + 2 ^ (lw - 2) = tw \/ x + 2 * 2 ^ (lw - 2) <= tw).
Hypothesis HY : 4 * th = maxY + 1 \/ 4 * th <= maxY + 1 /\ (y + 2 ^ (lh - 2) = th \/ y + 2 * 2 ^ (lh - 2) <= th).
Hypothesis Hdst : have_left = true -> forall i, 0 <= i -> i < 2 * 2 ^ lh -> 4 * y + i < 4 * th -> dst i (-1) = Ok (cur (4 * y + i) (4 * x - 1)).
Hypothesis Htop : have_top = true -> forall j, (if have_left then -1 else 0) <= j -> j < 2 * 2 ^ lw -> 4 * x + j < 4 * tw -> dst_top j = Ok (cur (4 * y - 1) (4 * x + j)).
Notation haveAboveRt := ((x + 2 ^ (lw - 2) <? tw) && tr).
Notation haveBelowLft := ((y + 2 ^ (lh - 2) <? th) && bl).
Notation spec := (Spec.intra_prediction bd cur maxX maxY (4 * x) (4 * y) have_left have_top haveAboveRt haveBelowLft lw lh en sm).
Notation prepare c := (prepare_intra_edges bd c x have_left y have_top tw th tr bl dst dst_top).
Notation predict b m a := (intra_pred bd (2 ^ lw) (2 ^ lh) b m (Z.lor (Z.lor a (Z.shiftl (b2z sm) 9)) (Z.shiftl (b2z en) 10)) (maxX - 4 * x + 1) (maxY - 4 * y + 1)).

(** The thirteen modes with an angle *)
Theorem C51_mode : forall mode delta b0 d, 0 <= mode <= 12 -> -3 <= delta <= 3 ->
  exists m a b d', prepare 128 mode delta (2 ^ (lw - 2)) (2 ^ (lh - 2)) en b0 = Ok (m, a, b) /\ predict (erd 128 b) m a d = Ok d' /\
    (forall i j, 0 <= i < 2 ^ lh -> 0 <= j < 2 ^ lw -> d' i j = Some (spec None mode delta i j)) /\
    (forall i j, ~ (0 <= i < 2 ^ lh /\ 0 <= j < 2 ^ lw) -> d' i j = d i j).
Proof.
  intros mode delta b0 d Hm Ha.
  destruct (intra_ok bd 128 Hd cur Hcur lw lh Hsz x y tw th maxX maxY have_left have_top tr bl Hx Hy HX HY en sm dst dst_top Hdst Htop None mode delta b0 d (conj Hm Ha)) as (m & a & b & d' & E1 & E2 & F1 & F2).
  - intros m a _. apply (room_128 bd 128 cur Hcur lw lh Hsz maxY eq_refl).
  - exists m, a, b, d'. split; [exact E1|]. split; [exact E2|]. split; [exact F1|]. intros i j H. apply F2. exact H.
Qed.
(** The recursive filter *)
Theorem C51_filter : forall f b0 d, 0 <= f < 5 ->
  exists m a b d', prepare 128 FILTER_PRED f (2 ^ (lw - 2)) (2 ^ (lh - 2)) en b0 = Ok (m, a, b) /\ predict (erd 128 b) m a d = Ok d' /\
    (forall i j, 0 <= i < 2 ^ lh -> 0 <= j < 2 ^ lw -> d' i j = Some (spec (Some f) 0 0 i j)) /\
    (forall i j, ~ (0 <= i < 2 ^ lh /\ 0 <= j < 2 ^ lw) -> d' i j = d i j).
Proof.
  intros f b0 d Hf.
  destruct (intra_ok bd 128 Hd cur Hcur lw lh Hsz x y tw th maxX maxY have_left have_top tr bl Hx Hy HX HY en sm dst dst_top Hdst Htop (Some f) 0 0 b0 d Hf) as (m & a & b & d' & E1 & E2 & F1 & F2).
  - intros m a _. apply (room_128 bd 128 cur Hcur lw lh Hsz maxY eq_refl).
  - exists m, a, b, d'. split; [exact E1|]. split; [exact E2|]. split; [exact F1|]. intros i j H. apply F2. exact H.
Qed.
(** The intra part of an inter-intra block: the corner of the edges is cell 32 of a smaller buffer
    (src/recon_tmpl.c:1620-1642), the mode is one of four, the block has at most 32 x 32 samples. *)
Theorem C51_interintra : forall mode b0 d, mode = DC_PRED \/ mode = VERT_PRED \/ mode = HOR_PRED \/ mode = SMOOTH_PRED -> lw <= 5 -> lh <= 5 ->
  exists m a b d', prepare 32 mode 0 (2 ^ (lw - 2)) (2 ^ (lh - 2)) en b0 = Ok (m, a, b) /\ intra_pred bd (2 ^ lw) (2 ^ lh) (erd 32 b) m 0 0 0 d = Ok d' /\
    (forall i j, 0 <= i < 2 ^ lh -> 0 <= j < 2 ^ lw -> d' i j = Some (spec None mode 0 i j)) /\
    (forall i j, ~ (0 <= i < 2 ^ lh /\ 0 <= j < 2 ^ lw) -> d' i j = d i j).
Proof.
  intros mode b0 d Hm Hw Hh. pose proof (w_range lw lh Hsz). pose proof (h_range lw lh Hsz).
  assert (W32 : 2 ^ lw <= 32) by (change 32 with (2 ^ 5); apply Z.pow_le_mono_r; lia). assert (H32 : 2 ^ lh <= 32) by (change 32 with (2 ^ 5); apply Z.pow_le_mono_r; lia).
  assert (A : arg_ok None mode 0) by (unfold arg_ok, DC_PRED, VERT_PRED, HOR_PRED, SMOOTH_PRED in *; lia).
  assert (N : forall m a, conv_mode mode 0 have_left have_top = Ok (m, a) -> needs_bottomleft m = false /\ needs_topright m = false /\
    forall b k mw mh, intra_pred bd (2 ^ lw) (2 ^ lh) b m k mw mh d = intra_pred bd (2 ^ lw) (2 ^ lh) b m 0 0 0 d).
  { intros m a E. clear - E Hm. destruct Hm as [->|[->|[->| ->]]]; cbn in E; injection E as <- _; destruct have_left, have_top; split; try split; reflexivity. }
  destruct (intra_ok bd 32 Hd cur Hcur lw lh Hsz x y tw th maxX maxY have_left have_top tr bl Hx Hy HX HY en sm dst dst_top Hdst Htop None mode 0 b0 d A) as (m & a & b & d' & E1 & E2 & F1 & F2).
  - intros m a E. unfold room. split; [lia|]. destruct (N m a E) as (-> & -> & _). split; [intros _; lia|lia].
  - exists m, a, b, d'. split; [exact E1|]. split.
    { rewrite <- E2. assert (E : exists a', conv_mode mode 0 have_left have_top = Ok (m, a')).
      { unfold prepare_intra_edges in E1. destruct (_ && _) in E1; [|discriminate E1]. cbn [arg_mode arg_angle] in E1.
        destruct (conv_mode mode 0 have_left have_top) as [(m1 & a1)|]; [|discriminate E1]. cbn [obind] in E1. cbv zeta in E1.
        repeat match type of E1 with obind ?o _ = _ => destruct o; [cbn [obind] in E1|discriminate E1] end. injection E1 as -> _ _. eexists; reflexivity. }
      destruct E as (a' & E). destruct (N m a' E) as (_ & _ & K). symmetry. apply K. } split; [exact F1|]. intros i j H1. apply F2. exact H1.
Qed.
(** Chroma from luma: [w_pad] and [h_pad] are the numbers of columns and rows of 4x4 blocks that are after the end of the
    decoded luma samples. *)
Theorem C51_cfl : forall luma ssx ssy w_pad h_pad ypx alpha delta b0 d, (forall r k, pixel bd (luma r k)) -> 0 <= w_pad /\ 4 * w_pad < 2 ^ lw -> 0 <= h_pad /\ 4 * h_pad < 2 ^ lh -> -16 <= alpha <= 16 ->
  let MaxLumaW := (4 * x + 2 ^ lw - 4 * w_pad) * 2 ^ Z.b2z ssx in let MaxLumaH := (4 * y + 2 ^ lh - 4 * h_pad) * 2 ^ Z.b2z ssy in
  (forall r k, 0 <= r -> 0 <= k -> 4 * y * 2 ^ Z.b2z ssy + r < MaxLumaH -> 4 * x * 2 ^ Z.b2z ssx + k < MaxLumaW -> ypx r k = Ok (luma (4 * y * 2 ^ Z.b2z ssy + r) (4 * x * 2 ^ Z.b2z ssx + k))) ->
  exists m a b ac d', prepare 128 DC_PRED delta (2 ^ (lw - 2)) (2 ^ (lh - 2)) en b0 = Ok (m, a, b) /\
    cfl_ac (2 ^ lw) (2 ^ lh) ssx ssy w_pad h_pad ypx = Ok ac /\ cfl_pred bd (2 ^ lw) (2 ^ lh) (erd 128 b) m (rd2 (2 ^ lh) (2 ^ lw) ac) alpha d = Ok d' /\
    (forall i j, 0 <= i < 2 ^ lh -> 0 <= j < 2 ^ lw -> d' i j =
      Some (Spec.cfl bd cur maxX maxY (4 * x) (4 * y) have_left have_top haveAboveRt haveBelowLft lw lh luma ssx ssy MaxLumaW MaxLumaH alpha i j)) /\
    (forall i j, ~ (0 <= i < 2 ^ lh /\ 0 <= j < 2 ^ lw) -> d' i j = d i j).
Proof.
  intros luma ssx ssy w_pad h_pad ypx alpha delta b0 d HP Hw Hh Ha ML MH HY'.
  destruct (cfl_ok bd 128 Hd cur Hcur lw lh Hsz x y tw th maxX maxY have_left have_top tr bl Hx Hy HX HY en dst dst_top Hdst Htop luma ssx ssy w_pad h_pad ypx alpha delta b0 d eq_refl HP Hw Hh Ha HY')
    as (m & a & b & ac & d' & E1 & E2 & E3 & F1 & F2).
  exists m, a, b, ac, d'. split; [exact E1|]. split; [exact E2|]. split; [exact E3|]. split; [exact F1|]. intros i j H. apply F2. exact H.
Qed.
End Block.
Print Assumptions C51_mode.
Print Assumptions C51_filter.
Print Assumptions C51_interintra.
Print Assumptions C51_cfl.

(** Palettes: two indices in a byte *)
Theorem C51_palette : forall bd lw lh pal map idx d, depth bd -> size lw lh -> zlen pal = 8 -> (forall i, 0 <= i < 8 -> pixel bd (Spec.at_ pal i)) ->
  (forall i j, 0 <= i < 2 ^ lh -> 0 <= j < 2 ^ lw -> 0 <= map i j < 8) ->
  (forall i k, 0 <= i < 2 ^ lh -> 0 <= k < 2 ^ lw / 2 -> idx (i * (2 ^ lw / 2) + k) = Ok (map i (2 * k) + 16 * map i (2 * k + 1))) ->
  exists d', pal_pred bd (2 ^ lw) (2 ^ lh) pal idx d = Ok d' /\
    (forall i j, 0 <= i < 2 ^ lh -> 0 <= j < 2 ^ lw -> d' i j = Some (Spec.palette_prediction pal map i j)) /\
    (forall i j, ~ (0 <= i < 2 ^ lh /\ 0 <= j < 2 ^ lw) -> d' i j = d i j).
Proof.
  intros bd lw lh pal map idx d Hd Hs HZ HP HM HI. assert (P0 : forall i : Z, pixel bd 0) by (intros _; unfold pixel; destruct Hd as [->|[->| ->]]; cbn; lia).
  destruct (pal_ok bd lw lh Hd Hs (fun _ => Ok 0) (fun _ => 0) (fun _ => 0) (fun _ _ => eq_refl) (fun _ _ => eq_refl) P0 P0 pal map idx d HZ HP HM HI) as (d' & E & F1 & F2).
  exists d'. split; [exact E|]. split; [exact F1|]. intros i j H. apply F2. exact H.
Qed.
Print Assumptions C51_palette.

(** * Examples: the hypotheses can be met, and the model computes *)
Definition ramp (r c : Z) : Z := (37 * r + 11 * c * c + r * c) mod 256.
Definition ex_dst (i j : Z) : outcome Z := if (j =? -1) && (i <? 8) then Ok (ramp (4 + i) 3) else Undef.
Definition ex_top (j : Z) : outcome Z := if (-1 <=? j) && (j <? 8) then Ok (ramp 3 (4 + j)) else Undef.
Example C51_ex_hyp : depth 8 /\ size 2 3 /\ (forall r k, pixel 8 (ramp r k)) /\
  (forall i, 0 <= i -> i < 2 * 2 ^ 3 -> 4 * 1 + i < 4 * 3 -> ex_dst i (-1) = Ok (ramp (4 * 1 + i) (4 * 1 - 1))) /\
  (forall j, -1 <= j -> j < 2 * 2 ^ 2 -> 4 * 1 + j < 4 * 3 -> ex_top j = Ok (ramp (4 * 1 - 1) (4 * 1 + j))).
Proof.
  split; [left; reflexivity|]. split; [unfold size, side; lia|]. split; [intros r k; unfold pixel, ramp; pose proof (Z.mod_pos_bound (37 * r + 11 * k * k + r * k) 256); lia|]. split.
  - intros i H1 _ H2. unfold ex_dst. destruct (Z.ltb_spec i 8); [reflexivity|lia].
  - intros j H1 _ H2. unfold ex_top. destruct (Z.leb_spec (-1) j), (Z.ltb_spec j 8); try lia. reflexivity.
Qed.
Definition ex_run (sm en : bool) (mode delta i j : Z) : outcome Z :=
  let! (m, a, b) := prepare_intra_edges 8 128 1 true 1 true 3 3 true true ex_dst ex_top mode delta 1 2 en arr0 in
  let! d := intra_pred 8 4 8 (erd 128 b) m (Z.lor (Z.lor a (Z.shiftl (b2z sm) 9)) (Z.shiftl (b2z en) 10)) 8 8 plane0 in
  rd2 8 4 d i j.
Definition ex_spec (sm en : bool) (f : option Z) (mode delta i j : Z) : Z :=
  Spec.intra_prediction 8 ramp 11 11 4 4 true true ((1 + 1 <? 3) && true) ((1 + 2 <? 3) && true) 2 3 en sm f mode delta i j.
(** Zones one, two and three, with and without the filters; they differ from the plain modes. *)
Example C51_ex_dir : ex_run false true 8 2 3 2 = Ok (ex_spec false true None 8 2 3 2) /\ ex_run true true 4 (-1) 6 1 = Ok (ex_spec true true None 4 (-1) 6 1) /\
  ex_run false false 7 1 5 3 = Ok (ex_spec false false None 7 1 5 3) /\ ex_run true true FILTER_PRED 3 7 3 = Ok (ex_spec true true (Some 3) 0 0 7 3) /\
  ex_spec false true None 8 2 3 2 <> ex_spec false false None 8 2 3 2.
Proof. vm_compute. repeat (split; [reflexivity|]). discriminate. Qed.

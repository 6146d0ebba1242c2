(** C39: the work buffers kept from frame to frame fit the frame they are used for. *)
From Coq Require Import ZArith List Bool Lia.
From Verif Require Import Base.CInt Base.Lemmas Tile.Bufs Tile.BufsProofs Tile.SharesProofs.
Import ListNotations.
Open Scope Z_scope.
Open Scope outcome_scope.

(** [kept b]: the buffers of a frame context after any number of frames, of any
    sizes and layouts, where any allocation can fail except that of f->ts; strides
    are positive unless there is only one thread (see the refuted statements). *)
Section C39.
Variables n_fc n_tc : Z.
Definition usual (f : frame) (fail : Z -> bool) : Prop :=
  (exists sbw, frame_ok f sbw) /\ fail 2 = false /\
  ((0 <= fst (fr_sr_stride f) /\ 0 <= snd (fr_sr_stride f)) \/ n_tc <= 1).
Inductive kept : bufs -> Prop :=
| kept_new : kept bufs0
| kept_next : forall b f fail ok b', kept b -> usual f fail -> frame_init n_fc n_tc f fail b = Ok (ok, b') -> kept b'.

Lemma kept_inv : forall b, kept b -> inv n_fc n_tc b.
Proof.
  induction 1 as [|b f fail ok b' K I ((sbw & OK) & F & L) H]; [apply inv0|].
  destruct (frame_init_ok n_fc n_tc f sbw fail OK b F L I) as (ok' & b2 & H' & I' & _). rewrite H in H'. injection H' as -> ->. exact I'.
Qed.

(** Preparing the next frame never touches memory that is not there, and it fails
    only if an allocation does. *)
Theorem C39_defined : forall b f fail, kept b -> usual f fail ->
  exists ok b', frame_init n_fc n_tc f fail b = Ok (ok, b') /\ ((forall i, fail i = false) -> ok = true).
Proof.
  intros b f fail K ((sbw & OK) & F & L).
  destruct (frame_init_ok n_fc n_tc f sbw fail OK b F L (kept_inv b K)) as (ok & b' & H & _ & _ & A). eauto.
Qed.

(** [ready]: when it succeeds every buffer has exactly the size that the frame
    needs, and the list of tile row starts is that of the frame. *)
Theorem C39_ready : forall b f fail b', kept b -> usual f fail -> frame_init n_fc n_tc f fail b = Ok (true, b') -> ready n_fc n_tc f b'.
Proof.
  intros b f fail b' K ((sbw & OK) & F & L) H.
  destruct (frame_init_ok n_fc n_tc f sbw fail OK b F L (kept_inv b K)) as (ok & b2 & H' & _ & R & _). rewrite H in H'. injection H' as <- <-. auto.
Qed.

(** The lines that cdef keeps: with [tf] (0 or 1), two lines [k] of each plane for
    every superblock row. All are inside the buffer, and no two of them overlap. *)
Definition cdef_line_at (f : frame) (b : bufs) (tf p sby k : Z) : Z :=
  let c := cl_line (b_cdef b) in
  if p =? 0 then at_ c tf + (4 * sby + k) * fst (fr_stride f) else at_ c (2 * tf + p + 1) + (8 * sby + k) * snd (fr_stride f).
Definition stride_of (s : Z * Z) (p : Z) : Z := Z.abs (if p =? 0 then fst s else snd s).
Definition cdef_idx (f : frame) (tf p sby k : Z) : Prop := 0 <= tf <= 1 /\ 0 <= p <= 2 /\ 0 <= sby < fr_sbh f /\ 0 <= k <= 1.

Lemma cdef_slot : forall f b tf p sby k, cdef_idx f tf p sby k ->
  cdef_is (b_cdef b) (fst (fr_stride f)) (snd (fr_stride f)) (fr_sbh f) ((1 <? n_tc) && fr_resize f) ->
  cdef_line_at f b tf p sby k =
    if p =? 0 then slot 32 (fst (fr_stride f)) (fr_sbh f * 4) (4 * sby + 2 * tf + k)
    else slot (32 + Z.abs (fst (fr_stride f)) * (fr_sbh f * 4)) (snd (fr_stride f)) (fr_sbh f * 8) (8 * sby + 4 * tf + 2 * (p - 1) + k).
Proof.
  intros f b tf p sby k (T & P & S & K) (_ & L & _). unfold cdef_line_at. rewrite L. destruct (fr_stride f) as [y uv]. cbn [fst snd].
  unfold cdef_line_pos. rewrite (slot_line _ y), (slot_line _ uv). unfold slot.
  assert (TT : tf = 0 \/ tf = 1) by lia. assert (PP : p = 0 \/ p = 1 \/ p = 2) by lia.
  set (n := fr_sbh f).
  destruct (Z.ltb_spec y 0) as [Y|Y]; [rewrite (Z.abs_neq y) by lia|rewrite (Z.abs_eq y) by lia];
  (destruct (Z.ltb_spec uv 0) as [U|U]; [rewrite (Z.abs_neq uv) by lia|rewrite (Z.abs_eq uv) by lia]);
  destruct TT as [-> | ->]; destruct PP as [-> |[-> | ->]]; cbn [Z.eqb app];
    match goal with |- at_ ?l ?i + _ = _ => let v := eval vm_compute in (Z.to_nat i) in unfold at_; change (Z.to_nat i) with v end; cbn [nth]; ring.
Qed.

Theorem C39_cdef_lines : forall f b tf p sby k, ready n_fc n_tc f b -> cdef_idx f tf p sby k ->
  let a := cdef_line_at f b tf p sby k in
  (exists n, cl_buf (b_cdef b) = Some n /\ 0 <= a /\ a + stride_of (fr_stride f) p <= n) /\
  forall tf' p' sby' k', cdef_idx f tf' p' sby' k' -> (tf, p, sby, k) <> (tf', p', sby', k') ->
  let a' := cdef_line_at f b tf' p' sby' k' in
  a + stride_of (fr_stride f) p <= a' \/ a' + stride_of (fr_stride f) p' <= a.
Proof.
  intros f b tf p sby k R I. pose proof (r_cdef _ _ _ _ R) as C. cbv zeta. rewrite (cdef_slot f b tf p sby k I C).
  pose proof I as (T & P & S & K). unfold stride_of. set (y := fst (fr_stride f)) in *. set (uv := snd (fr_stride f)) in *. set (n := fr_sbh f) in *.
  assert (G : forall tf p sby k, cdef_idx f tf p sby k ->
    let a := (if p =? 0 then slot 32 y (n * 4) (4 * sby + 2 * tf + k) else slot (32 + Z.abs y * (n * 4)) uv (n * 8) (8 * sby + 4 * tf + 2 * (p - 1) + k)) in
    if p =? 0 then 32 <= a /\ a + Z.abs y <= 32 + Z.abs y * (n * 4)
    else 32 + Z.abs y * (n * 4) <= a /\ a + Z.abs uv <= 32 + Z.abs y * (n * 4) + Z.abs uv * (n * 8)).
  { clear. intros tf p sby k (T & P & S & K). fold n in S. cbv zeta. destruct (Z.eqb_spec p 0).
    - pose proof (slot_inside 32 y (n * 4) (4 * sby + 2 * tf + k) ltac:(lia)). lia.
    - pose proof (slot_inside (32 + Z.abs y * (n * 4)) uv (n * 8) (8 * sby + 4 * tf + 2 * (p - 1) + k) ltac:(lia)). lia. }
  split.
  - destruct C as (-> & _). eexists. split; [reflexivity|]. fold y uv n. specialize (G tf p sby k I). cbv zeta in G. unfold cdef_size, shl1.
    assert (0 <= Z.abs y * (n * 4)) by nia. assert (0 <= Z.abs uv * (n * 8)) by nia.
    destruct (Z.eqb_spec p 0); destruct ((1 <? n_tc) && fr_resize f); lia.
  - intros tf' p' sby' k' I' N. rewrite (cdef_slot f b tf' p' sby' k' I' C). fold y uv n.
    pose proof (G tf p sby k I) as G1. pose proof (G tf' p' sby' k' I') as G2. cbv zeta in G1, G2.
    pose proof I' as (T' & P' & S' & K'). fold n in S, S'.
    destruct (Z.eqb_spec p 0) as [E|E], (Z.eqb_spec p' 0) as [E'|E'].
    + apply slot_disjoint; try lia. intros Q. apply N. subst p p'. f_equal; [f_equal; [f_equal|]|]; lia.
    + left. lia.
    + right. lia.
    + apply slot_disjoint; try lia. intros Q. apply N. f_equal; [f_equal; [f_equal|]|]; lia.
Qed.

(** The lines that loop restoration keeps: [num_lines] of each plane. *)
Definition lr_line_at (f : frame) (b : bufs) (p i : Z) : Z :=
  at_ (ll_line (b_lr b)) p + i * (if p =? 0 then fst (fr_sr_stride f) else snd (fr_sr_stride f)).
Definition lr_idx (f : frame) (p i : Z) : Prop := 0 <= p <= 2 /\ 0 <= i < num_lines n_tc f.
Lemma lr_slot : forall f b p i, lr_idx f p i -> lr_is (b_lr b) (fst (fr_sr_stride f)) (snd (fr_sr_stride f)) (num_lines n_tc f) ->
  lr_line_at f b p i =
    let y := fst (fr_sr_stride f) in let uv := snd (fr_sr_stride f) in let n := num_lines n_tc f in
    if p =? 0 then slot 64 y n i else slot (64 + Z.abs y * n + (p - 1) * (n * Z.abs uv)) uv n i.
Proof.
  intros f b p i (P & I) (_ & L). unfold lr_line_at. rewrite L. destruct (fr_sr_stride f) as [y uv]. cbn [fst snd]. cbv zeta.
  set (n := num_lines n_tc f). unfold lr_line_pos. rewrite (slot_line _ y), (slot_line _ uv). unfold slot.
  assert (PP : p = 0 \/ p = 1 \/ p = 2) by lia.
  destruct (Z.ltb_spec y 0) as [Y|Y]; [rewrite (Z.abs_neq y) by lia|rewrite (Z.abs_eq y) by lia];
  (destruct (Z.ltb_spec uv 0) as [U|U]; [rewrite (Z.abs_neq uv) by lia|rewrite (Z.abs_eq uv) by lia]);
  destruct PP as [-> |[-> | ->]]; cbn [Z.eqb];
    match goal with |- at_ ?l ?i + _ = _ => let v := eval vm_compute in (Z.to_nat i) in unfold at_; change (Z.to_nat i) with v end; cbn [nth]; ring.
Qed.

Theorem C39_lr_lines : forall f b p i, ready n_fc n_tc f b -> lr_idx f p i ->
  let a := lr_line_at f b p i in
  (exists n, ll_buf (b_lr b) = Some n /\ 0 <= a /\ a + stride_of (fr_sr_stride f) p <= n) /\
  forall p' i', lr_idx f p' i' -> (p, i) <> (p', i') ->
  let a' := lr_line_at f b p' i' in
  a + stride_of (fr_sr_stride f) p <= a' \/ a' + stride_of (fr_sr_stride f) p' <= a.
Proof.
  intros f b p i R I. pose proof (r_lr _ _ _ _ R) as C. cbv zeta. rewrite (lr_slot f b p i I C). cbv zeta.
  pose proof I as (P & J). unfold stride_of. set (y := fst (fr_sr_stride f)) in *. set (uv := snd (fr_sr_stride f)) in *. set (n := num_lines n_tc f) in *.
  assert (G : forall p i, lr_idx f p i ->
    let a := (if p =? 0 then slot 64 y n i else slot (64 + Z.abs y * n + (p - 1) * (n * Z.abs uv)) uv n i) in
    let base := if p =? 0 then 64 else 64 + Z.abs y * n + (p - 1) * (n * Z.abs uv) in
    let s := if p =? 0 then Z.abs y else Z.abs uv in base <= a /\ a + s <= base + n * s).
  { clear. intros p i (P & J). fold n in J. cbv zeta. destruct (Z.eqb_spec p 0).
    - apply (slot_inside 64 y n i ltac:(lia)).
    - apply (slot_inside _ uv n i ltac:(lia)). }
  assert (A1 : 0 <= n * Z.abs y) by nia. assert (A2 : 0 <= n * Z.abs uv) by nia.
  split.
  - destruct C as (-> & _). eexists. split; [reflexivity|]. fold y uv n. specialize (G p i I). cbv zeta in G. unfold lr_size.
    assert (PP : p = 0 \/ p = 1 \/ p = 2) by lia. destruct PP as [-> |[-> | ->]]; cbn [Z.eqb] in *; lia.
  - intros p' i' I' N. rewrite (lr_slot f b p' i' I' C). cbv zeta. fold y uv n.
    pose proof (G p i I) as G1. pose proof (G p' i' I') as G2. cbv zeta in G1, G2. pose proof I' as (P' & J'). fold n in J'.
    assert (PP : p = 0 \/ p = 1 \/ p = 2) by lia. assert (PP' : p' = 0 \/ p' = 1 \/ p' = 2) by lia.
    destruct PP as [-> |[-> | ->]]; destruct PP' as [-> |[-> | ->]]; cbn [Z.eqb] in *;
      try (left; lia); try (right; lia); apply slot_disjoint; try lia; intros ->; apply N; reflexivity.
Qed.
End C39.

(** If the allocation of f->ts fails, the old number of tiles is kept: a later frame
    with that number of tiles uses a null pointer. Frames of one, two and again one
    tile; the allocation for the second fails. *)
Definition never (i : Z) : bool := false.
Definition small (rows : Z) (row_start : list Z) : frame :=
  mkFrame rows 1 row_start [0; 1] 2 16 1 1 1 0 0 false (64, 64) (64, 64) false 64.
Fixpoint inits (n_fc n_tc : Z) (l : list (frame * (Z -> bool))) (b : bufs) : outcome (list bool * bufs) :=
  match l with
  | [] => Ok ([], b)
  | (f, fail) :: l =>
    let! r := frame_init n_fc n_tc f fail b in let (ok, b) := r in
    let! x := inits n_fc n_tc l b in let (oks, b) := x in Ok (ok :: oks, b)
  end.
Lemma small_ok : forall rows rs, (rows, rs) = (1, [0; 2]) \/ (rows, rs) = (2, [0; 1; 2]) -> frame_ok (small rows rs) 1.
Proof.
  intros rows rs [E|E]; injection E as -> ->; constructor; try (cbn; lia); try (vm_compute; intuition discriminate); try (vm_compute; reflexivity);
  (split; [reflexivity|]; split; [reflexivity|]; split; [reflexivity|]; cbn [small fr_rows fr_cols]; intros i I; assert (i = 0 \/ i = 1) as [->| ->] by lia; try lia; vm_compute; reflexivity).
Qed.
Theorem C39_tile_states_refuted : exists f1 f2 fail, frame_ok f1 1 /\ frame_ok f2 1 /\
  (exists b, inits 2 2 [(f1, never); (f2, fail)] bufs0 = Ok ([true; false], b)) /\
  inits 2 2 [(f1, never); (f2, fail); (f1, never)] bufs0 = Undef /\
  (* with one frame context: the preparation succeeds without any tile state *)
  (exists b, inits 1 1 [(f1, never); (f2, fail); (f1, never)] bufs0 = Ok ([true; false; true], b) /\ c_buf (b_ts b) = None).
Proof.
  exists (small 1 [0; 2]), (small 2 [0; 1; 2]), (fun i => i =? 2).
  split; [apply small_ok; auto|]. split; [apply small_ok; auto|].
  split; [eexists; vm_compute; reflexivity|]. split; [vm_compute; reflexivity|]. eexists. split; vm_compute; reflexivity.
Qed.

(** With negative strides and threads, the line buffer of loop restoration is kept
    when height and stride change places: its last line is then outside. A picture of
    256 by 256, then one of 512 by 128 pixels. *)
Definition res (r : outcome (bool * bufs)) : bufs := match r with Ok (_, b) => b | Undef => bufs0 end.
Definition neg (w sbh : Z) (rs cs : list Z) : frame :=
  mkFrame 1 1 rs cs sbh 16 (w / 128) (sbh / 2) 1 0 0 false (- w, - (w / 2)) (- w, - (w / 2)) false w.
Theorem C39_negative_stride_refuted : exists f1 f2 sbw1 sbw2 b b', frame_ok f1 sbw1 /\ frame_ok f2 sbw2 /\
  frame_init 1 2 f1 never bufs0 = Ok (true, b) /\ frame_init 1 2 f2 never b = Ok (true, b') /\
  lr_idx 2 f2 2 0 /\ exists n, ll_buf (b_lr b') = Some n /\ n < lr_line_at f2 b' 2 0 + stride_of (fr_sr_stride f2) 2.
Proof.
  exists (neg 256 4 [0; 4] [0; 4]), (neg 512 2 [0; 2] [0; 8]), 4, 8.
  exists (res (frame_init 1 2 (neg 256 4 [0; 4] [0; 4]) never bufs0)),
         (res (frame_init 1 2 (neg 512 2 [0; 2] [0; 8]) never (res (frame_init 1 2 (neg 256 4 [0; 4] [0; 4]) never bufs0)))).
  assert (G : forall w sbh s, (w, sbh, s) = (256, 4, 4) \/ (w, sbh, s) = (512, 2, 8) -> frame_ok (neg w sbh [0; sbh] [0; s]) s).
  { intros w sbh s [E|E]; injection E as -> -> ->; constructor; try (cbn; lia); try (vm_compute; intuition discriminate); try (vm_compute; reflexivity);
    (split; [reflexivity|]; split; [reflexivity|]; split; [reflexivity|]; cbn [neg fr_rows fr_cols]; intros i I; assert (i = 0) as -> by lia; vm_compute; reflexivity). }
  split; [apply G; auto|]. split; [apply G; auto|].
  split; [vm_compute; reflexivity|]. split; [vm_compute; reflexivity|]. split; [vm_compute; intuition discriminate|].
  eexists. split; [vm_compute; reflexivity|]. vm_compute. reflexivity.
Qed.

(** A frame, a larger one whose coefficient buffer cannot be allocated, and another
    try. *)
Example C39_example : exists b, kept 2 2 b /\
  inits 2 2 [(small 1 [0; 2], never); (small 2 [0; 1; 2], fun i => i =? 1); (small 2 [0; 1; 2], never)] bufs0 = Ok ([true; false; true], b) /\
  c_buf (b_ts b) = Some 2 /\ b_sotr_val b = [0; 1].
Proof.
  assert (U : forall rows rs fail, (rows, rs) = (1, [0; 2]) \/ (rows, rs) = (2, [0; 1; 2]) -> fail 2 = false -> usual 2 (small rows rs) fail).
  { intros rows rs fail E F. split; [exists 1; apply small_ok, E|]. split; [exact F|]. left. cbn. lia. }
  set (f1 := small 1 [0; 2]). set (f2 := small 2 [0; 1; 2]). set (x := fun i : Z => i =? 1).
  exists (res (frame_init 2 2 f2 never (res (frame_init 2 2 f2 x (res (frame_init 2 2 f1 never bufs0)))))).
  split; [|split; [vm_compute; reflexivity|split; vm_compute; reflexivity]].
  apply (kept_next 2 2 (res (frame_init 2 2 f2 x (res (frame_init 2 2 f1 never bufs0)))) f2 never true); [|apply U; auto|vm_compute; reflexivity].
  apply (kept_next 2 2 (res (frame_init 2 2 f1 never bufs0)) f2 x false); [|apply U; auto|vm_compute; reflexivity].
  apply (kept_next 2 2 bufs0 f1 never true); [apply kept_new|apply U; auto|vm_compute; reflexivity].
Qed.

Print Assumptions C39_defined.
Print Assumptions C39_ready.
Print Assumptions C39_cdef_lines.
Print Assumptions C39_lr_lines.
Print Assumptions C39_tile_states_refuted.
Print Assumptions C39_negative_stride_refuted.

(** C45: the constrained directional enhancement filter does what the AV1 specification
    says (7.15), with one thread and with several. *)
From Coq Require Import ZArith List Bool Lia.
From Verif Require Import Base.CInt Base.Loop Cdef.Model Cdef.Pixel Cdef.Block Cdef.Dir Cdef.Row Cdef.Frame.
From Verif Require Cdef.Spec.
Import ListNotations.
Open Scope Z_scope.

(** The direction and the variance of an 8x8 block. *)
Theorem C45_direction : forall v Cur r c img, S.BitDepth v = 8 \/ S.BitDepth v = 10 \/ S.BitDepth v = 12 ->
  (forall y x, 0 <= y < 8 -> 0 <= x < 8 -> img y x = Ok (Cur 0 (r * 4 + y) (c * 4 + x)) /\ 0 <= Cur 0 (r * 4 + y) (c * 4 + x) < 2 ^ S.BitDepth v) ->
  find_dir (S.BitDepth v) img = Ok (S.direction v Cur r c) /\ 0 <= fst (S.direction v Cur r c) < 8.
Proof. intros v Cur r c img HB HI. destruct (find_dir_ok v Cur r c img HB HI) as (A & B & _). split; assumption. Qed.

(** A superblock row.  The pass needs the deblocked pixels (of [Cur]) in the rows it
    filters and, below and above them, either in the frame and the lines saved by the pass
    before, or, with several threads, in the lines saved after deblocking.  Then it does
    nothing undefined (no pixel outside a plane, no unset value), leaves the filtered
    frame of the specification in its rows, and changes no other rows and no other lines. *)
Theorem C45_superblock_row : forall v Cur c ms sby st, setup v c Cur -> sbrows v c ms -> 0 <= sby < c_sbh c -> pass_pre v Cur c sby st ->
  exists st', filter_sbrow_cdef c ms sby st = Ok st' /\
    rows_are v c (S.CdefFrame v Cur) (s_fr st') (first_row c sby) (end_row v c sby) /\
    only_rows c (s_fr st) (s_fr st') (first_row c sby) (end_row v c sby) /\ only_lines c st st' sby.
Proof.
  intros v Cur c ms sby st SU SB Hs HP. destruct (sbrow_ok v Cur c SU ms SB sby st Hs HP) as (st' & A & B & C & D & _). exists st'. auto.
Qed.

(** One thread: superblock row after superblock row is deblocked (which changes only
    rows that are not filtered yet, and completes the rows filtered next and two more)
    and filtered.  At the end the whole frame is the one of the specification, and no
    pass can be undefined. *)
Theorem C45_frame : forall v Cur c ms st0 st, setup v c Cur -> sbrows v c ms -> c_have_tt c = false ->
  passes v Cur c ms st0 (c_sbh c) st -> rows_are v c (S.CdefFrame v Cur) (s_fr st) 0 (KY v).
Proof. intros v Cur c ms st0 st SU SB TT H. exact (frame_ok v Cur c SU ms SB st0 st TT H). Qed.
Theorem C45_frame_defined : forall v Cur c ms st0 sby st fr, setup v c Cur -> sbrows v c ms -> c_have_tt c = false ->
  passes v Cur c ms st0 sby st -> sby < c_sbh c ->
  only_rows c (s_fr st) fr (first_row c sby) (KY v) -> rows_are v c Cur fr (first_row c sby) (end_row v c sby) ->
  (end_row v c sby < KY v -> two_below v Cur c fr (end_row v c sby)) ->
  exists st', filter_sbrow_cdef c ms sby (mkState fr (s_line st) (s_tf st)) = Ok st'.
Proof. intros v Cur c ms st0 sby st fr SU SB TT. exact (frame_defined v Cur c SU ms SB st0 sby st fr TT). Qed.

(** Several threads: superblock rows are filtered in any order, each by a thread with any
    toggle and any content of the saved lines, as soon as their rows are deblocked and the
    lines around them saved. *)
Theorem C45_threads : forall v Cur c ms st0 done st, setup v c Cur -> sbrows v c ms -> c_have_tt c = true -> lpf_saved v Cur c ->
  tasks v Cur c ms st0 done st -> (forall s, 0 <= s < c_sbh c -> In s done) -> rows_are v c (S.CdefFrame v Cur) (s_fr st) 0 (KY v).
Proof. intros v Cur c ms st0 done st SU SB TT HS. exact (threads_ok v Cur c SU ms SB st0 done st TT HS). Qed.

(** The assumptions are satisfiable: a 16x16 frame in 4:2:0 with four blocks, one of them
    skipped; a pixel of it changes. *)
Definition ex_v : S.frame :=
  S.mkFrame 8 1 1 3 4 4 3 (fun _ => 10) (fun _ => 2) (fun _ => 3) (fun _ => 1) (fun _ _ => 0) (fun r c => (r <? 2) && (c <? 2)).
Definition ex_cur : S.picture := fun pl y x => (3 * y + 5 * x + 40 * pl + 6 * (if (y =? 12) && (x =? 11) then 1 else 0)) mod 256.
Definition ex_c : config :=
  mkConfig 8 1 1 false 4 4 2 1 16 0 3 (repeat 42 8) (repeat 13 8) false false (fun _ => 16) (fun _ => 16) (fun _ => plane0) (fun _ => plane0) 0 0.
Definition ex_m : masks := mkMasks (fun _ _ => 0) (fun _ r k => if k =? 0 then (if r =? 0 then 12 else 15) else 0).
Definition ex_st : state := mkState (fun pl y x => Some (ex_cur pl y x)) (fun _ _ => plane0) false.
Lemma ex_rd : forall (n i : Z), 0 <= i < 8 -> rd_at (repeat n 8) i = Ok n.
Proof. intros n i H. destruct (cases_dir i H) as [->|[->|[->|[->|[->|[->|[->| ->]]]]]]]; reflexivity. Qed.
Example C45_setup : setup ex_v ex_c ex_cur.
Proof.
  constructor; try reflexivity; try (vm_compute; repeat split; congruence).
  - left. reflexivity.
  - split; [right; reflexivity|]. split; [right; reflexivity|discriminate].
  - intros i Hi. exists 42. split; [apply (ex_rd 42 i Hi)|]. split; [cbn; lia|]. split; [right; right; left; reflexivity|reflexivity].
  - intros i Hi. exists 13. split; [apply (ex_rd 13 i Hi)|]. split; [cbn; lia|]. split; [right; left; reflexivity|reflexivity].
  - intros pl [->|(_ & [->| ->])]; vm_compute; split; congruence.
  - intros pl y x _ _ _. apply Z.mod_pos_bound. reflexivity.
Qed.
Example C45_sbrows : sbrows ex_v ex_c (fun _ => ex_m).
Proof.
  constructor.
  - split; [left; reflexivity|reflexivity].
  - reflexivity.
  - intros kr Hk. change (KY ex_v) with 2 in Hk. constructor.
    + intros sbx Hs. split; [cbn; lia|reflexivity].
    + intros i k _. unfold ex_m, m_noskip. destruct (k =? 0); [destruct (_ =? 0)|]; vm_compute; split; congruence.
    + intros bx Hb. change (S.MiCols ex_v) with 4 in Hb.
      assert (D : (kr = 0 \/ kr = 1) /\ (bx = 0 \/ bx = 1 \/ bx = 2 \/ bx = 3)) by lia.
      destruct D as ([->| ->] & [->|[->|[->| ->]]]); reflexivity.
Qed.
Example C45_frame_exists : exists st, passes ex_v ex_cur ex_c (fun _ => ex_m) ex_st (c_sbh ex_c) st.
Proof.
  assert (P1 : only_rows ex_c (s_fr ex_st) (s_fr ex_st) (first_row ex_c 0) (KY ex_v)) by (intros pl Y X _ _; reflexivity).
  assert (P2 : rows_are ex_v ex_c ex_cur (s_fr ex_st) (first_row ex_c 0) (end_row ex_v ex_c 0)) by (intros pl Y X _ _ _; reflexivity).
  assert (P3 : end_row ex_v ex_c 0 < KY ex_v -> two_below ex_v ex_cur ex_c (s_fr ex_st) (end_row ex_v ex_c 0)) by (intros _ pl y X _ _ _; reflexivity).
  destruct (C45_frame_defined ex_v ex_cur ex_c (fun _ => ex_m) ex_st 0 ex_st (s_fr ex_st) C45_setup C45_sbrows eq_refl (passes_start _ _ _ _ _) eq_refl P1 P2 P3) as (st & E).
  exists st. change (c_sbh ex_c) with (0 + 1). exact (passes_next ex_v ex_cur ex_c (fun _ => ex_m) ex_st 0 ex_st (s_fr ex_st) st (passes_start _ _ _ _ _) eq_refl P1 P2 P3 E).
Qed.
Example C45_changes : S.CdefFrame ex_v ex_cur 0 12 11 <> ex_cur 0 12 11.
Proof. vm_compute. congruence. Qed.
Example C45_thread_config : exists c, c_have_tt c = true /\ setup ex_v c ex_cur /\ sbrows ex_v c (fun _ => ex_m) /\ lpf_saved ex_v ex_cur c.
Proof.
  exists (mkConfig 8 1 1 false 4 4 2 1 16 0 3 (repeat 42 8) (repeat 13 8) true false (fun _ => 16) (fun _ => 16) (fun _ => plane0) (fun _ => plane0) 0 0).
  split; [reflexivity|]. split; [|split].
  - destruct C45_setup. constructor; assumption.
  - destruct C45_sbrows as [A B C]. constructor; [exact A|exact B|]. intros kr Hk. destruct (C kr Hk). constructor; assumption.
  - intros sby Hs. cbn [c_sbh] in Hs. assert (sby = 0) as -> by lia. split; [intros H; vm_compute in H; discriminate|lia].
Qed.

Print Assumptions C45_direction.
Print Assumptions C45_superblock_row.
Print Assumptions C45_frame.
Print Assumptions C45_frame_defined.
Print Assumptions C45_threads.

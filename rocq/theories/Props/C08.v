(** C08: the tile grid of an accepted frame is a partition.

    [reachable refs] says that the reference slots were filled by headers
    accepted earlier; [at_pos buf pos c] that the reader is at bit [pos] of
    [buf].  [Ok] means that no undefined operation was performed, in particular
    no array was overrun. *)
From Coq Require Import ZArith List Bool Lia.
From Verif Require Import Base.CInt GetBits.Model GetBits.Spec GetBits.SpecProg GetBits.AtPos Obu.SeqModel
  Obu.SeqRel Obu.FrameModel Obu.FrameRel Obu.FrameRefs Obu.FrameHist Obu.FrameExamples.
Import ListNotations.
Open Scope Z_scope.

Theorem C08_no_overrun : forall sh ss refs strict tid sid buf pos c,
  seq_rel sh ss -> seq_wf sh -> reachable refs -> 0 <= tid -> 0 <= sid ->
  at_pos buf pos c -> pos + 15200 <= 8 * zlen buf + 2 ^ 31 ->
  exists r c', exec (parse_frame_hdr sh refs strict tid sid) c = Ok (r, c').
Proof.
  intros sh ss refs strict tid sid buf pos c R W (srefs & H) T I A B.
  destruct (frame_hdr_exec sh ss refs srefs strict tid sid buf pos c R W (history_slots _ _ H) T I A B) as (r & c' & p & E & _).
  eauto.
Qed.

(** Starts [0 = s_0 < s_1 < ... < s_n = size in superblocks]. *)
Theorem C08_partition : forall sh ss refs strict tid sid buf pos c h c',
  seq_rel sh ss -> seq_wf sh -> reachable refs -> 0 <= tid -> 0 <= sid ->
  at_pos buf pos c -> pos + 15200 <= 8 * zlen buf + 2 ^ 31 ->
  exec (parse_frame_hdr sh refs strict tid sid) c = Ok (inl h, c') -> show_existing_frame h = 0 ->
  let t := f_tiling h in
  let sb := if sb128 sh =? 1 then 128 else 64 in
  let w := width0 (fsz (f_refs h)) in
  let ht := fheight (fsz (f_refs h)) in
  (forall i j, (i < j < length (t_col_start_sb t))%nat -> nth i (t_col_start_sb t) 0 < nth j (t_col_start_sb t) 0) /\
  (forall i j, (i < j < length (t_row_start_sb t))%nat -> nth i (t_row_start_sb t) 0 < nth j (t_row_start_sb t) 0) /\
  zlen (t_col_start_sb t) = t_cols t + 1 /\ zlen (t_row_start_sb t) = t_rows t + 1 /\
  1 <= t_cols t <= 64 /\ 1 <= t_rows t <= 64 /\
  nth 0 (t_col_start_sb t) 0 = 0 /\ nth (Z.to_nat (t_cols t)) (t_col_start_sb t) 0 = (w + sb - 1) / sb /\
  nth 0 (t_row_start_sb t) 0 = 0 /\ nth (Z.to_nat (t_rows t)) (t_row_start_sb t) 0 = (ht + sb - 1) / sb /\
  0 <= t_update t < t_cols t * t_rows t.
Proof.
  intros sh ss refs strict tid sid buf pos c h c' R W (srefs & H) T I A B E NE.
  destruct (accepted sh ss refs srefs strict tid sid buf pos c h c' R W H T I A B E NE) as (_ & _ & _ & _ & CW).
  cbv zeta. apply tiling_explicit; [|apply CW].
  clear - W. unfold seq_wf in W. decompose [and] W. assumption || lia.
Qed.

Example C08_met : exists sh ss refs c h c', seq_rel sh ss /\ seq_wf sh /\ reachable refs /\
  at_pos inter_bytes 0 c /\ exec (parse_frame_hdr sh refs true 0 0) c = Ok (inl h, c') /\ show_existing_frame h = 0.
Proof. destruct ex_reachable as (sh & ss & refs & c & h & c' & X). exists sh, ss, refs, c, h, c'. intuition. Qed.

Print Assumptions C08_no_overrun.
Print Assumptions C08_partition.

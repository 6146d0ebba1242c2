(** C11: film grain parameters of an accepted frame are well formed. *)
From Coq Require Import ZArith List Bool Lia.
From Verif Require Import Base.CInt GetBits.Model GetBits.Spec GetBits.SpecProg GetBits.AtPos Obu.SeqModel
  Obu.SeqRel Obu.FrameModel Obu.FrameRel Obu.FrameRefs Obu.FrameHist Obu.FrameExamples.
Import ListNotations.
Open Scope Z_scope.

(** [fg_zero d]: nothing but possibly the seed is set (no grain). *)
Theorem C11_ranges : forall sh ss refs strict tid sid buf pos c h c',
  seq_rel sh ss -> seq_wf sh -> reachable refs -> 0 <= tid -> 0 <= sid ->
  at_pos buf pos c -> pos + 15200 <= 8 * zlen buf + 2 ^ 31 ->
  exec (parse_frame_hdr sh refs strict tid sid) c = Ok (inl h, c') -> show_existing_frame h = 0 ->
  let d := f_fg h in
  let pts l n := (length l <= n)%nat /\ Forall (fun x => 0 <= fst x <= 255 /\ 0 <= snd x <= 255) l /\
                 forall i j, (i < j < length l)%nat -> fst (nth i l (0, 0)) < fst (nth j l (0, 0)) in
  let coeffs l n := length l = n /\ Forall (fun v => -128 <= v <= 127) l in
  let mult m := let '(a, b, o) := m in -128 <= a <= 127 /\ -128 <= b <= 127 /\ -256 <= o <= 255 in
  0 <= fg_seed d < 65536 /\ pts (fg_y_points d) 14%nat /\ pts (fg_u_points d) 10%nat /\ pts (fg_v_points d) 10%nat /\
  0 <= fg_ar_coeff_lag d <= 3 /\ coeffs (fg_ar_coeffs_y d) 24%nat /\ coeffs (fg_ar_coeffs_u d) 28%nat /\
  coeffs (fg_ar_coeffs_v d) 28%nat /\ (fg_zero d \/ 8 <= fg_scaling_shift d <= 11) /\
  (fg_zero d \/ 6 <= fg_ar_coeff_shift d <= 9) /\ 0 <= fg_grain_scale_shift d <= 3 /\
  mult (fg_u_mult d) /\ mult (fg_v_mult d).
Proof.
  intros sh ss refs strict tid sid buf pos c h c' R W (srefs & H) T I A B E NE.
  destruct (accepted sh ss refs srefs strict tid sid buf pos c h c' R W H T I A B E NE) as (_ & _ & _ & _ & CW).
  cbv zeta. apply fg_explicit. apply CW.
Qed.

(** Inherited parameters are those of a frame in one of the seven references,
    apart from the seed. *)
Theorem C11_inherited : forall sh ss refs strict tid sid buf pos c h c',
  seq_rel sh ss -> seq_wf sh -> reachable refs -> 0 <= tid -> 0 <= sid ->
  at_pos buf pos c -> pos + 15200 <= 8 * zlen buf + 2 ^ 31 ->
  exec (parse_frame_hdr sh refs strict tid sid) c = Ok (inl h, c') -> show_existing_frame h = 0 ->
  fg_present h = 1 -> fg_update h = 0 ->
  exists i h0, In i (refidx (f_refs h)) /\ 0 <= i <= 7 /\ nth (Z.to_nat i) refs None = Some h0 /\
    f_fg h = with_seed (f_fg h0) (fg_seed (f_fg h)).
Proof.
  intros sh ss refs strict tid sid buf pos c h c' R W (srefs & H) T I A B E NE FP FU.
  exact (accepted_inherit sh ss refs srefs strict tid sid buf pos c h c' R W H T I A B E NE FP FU).
Qed.

Example C11_met : exists sh ss refs c h c', seq_rel sh ss /\ seq_wf sh /\ reachable refs /\
  at_pos inter_bytes 0 c /\ exec (parse_frame_hdr sh refs true 0 0) c = Ok (inl h, c') /\ show_existing_frame h = 0 /\
  fg_present h = 1 /\ fg_update h = 0.
Proof. destruct ex_reachable as (sh & ss & refs & c & h & c' & X). exists sh, ss, refs, c, h, c'. intuition. Qed.

Print Assumptions C11_ranges.
Print Assumptions C11_inherited.

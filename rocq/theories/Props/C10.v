(** C10: global motion parameters stay in the legal range for any stream
    history. *)
From Coq Require Import ZArith List Bool Lia.
From Verif Require Import Base.CInt GetBits.Model GetBits.Spec GetBits.SpecProg GetBits.AtPos Obu.SeqModel
  Obu.SeqRel Obu.FrameModel Obu.FrameRel Obu.FrameRefs Obu.FrameHist Obu.FrameExamples.
Import ListNotations.
Open Scope Z_scope.

(** Translations of 12 bits in units of 2^-6 and alphas of 12 bits in units of
    2^-15 around the identity, all scaled to 2^-16. *)
Definition legal (m : list Z) : Prop :=
  length m = 6%nat /\
  (forall i, In i [0; 1]%nat -> - 2 ^ 12 * 2 ^ 10 <= nth i m 0 <= 2 ^ 12 * 2 ^ 10) /\
  (forall i, In i [3; 4]%nat -> - 2 ^ 12 * 2 <= nth i m 0 <= 2 ^ 12 * 2) /\
  (forall i, In i [2; 5]%nat -> - 2 ^ 12 * 2 <= nth i m 0 - 2 ^ 16 <= 2 ^ 12 * 2).

Theorem C10_range : forall sh ss refs strict tid sid buf pos c h c',
  seq_rel sh ss -> seq_wf sh -> reachable refs -> 0 <= tid -> 0 <= sid ->
  at_pos buf pos c -> pos + 15200 <= 8 * zlen buf + 2 ^ 31 ->
  exec (parse_frame_hdr sh refs strict tid sid) c = Ok (inl h, c') -> show_existing_frame h = 0 ->
  length (f_gmv h) = 7%nat /\ Forall (fun g => 0 <= gm_type g <= 3 /\ legal (gm_mat g)) (f_gmv h).
Proof.
  intros sh ss refs strict tid sid buf pos c h c' R W (srefs & H) T I A B E NE.
  destruct (accepted sh ss refs srefs strict tid sid buf pos c h c' R W H T I A B E NE) as (_ & _ & _ & _ & CW).
  unfold coded_wf in CW. decompose [and] CW. split; [assumption|].
  match goal with X : Forall gm_wf _ |- _ => revert X end. apply Forall_impl.
  intros g (G1 & G2). split; [exact G1|]. unfold gm_ok in G2.
  destruct (gm_mat g) as [|m0 [|m1 [|m2 [|m3 [|m4 [|m5 [|]]]]]]]; try contradiction.
  unfold legal. cbn [length In nth]. split; [reflexivity|].
  change (2 ^ 12 * 2 ^ 10) with (2 ^ 22). change (2 ^ 12 * 2) with (2 ^ 13).
  change (- 2 ^ 12 * 2 ^ 10) with (- 2 ^ 22). change (- 2 ^ 12 * 2) with (- 2 ^ 13).
  split; [|split]; intros i [<-|[<-|[]]]; lia.
Qed.

(** The parameters are those of the specification (7.20 saves them, 5.9.24
    predicts from them) for the same history. *)
Theorem C10_spec : forall sh ss refs srefs strict tid sid buf pos c h c',
  seq_rel sh ss -> seq_wf sh -> history refs srefs -> 0 <= tid -> 0 <= sid ->
  at_pos buf pos c -> pos + 15200 <= 8 * zlen buf + 2 ^ 31 ->
  exec (parse_frame_hdr sh refs strict tid sid) c = Ok (inl h, c') -> show_existing_frame h = 0 ->
  exists s p, srun (F.uncompressed_header ss srefs strict tid sid) (stream_bit buf (zlen buf)) pos = (Some (F.Coded s), p) /\
    map (fun g => (gm_type g, gm_mat g)) (f_gmv h) = F.gm_ s.
Proof.
  intros sh ss refs srefs strict tid sid buf pos c h c' R W H T I A B E NE.
  destruct (accepted sh ss refs srefs strict tid sid buf pos c h c' R W H T I A B E NE) as (s & p & ES & CR & _).
  exists s, p. split; [exact ES|]. unfold coded_rel in CR. decompose [and] CR.
  match goal with X : Forall2 gm_rel _ _ |- _ => revert X end. clear.
  induction 1 as [|g q l l' (X & Y) _ IH]; cbn [map]; [reflexivity|]. rewrite X, Y, IH. destruct q; reflexivity.
Qed.

Example C10_met : exists sh ss refs c h c', seq_rel sh ss /\ seq_wf sh /\ reachable refs /\
  at_pos inter_bytes 0 c /\ exec (parse_frame_hdr sh refs true 0 0) c = Ok (inl h, c') /\ show_existing_frame h = 0 /\
  map gm_type (f_gmv h) = [2; 0; 0; 0; 0; 0; 0].
Proof. destruct ex_reachable as (sh & ss & refs & c & h & c' & X). exists sh, ss, refs, c, h, c'. intuition. Qed.

Print Assumptions C10_range.
Print Assumptions C10_spec.

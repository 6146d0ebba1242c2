(** A small stream used to show that the hypotheses of the frame header
    theorems can be met: a 64x64 sequence header, a key frame header with film
    grain and an inter frame header with short reference signalling, a
    rotation/zoom global motion model and inherited film grain. *)
From Coq Require Import ZArith List Bool Lia.
From Verif Require Import Base.CInt GetBits.Model GetBits.Spec GetBits.SpecProg GetBits.AtPos Obu.SeqModel
  Obu.SeqRel Obu.SeqTop Obu.FrameModel Obu.FrameRel Obu.FrameHist.
Import ListNotations.
Open Scope Z_scope.

Definition seq_bytes : list Z := [0; 0; 0; 2; 175; 255; 129; 77; 128; 24].
Definition key_bytes : list Z := [16; 5; 144; 0; 0; 10; 9; 164; 48; 5; 0; 4; 74].
Definition inter_bytes : list Z := [48; 16; 3; 5; 214; 64; 0; 0; 43; 142; 73; 102; 2; 6; 18; 16].

Definition run_all {A} (m : rd A) (b : list Z) : option A :=
  match gb_init b (zlen b) with
  | Ok c => match exec m c with Ok (inl x, _) => Some x | _ => None end
  | _ => None
  end.
Definition the {A} (d : A) (o : option A) : A := match o with Some x => x | None => d end.

Lemma run_all_exec : forall A (m : rd A) b x, Forall is_byte b -> 0 < zlen b -> run_all m b = Some x ->
  exists c c', at_pos b 0 c /\ exec m c = Ok (inl x, c').
Proof.
  intros A m b x Hb Hl H. destruct (at_pos_init b Hb Hl) as (c & E & At). unfold run_all in H. rewrite E in H.
  destruct (exec m c) as [[[y|e] c']|] eqn:EX; try discriminate. injection H as ->. eauto.
Qed.

Lemma ex_seq : exists sh ss, run_all (parse_seq_hdr true) seq_bytes = Some sh /\ seq_rel sh ss /\ seq_wf sh /\
  (exists k, run_all (parse_frame_hdr sh (repeat None 8) true 0 0) key_bytes = Some k /\
     show_existing_frame k = 0 /\ refresh_frame_flags (f_refs k) = 255 /\ fg_y_points (f_fg k) = [(128, 40)] /\
   exists i, run_all (parse_frame_hdr sh (refresh 0 255 (Some k) (repeat None 8)) true 0 0) inter_bytes = Some i /\
     show_existing_frame i = 0 /\ frame_ref_short_signaling (f_refs i) = 1 /\
     refidx (f_refs i) = [0; 7; 6; 1; 5; 4; 3] /\ map gm_type (f_gmv i) = [2; 0; 0; 0; 0; 0; 0] /\
     fg_present i = 1 /\ fg_update i = 0 /\ fg_seed (f_fg i) = 777 /\ fg_y_points (f_fg i) = [(128, 40)]).
Proof.
  destruct (run_all (parse_seq_hdr true) seq_bytes) as [sh|] eqn:E; [|vm_compute in E; discriminate].
  assert (HB : Forall is_byte seq_bytes) by (repeat constructor; unfold is_byte; lia).
  destruct (run_all_exec _ _ _ _ HB ltac:(reflexivity) E) as (c & c' & At & EX).
  destruct (seq_hdr_ok true seq_bytes 0 c At ltac:(vm_compute; discriminate)) as (r & c'' & E' & M).
  rewrite EX in E'. injection E' as <- <-. destruct M as (s & _ & R & W).
  exists sh, s. split; [reflexivity|]. split; [exact R|]. split; [exact W|].
  vm_compute in E. injection E as <-.
  eexists. split; [vm_compute; reflexivity|]. split; [reflexivity|]. split; [reflexivity|]. split; [reflexivity|].
  eexists. split; [vm_compute; reflexivity|]. repeat split; reflexivity.
Qed.

(** The inter frame header is read in a reachable state. *)
Lemma ex_reachable : exists sh ss refs c h c', seq_rel sh ss /\ seq_wf sh /\ reachable refs /\
  at_pos inter_bytes 0 c /\ exec (parse_frame_hdr sh refs true 0 0) c = Ok (inl h, c') /\
  show_existing_frame h = 0 /\ frame_ref_short_signaling (f_refs h) = 1 /\
  fg_present h = 1 /\ fg_update h = 0 /\ map gm_type (f_gmv h) = [2; 0; 0; 0; 0; 0; 0].
Proof.
  destruct ex_seq as (sh & ss & _ & R & W & k & EK & K1 & K2 & _ & i & EI & I1 & I2 & _ & I4 & I5 & I6 & _).
  destruct (run_all_exec _ _ key_bytes k ltac:(repeat constructor; unfold is_byte; lia) ltac:(reflexivity) EK) as (c & c' & At & EX).
  destruct (run_all_exec _ _ inter_bytes i ltac:(repeat constructor; unfold is_byte; lia) ltac:(reflexivity) EI) as (d & d' & Ad & ED).
  exists sh, ss, (refresh 0 255 (Some k) (repeat None 8)), d, i, d'.
  split; [exact R|]. split; [exact W|]. split.
  { rewrite <- K2. apply (reachable_frame (repeat None 8) sh ss true 0 0 key_bytes 0 c k c'); try solve [assumption | lia].
    - apply reachable_start.
    - vm_compute; discriminate. }
  repeat (split; [solve [auto]|]). auto.
Qed.

(** Small streams, used to show that the hypotheses of the theorems can be met and
    as counterexamples.  64x64 (or 192x64 with three tile columns), 8 bit 4:2:0,
    order hints of 4 bits. *)
From Coq Require Import ZArith List Bool Lia.
From Verif Require Import Base.CInt GetBits.Model GetBits.Spec Obu.SeqModel Obu.FrameModel
  Dec.State Dec.Submit Dec.ObuModel Dec.LibModel Dec.Api.
From Verif Require Export Dec.Session.
Import ListNotations.
Open Scope Z_scope.

Definition p_td : list Z := [18; 0].
Definition p_seq : list Z := [10; 10; 0; 0; 0; 42; 175; 255; 129; 77; 128; 24].
(** OBU_FRAME: shown key frame; shown inter frame refreshing slot 0. *)
Definition p_key : list Z := [50; 8; 16; 5; 144; 0; 0; 8; 170; 187].
Definition p_inter : list Z := [50; 12; 48; 16; 3; 5; 214; 64; 0; 0; 40; 0; 170; 187].
(** ... hidden inter frame. *)
Definition p_hid : list Z := [50; 12; 32; 8; 1; 130; 235; 32; 0; 0; 20; 0; 170; 187].
(** A sequence with two spatial layers; an OBU of a spatial layer. *)
Definition p_layers : list Z := [10; 10; 0; 3; 1; 42; 175; 255; 129; 77; 128; 24].
Definition in_layer (sid : Z) (p : list Z) : list Z :=
  match p with h :: t => (h + 4) :: (8 * sid) :: t | [] => [] end.
(** OBU_FRAME_HEADER: show_existing_frame of slot 2. *)
Definition p_show : list Z := [26; 1; 168].
(** 192x64: sequence header, frame header of a key frame with 3 tiles, tile groups. *)
Definition p_seq192 : list Z := [10; 11; 0; 0; 0; 43; 189; 249; 248; 20; 216; 1; 128].
Definition p_key192 : list Z := [26; 7; 16; 7; 6; 64; 0; 0; 36].
Definition p_tg03 : list Z := [34; 4; 152; 1; 2; 3].
Definition p_tg01 : list Z := [34; 4; 136; 1; 2; 3].
Definition p_tg22 : list Z := [34; 4; 208; 1; 2; 3].
Definition p_tg12 : list Z := [34; 4; 176; 1; 2; 3].
Definition p_tg02 : list Z := [34; 4; 144; 1; 2; 3].

Definition o_fine : oracle := mkOracle (fun _ _ _ => 0) (fun _ _ _ => 0) (fun _ => mkDres 0 false false) (fun _ => 0).
Definition o_broken : oracle := mkOracle (fun _ _ _ => 0) (fun _ _ _ => 0) (fun _ => mkDres EINVAL_ true true) (fun _ => 0).
Definition s_one : settings := mkSettings false 0 true 0 0 false true 1.
Definition s_four : settings := mkSettings false 0 true 0 0 false true 4.
Definition s_top1 : settings := mkSettings false 0 false 0 0 false true 1.
Definition s_top2 : settings := mkSettings false 0 false 0 0 false true 2.
Definition s_two : settings := mkSettings false 0 true 0 0 false true 2.

(** Feeding single OBUs. *)
Fixpoint feed (o : oracle) (s : settings) (l : list (list Z)) (d : dec) : outcome (dec * list ev) :=
  match l with
  | [] => Ok (d, [])
  | b :: t => match parse_obus o s b 7 (w_out None d) with
              | Ok (_, d, e) => match feed o s t d with Ok (d, e2) => Ok (d, e ++ e2) | Undef => Undef end
              | Undef => Undef
              end
  end.
Definition ev_kind (x : ev) : Z * Z :=
  match x with
  | EvSubmit j r => (1, r) | EvRefuse _ r => (2, r) | EvSkip _ => (3, 0) | EvShow i _ => (4, i)
  | EvOut p => (5, match tp_buf p with Some x => x | None => -1 end)
  | EvParse b _ r _ => (6, r) | EvCut => (7, 0)
  | EvTake p => (8, match tp_buf p with Some x => x | None => -1 end)
  | EvErr r => (9, r) | EvFlush => (10, 0) | EvIn b _ => (11, zlen b)
  end.
Definition reply_of (r : reply) : Z * bool * option Z :=
  (rp_ret r, rp_taken r, match rp_pic r with Some p => tp_buf (op_pic p) | None => None end).
Definition okbytes (l : list Z) : bool := forallb (fun b => (0 <=? b) && (b <? 256)) l.
Lemma okbytes_ok : forall l, okbytes l = true -> Forall is_byte l.
Proof. intros l H. apply Forall_forall. intros x Hx. apply (proj1 (forallb_forall _ _) H) in Hx. unfold is_byte. lia. Qed.
(** State after a run of calls. *)
Definition after_calls (o : oracle) (s : settings) (l : list call) : dec :=
  match calls o s l (dec0 s) with Ok (_, d, _) => d | Undef => dec0 s end.
Definition send (l : list Z) : call := Send (Some (l, 7)).
Definition okcalls (l : list call) : bool :=
  forallb (fun c => match c with Send (Some (b, _)) => okbytes b | _ => true end) l.
Lemma okcalls_ok : forall l, okcalls l = true -> Forall call_ok l.
Proof.
  intros l H. apply Forall_forall. intros c Hc. apply (proj1 (forallb_forall _ _) H) in Hc.
  destruct c as [[[b m]|]| | | |]; cbn; auto. apply okbytes_ok; auto.
Qed.
Lemma after_live : forall o s l, okcalls l = true -> live o s (after_calls o s l).
Proof.
  intros o s l H. unfold after_calls. destruct (calls o s l (dec0 s)) as [[[rs d] e]|] eqn:E; [|apply live_start].
  eapply calls_live; [apply live_start| |eauto]. apply Forall_forall. intros c Hc. apply (proj1 (forallb_forall _ _) H) in Hc.
  destruct c as [[[b m]|]| | | |]; cbn; auto. apply okbytes_ok; auto.
Qed.
(** Summary of a parsing step. *)
Definition step_kind (o : oracle) (s : settings) (buf : list Z) (d : dec) : option (Z * list (Z * Z)) :=
  match parse_obus o s buf 7 d with Ok (r, _, e) => Some (r, map ev_kind e) | Undef => None end.

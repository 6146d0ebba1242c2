(** What it means for two decoders to continue alike. *)
From Coq Require Import ZArith List Bool.
From Verif Require Import Base.CInt Obu.SeqModel Obu.FrameModel Dec.State.
Import ListNotations.
Open Scope Z_scope.

(** A picture without what is only passed on to the caller. *)
Definition bare (p : tpic) : tpic :=
  mkTpic (tp_hdr p) (tp_seq p) (tp_buf p) props0 None None [] 0 (tp_showable p) 0 (tp_bad p).
Definition bare_slot (x : slot) : slot := mkSlot (option_map bare (r_pic x)) (r_cdf x) (r_segmap x) (r_refmvs x).
Definition bare_job (j : job) : job :=
  mkJob (j_id j) (j_seq j) (j_hdr j) (j_tiles j) (map bare (j_refs j)) (j_cdf j) (j_mvs j) (j_prev_segmap j) (j_segmap j).

(** The same operating point, headers, pending tiles, reference frames, and numbering
    of frames. *)
Definition agree (d1 d2 : dec) : Prop :=
  d_idc d1 = d_idc d2 /\ d_max_sid d1 = d_max_sid d2 /\ d_seq d1 = d_seq d2 /\ d_fhdr d1 = d_fhdr d2 /\
  d_tiles d1 = d_tiles d2 /\ d_n_tiles d1 = d_n_tiles d2 /\ map bare_slot (d_refs d1) = map bare_slot (d_refs d2) /\
  d_jobs d1 = d_jobs d2.

(** Decoding a frame does not look at what is only passed on. *)
Definition blind (o : oracle) : Prop := forall j1 j2, bare_job j1 = bare_job j2 -> o_decode o j1 = o_decode o j2.

(** Frames decoded, refused, dropped or shown again. *)
Inductive task : Type :=
| Decoded (j : job) (res : Z) | Refused (h : frame_hdr) (res : Z) | Dropped (h : frame_hdr) | Shown (i : Z) (p : tpic).
Definition task_ev (x : ev) : list task :=
  match x with
  | EvSubmit j r => [Decoded (bare_job j) r]
  | EvRefuse h r => [Refused h r]
  | EvSkip h => [Dropped h]
  | EvShow i p => [Shown i (bare p)]
  | _ => []
  end.
Definition work (e : list ev) : list task := flat_map task_ev e.

(** The calls of the parser: what was read, the result, and the frames it dealt
    with. *)
Record entry : Type := mkEntry { en_buf : list Z; en_props : props; en_ret : Z; en_work : list task }.
Definition trail_ev (x : ev) (y : list task * list entry) : list task * list entry :=
  match x with
  | EvParse b m r _ => ([], mkEntry b m r (fst y) :: snd y)
  | _ => (task_ev x ++ fst y, snd y)
  end.
Definition trail (e : list ev) : list entry := snd (fold_right trail_ev ([], []) e).
(** Packets taken. *)
Definition packets (e : list ev) : list (list Z * props) :=
  flat_map (fun x => match x with EvIn b m => [(b, m)] | _ => [] end) e.

(** No header of a frame that could not be shown again, nor of a complete frame, is
    left over. *)
Definition unstuck (d : dec) : Prop :=
  match d_fhdr d with
  | None => True
  | Some h => show_existing_frame h = 0 /\ d_n_tiles d <> t_cols (f_tiling h) * t_rows (f_tiling h)
  end.

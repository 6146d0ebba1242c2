(** State of the decoder: the parts of Dav1dContext (/repo/src/internal.h:75-175)
    that dav1d_parse_obus, dav1d_submit_frame and the API functions of lib.c read
    or write.

    Simplifications, used by all files of this directory:
    - objects behind Dav1dRef pointers (headers, metadata, pictures) are values;
      picture buffers, CDF contexts, segmentation maps and motion-field buffers are
      identified by the number of the frame that allocated them;
    - allocations other than picture buffers succeed (no ENOMEM paths), both bit
      depths are compiled in (no ENOPROTOOPT);
    - decoding the tiles of a frame is an oracle: a function of everything
      dav1d_submit_frame hands over (the [job]);
    - with frame threading a frame's result is recorded when it is submitted, since
      every function modelled here waits for the frame ([while (f->n_tile_data > 0)
      pthread_cond_wait]) before it looks at its result. *)
From Coq Require Import ZArith List Bool.
From Verif Require Import Base.CInt GetBits.Model Obu.SeqModel Obu.FrameModel.
Import ListNotations.
Open Scope Z_scope.

(** Dav1dDataProps: only ever copied, so an opaque token; 0 stands for the
    defaults of dav1d_data_props_set_defaults. *)
Definition props : Type := Z.
Definition props0 : props := 0.

(** include/dav1d/headers.h Dav1dITUTT35. *)
Record itut : Type := mkItut { it_country : Z; it_ext : Z; it_payload : list Z }.

(** /repo/src/picture.h:46-65 Dav1dThreadPicture.  [tp_buf = None] is
    [p.data[0] == NULL] with a non-NULL [p.frame_hdr] (header-only slot of a
    skipped frame). [tp_bad] is whether [progress[1]] ends up as FRAME_ERROR. *)
Record tpic : Type := mkTpic {
  tp_hdr : frame_hdr; tp_seq : seq_hdr; tp_buf : option Z; tp_props : props;
  tp_cll : option (Z * Z); tp_mdcv : option (list Z); tp_itut : list itut;
  tp_visible : Z; tp_showable : Z; tp_flags : Z; tp_bad : bool }.
Definition has_data (p : tpic) : bool := match tp_buf p with Some _ => true | None => false end.

(** internal.h:130-137 refs[i] and cdf[i]. *)
Record slot : Type := mkSlot {
  r_pic : option tpic; r_cdf : option Z; r_segmap : option Z; r_refmvs : option Z }.
Definition slot0 : slot := mkSlot None None None None.

(** internal.h:70-73 Dav1dTileGroup. *)
Record tgrp : Type := mkTgrp { tg_start : Z; tg_end : Z; tg_data : list Z; tg_props : props }.

(** What dav1d_submit_frame hands to the frame decoder. *)
Record job : Type := mkJob {
  j_id : Z; j_seq : seq_hdr; j_hdr : frame_hdr; j_tiles : list tgrp;
  j_refs : list tpic;                 (* f->refp, 7 entries for inter frames *)
  j_cdf : option Z; j_mvs : list (option Z);
  j_prev_segmap : option Z; j_segmap : option Z }.
(** Outcome of decoding a frame: f->task_thread.retval, whether the picture's
    progress is FRAME_ERROR, and f->task_thread.error after the frame is done. *)
Record dres : Type := mkDres { dr_ret : Z; dr_bad : bool; dr_err : bool }.
Record oracle : Type := mkOracle {
  o_alloc : Z -> seq_hdr -> frame_hdr -> Z;   (* dav1d_thread_picture_alloc: 0 or negative *)
  o_alloc2 : Z -> seq_hdr -> frame_hdr -> Z;  (* dav1d_picture_alloc_copy of a superres frame *)
  o_decode : job -> dres;
  o_grain : tpic -> Z       (* picture allocation of dav1d_apply_grain *) }.

(** c->fc[i] and c->frame_thread.out_delayed[i]. *)
Record fctx : Type := mkFctx { fc_ret : Z; fc_err : bool; fc_out : option tpic }.
Definition fctx0 : fctx := mkFctx 0 false None.

(** Dav1dSettings as stored in the context by dav1d_open. *)
Record settings : Type := mkSettings {
  s_strict : bool; s_operating_point : Z; s_all_layers : bool; s_frame_size_limit : Z;
  s_decode_frame_type : Z; s_output_invisible : bool; s_apply_grain : bool; s_n_fc : Z }.

(** picture.h:46-50. *)
Definition PF_NEW_SEQUENCE : Z := 1.
Definition PF_NEW_OP_PARAMS_INFO : Z := 2.
Definition PF_NEW_TEMPORAL_UNIT : Z := 4.
(** dav1d.h DAV1D_DECODEFRAMETYPE_*. *)
Definition DFT_ALL : Z := 0.
Definition DFT_REFERENCE : Z := 1.
Definition DFT_INTRA : Z := 2.
Definition DFT_KEY : Z := 3.

Record dec : Type := mkDec {
  d_idc : Z;
  d_max_sid : Z;
  d_seq : option seq_hdr;
  d_fhdr : option frame_hdr;
  d_tiles : list tgrp;
  d_n_tiles : Z;
  d_refs : list slot;
  d_cll : option (Z * Z);
  d_mdcv : option (list Z);
  d_itut : list itut;
  d_frame_flags : Z;
  d_event_flags : Z;
  d_cached_error : Z;
  d_err_props : props;
  d_out : option tpic;
  d_cache : option tpic;
  d_drain : bool;
  d_in : option (list Z * props);
  d_jobs : Z;
  d_fc : list fctx;
  d_next : nat }.
(** d_idc = c->operating_point_idc
     d_max_sid = c->max_spatial_id
     d_seq = c->seq_hdr
     d_fhdr = c->frame_hdr
     d_tiles = c->tile[0..n_tile_data)
     d_n_tiles = c->n_tiles
     d_refs = c->refs[8], c->cdf[8]
     d_cll = c->content_light
     d_mdcv = c->mastering_display
     d_itut = c->itut_t35[0..n_itut_t35)
     d_frame_flags = c->frame_flags
     d_event_flags = c->event_flags
     d_cached_error = c->cached_error
     d_err_props = c->cached_error_props
     d_out = c->out
     d_cache = c->cache
     d_drain = c->drain
     d_in = c->in
     d_jobs = number of frames submitted so far (gives pictures an identity)
     d_fc = c->fc[], c->frame_thread.out_delayed[]
     d_next = c->frame_thread.next *)
Definition w_idc (x : Z) (d : dec) : dec :=
  mkDec x (d_max_sid d) (d_seq d) (d_fhdr d) (d_tiles d) (d_n_tiles d) (d_refs d) (d_cll d) (d_mdcv d) (d_itut d) (d_frame_flags d) (d_event_flags d) (d_cached_error d) (d_err_props d) (d_out d) (d_cache d) (d_drain d) (d_in d) (d_jobs d) (d_fc d) (d_next d).
Definition w_max_sid (x : Z) (d : dec) : dec :=
  mkDec (d_idc d) x (d_seq d) (d_fhdr d) (d_tiles d) (d_n_tiles d) (d_refs d) (d_cll d) (d_mdcv d) (d_itut d) (d_frame_flags d) (d_event_flags d) (d_cached_error d) (d_err_props d) (d_out d) (d_cache d) (d_drain d) (d_in d) (d_jobs d) (d_fc d) (d_next d).
Definition w_seq (x : option seq_hdr) (d : dec) : dec :=
  mkDec (d_idc d) (d_max_sid d) x (d_fhdr d) (d_tiles d) (d_n_tiles d) (d_refs d) (d_cll d) (d_mdcv d) (d_itut d) (d_frame_flags d) (d_event_flags d) (d_cached_error d) (d_err_props d) (d_out d) (d_cache d) (d_drain d) (d_in d) (d_jobs d) (d_fc d) (d_next d).
Definition w_fhdr (x : option frame_hdr) (d : dec) : dec :=
  mkDec (d_idc d) (d_max_sid d) (d_seq d) x (d_tiles d) (d_n_tiles d) (d_refs d) (d_cll d) (d_mdcv d) (d_itut d) (d_frame_flags d) (d_event_flags d) (d_cached_error d) (d_err_props d) (d_out d) (d_cache d) (d_drain d) (d_in d) (d_jobs d) (d_fc d) (d_next d).
Definition w_tiles (x : list tgrp) (d : dec) : dec :=
  mkDec (d_idc d) (d_max_sid d) (d_seq d) (d_fhdr d) x (d_n_tiles d) (d_refs d) (d_cll d) (d_mdcv d) (d_itut d) (d_frame_flags d) (d_event_flags d) (d_cached_error d) (d_err_props d) (d_out d) (d_cache d) (d_drain d) (d_in d) (d_jobs d) (d_fc d) (d_next d).
Definition w_n_tiles (x : Z) (d : dec) : dec :=
  mkDec (d_idc d) (d_max_sid d) (d_seq d) (d_fhdr d) (d_tiles d) x (d_refs d) (d_cll d) (d_mdcv d) (d_itut d) (d_frame_flags d) (d_event_flags d) (d_cached_error d) (d_err_props d) (d_out d) (d_cache d) (d_drain d) (d_in d) (d_jobs d) (d_fc d) (d_next d).
Definition w_refs (x : list slot) (d : dec) : dec :=
  mkDec (d_idc d) (d_max_sid d) (d_seq d) (d_fhdr d) (d_tiles d) (d_n_tiles d) x (d_cll d) (d_mdcv d) (d_itut d) (d_frame_flags d) (d_event_flags d) (d_cached_error d) (d_err_props d) (d_out d) (d_cache d) (d_drain d) (d_in d) (d_jobs d) (d_fc d) (d_next d).
Definition w_cll (x : option (Z * Z)) (d : dec) : dec :=
  mkDec (d_idc d) (d_max_sid d) (d_seq d) (d_fhdr d) (d_tiles d) (d_n_tiles d) (d_refs d) x (d_mdcv d) (d_itut d) (d_frame_flags d) (d_event_flags d) (d_cached_error d) (d_err_props d) (d_out d) (d_cache d) (d_drain d) (d_in d) (d_jobs d) (d_fc d) (d_next d).
Definition w_mdcv (x : option (list Z)) (d : dec) : dec :=
  mkDec (d_idc d) (d_max_sid d) (d_seq d) (d_fhdr d) (d_tiles d) (d_n_tiles d) (d_refs d) (d_cll d) x (d_itut d) (d_frame_flags d) (d_event_flags d) (d_cached_error d) (d_err_props d) (d_out d) (d_cache d) (d_drain d) (d_in d) (d_jobs d) (d_fc d) (d_next d).
Definition w_itut (x : list itut) (d : dec) : dec :=
  mkDec (d_idc d) (d_max_sid d) (d_seq d) (d_fhdr d) (d_tiles d) (d_n_tiles d) (d_refs d) (d_cll d) (d_mdcv d) x (d_frame_flags d) (d_event_flags d) (d_cached_error d) (d_err_props d) (d_out d) (d_cache d) (d_drain d) (d_in d) (d_jobs d) (d_fc d) (d_next d).
Definition w_frame_flags (x : Z) (d : dec) : dec :=
  mkDec (d_idc d) (d_max_sid d) (d_seq d) (d_fhdr d) (d_tiles d) (d_n_tiles d) (d_refs d) (d_cll d) (d_mdcv d) (d_itut d) x (d_event_flags d) (d_cached_error d) (d_err_props d) (d_out d) (d_cache d) (d_drain d) (d_in d) (d_jobs d) (d_fc d) (d_next d).
Definition w_event_flags (x : Z) (d : dec) : dec :=
  mkDec (d_idc d) (d_max_sid d) (d_seq d) (d_fhdr d) (d_tiles d) (d_n_tiles d) (d_refs d) (d_cll d) (d_mdcv d) (d_itut d) (d_frame_flags d) x (d_cached_error d) (d_err_props d) (d_out d) (d_cache d) (d_drain d) (d_in d) (d_jobs d) (d_fc d) (d_next d).
Definition w_cached_error (x : Z) (d : dec) : dec :=
  mkDec (d_idc d) (d_max_sid d) (d_seq d) (d_fhdr d) (d_tiles d) (d_n_tiles d) (d_refs d) (d_cll d) (d_mdcv d) (d_itut d) (d_frame_flags d) (d_event_flags d) x (d_err_props d) (d_out d) (d_cache d) (d_drain d) (d_in d) (d_jobs d) (d_fc d) (d_next d).
Definition w_err_props (x : props) (d : dec) : dec :=
  mkDec (d_idc d) (d_max_sid d) (d_seq d) (d_fhdr d) (d_tiles d) (d_n_tiles d) (d_refs d) (d_cll d) (d_mdcv d) (d_itut d) (d_frame_flags d) (d_event_flags d) (d_cached_error d) x (d_out d) (d_cache d) (d_drain d) (d_in d) (d_jobs d) (d_fc d) (d_next d).
Definition w_out (x : option tpic) (d : dec) : dec :=
  mkDec (d_idc d) (d_max_sid d) (d_seq d) (d_fhdr d) (d_tiles d) (d_n_tiles d) (d_refs d) (d_cll d) (d_mdcv d) (d_itut d) (d_frame_flags d) (d_event_flags d) (d_cached_error d) (d_err_props d) x (d_cache d) (d_drain d) (d_in d) (d_jobs d) (d_fc d) (d_next d).
Definition w_cache (x : option tpic) (d : dec) : dec :=
  mkDec (d_idc d) (d_max_sid d) (d_seq d) (d_fhdr d) (d_tiles d) (d_n_tiles d) (d_refs d) (d_cll d) (d_mdcv d) (d_itut d) (d_frame_flags d) (d_event_flags d) (d_cached_error d) (d_err_props d) (d_out d) x (d_drain d) (d_in d) (d_jobs d) (d_fc d) (d_next d).
Definition w_drain (x : bool) (d : dec) : dec :=
  mkDec (d_idc d) (d_max_sid d) (d_seq d) (d_fhdr d) (d_tiles d) (d_n_tiles d) (d_refs d) (d_cll d) (d_mdcv d) (d_itut d) (d_frame_flags d) (d_event_flags d) (d_cached_error d) (d_err_props d) (d_out d) (d_cache d) x (d_in d) (d_jobs d) (d_fc d) (d_next d).
Definition w_in (x : option (list Z * props)) (d : dec) : dec :=
  mkDec (d_idc d) (d_max_sid d) (d_seq d) (d_fhdr d) (d_tiles d) (d_n_tiles d) (d_refs d) (d_cll d) (d_mdcv d) (d_itut d) (d_frame_flags d) (d_event_flags d) (d_cached_error d) (d_err_props d) (d_out d) (d_cache d) (d_drain d) x (d_jobs d) (d_fc d) (d_next d).
Definition w_jobs (x : Z) (d : dec) : dec :=
  mkDec (d_idc d) (d_max_sid d) (d_seq d) (d_fhdr d) (d_tiles d) (d_n_tiles d) (d_refs d) (d_cll d) (d_mdcv d) (d_itut d) (d_frame_flags d) (d_event_flags d) (d_cached_error d) (d_err_props d) (d_out d) (d_cache d) (d_drain d) (d_in d) x (d_fc d) (d_next d).
Definition w_fc (x : list fctx) (d : dec) : dec :=
  mkDec (d_idc d) (d_max_sid d) (d_seq d) (d_fhdr d) (d_tiles d) (d_n_tiles d) (d_refs d) (d_cll d) (d_mdcv d) (d_itut d) (d_frame_flags d) (d_event_flags d) (d_cached_error d) (d_err_props d) (d_out d) (d_cache d) (d_drain d) (d_in d) (d_jobs d) x (d_next d).
Definition w_next (x : nat) (d : dec) : dec :=
  mkDec (d_idc d) (d_max_sid d) (d_seq d) (d_fhdr d) (d_tiles d) (d_n_tiles d) (d_refs d) (d_cll d) (d_mdcv d) (d_itut d) (d_frame_flags d) (d_event_flags d) (d_cached_error d) (d_err_props d) (d_out d) (d_cache d) (d_drain d) (d_in d) (d_jobs d) (d_fc d) x.


(** The state after dav1d_open (lib.c:140-300). *)
Definition dec0 (s : settings) : dec :=
  mkDec 0 0 None None [] 0 (repeat slot0 8) None None [] 0 0 0 props0 None None false None 0
    (repeat fctx0 (Z.to_nat (s_n_fc s))) 0.

(** Observable actions of a step. *)
Inductive ev : Type :=
| EvSubmit (j : job) (res : Z)      (* dav1d_submit_frame reached the decoder with [j] *)
| EvRefuse (h : frame_hdr) (res : Z)  (* dav1d_submit_frame failed before that *)
| EvSkip (h : frame_hdr)            (* frame dropped by decode_frame_type *)
| EvShow (i : Z) (p : tpic)         (* show_existing_frame of slot [i], holding [p] *)
| EvOut (p : tpic)                  (* picture moved to c->out *)
| EvIn (buf : list Z) (m : props)   (* packet moved to c->in *)
| EvParse (buf : list Z) (m : props) (r sid : Z)  (* dav1d_parse_obus called for [buf], its result, c->max_spatial_id afterwards *)
| EvCut                             (* output_picture_ready called to drain, with c->out empty *)
| EvTake (p : tpic)                 (* picture taken by output_image *)
| EvErr (r : Z)                     (* error of a frame handed to the caller *)
| EvFlush.                          (* dav1d_flush *)

Definition upd_nth {A} (l : list A) (i : nat) (x : A) : list A := firstn i l ++ x :: skipn (S i) l.
Definition slot_at (d : dec) (i : Z) : slot := nth (Z.to_nat i) (d_refs d) slot0.

(** Slots whose bit is set in [mask] become [x]. *)
Fixpoint refresh_slots (i : nat) (mask : Z) (x : slot -> slot) (l : list slot) : list slot :=
  match l with
  | [] => []
  | s :: t => (if Z.testbit mask (Z.of_nat i) then x s else s) :: refresh_slots (S i) mask x t
  end.

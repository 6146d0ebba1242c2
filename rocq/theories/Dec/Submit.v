(** Model of dav1d_submit_frame, /repo/src/decode.c:3326-3748, and of
    dav1d_thread_picture_alloc, /repo/src/picture.c:190-234. *)
From Coq Require Import ZArith List Bool.
From Verif Require Import Base.CInt GetBits.Model Obu.SeqModel Obu.FrameModel Dec.State.
Import ListNotations.
Open Scope Z_scope.
Local Open Scope outcome_scope.

Definition is_none {A} (x : option A) : bool := match x with None => true | Some _ => false end.

(** picture.c:332-345 dav1d_picture_get_event_flags (the event flags have the
    same values as the picture flags, dav1d.h:290-299). *)
Definition event_flags_of (p : tpic) : Z := Z.land (tp_flags p) 3.

(** dav1d_thread_picture_ref(&c->out, p) followed by c->event_flags |= …;
    picture.c:279 asserts that the destination is empty. *)
Definition put_out (p : tpic) (d : dec) : outcome dec :=
  guard! is_none (d_out d) in
  Ok (w_event_flags (Z.lor (d_event_flags d) (event_flags_of p)) (w_out (Some p) d)).

Definition shown (s : settings) (p : tpic) : bool := z2b (tp_visible p) || s_output_invisible s.

(** decode.c:3332-3376, and the identical code at obu.c:1637-1677: take the next
    frame context of the ring, wait for it and deliver its picture or error.
    (The scheduler hints task_thread.first/cur are not modelled.) *)
Definition ring_next (s : settings) (d : dec) : nat :=
  if Z.of_nat (S (d_next d)) =? s_n_fc s then O else S (d_next d).
Definition ring_take (s : settings) (d : dec) : outcome (dec * list ev) :=
  let i := d_next d in
  guard! (i <? length (d_fc d))%nat in
  let f := nth i (d_fc d) fctx0 in
  let d := w_next (ring_next s d) d in
  let set f d := w_fc (upd_nth (d_fc d) i f) d in
  if negb (fc_ret f =? 0) then
    Ok (set (mkFctx 0 (fc_err f) None)
          (w_err_props (match fc_out f with Some p => tp_props p | None => props0 end)
             (w_cached_error (fc_ret f) d)), [])
  else
    match fc_out f with
    | Some p =>
      let d := set (mkFctx 0 (fc_err f) None) d in
      if shown s p && negb (tp_bad p) then
        let! d := put_out p d in Ok (d, [EvOut p])
      else Ok (d, [])
    | None => Ok (d, [])
    end.

(** cdf.c dav1d_cdf_thread_init_static: the default tables selected by the base
    quantizer; negative numbers identify them. *)
Definition static_cdf (q : Z) : Z :=
  -1 - (b2z (20 <? q) + b2z (60 <? q) + b2z (120 <? q)).

(** decode.c:3434-3447, the tests on one reference. *)
Definition ref_usable (sq : seq_hdr) (h : frame_hdr) (p : tpic) : bool :=
  let sz := fsz (f_refs h) in
  let rs := fsz (f_refs (tp_hdr p)) in
  has_data p &&
  negb ((width0 sz * 2 <? width1 rs) || (fheight sz * 2 <? fheight rs) ||
        (width1 rs * 16 <? width0 sz) || (fheight rs * 16 <? fheight sz) ||
        negb (layout (sh_color sq) =? layout (sh_color (tp_seq p))) ||
        negb (hbd (sh_color sq) =? hbd (sh_color (tp_seq p)))).

(** decode.c:3432-3472: the seven reference pictures, or None. *)
Fixpoint take_refs (d : dec) (sq : seq_hdr) (h : frame_hdr) (idx : list Z) : option (list tpic) :=
  match idx with
  | [] => Some []
  | i :: t =>
    match r_pic (slot_at d i) with
    | Some p => if ref_usable sq h p then
                  match take_refs d sq h t with Some l => Some (p :: l) | None => None end
                else None
    | None => None
    end
  end.

(** decode.c:3532,3533 f->bw, f->bh; the same rounding at 3566 and 3609. *)
Definition blk8 (x : Z) : Z := Z.shiftl (Z.shiftr (x + 7) 3) 1.

(** Same coded size in 8x8 blocks (decode.c:3566-3570, 3609-3611): width[0] of the
    reference's header and the height of its picture. *)
Definition same_blocks (h : frame_hdr) (p : tpic) : bool :=
  (blk8 (width0 (fsz (f_refs (tp_hdr p)))) =? blk8 (width0 (fsz (f_refs h)))) &&
  (blk8 (fheight (fsz (f_refs (tp_hdr p)))) =? blk8 (fheight (fsz (f_refs h)))).

(** decode.c:3563-3583 f->ref_mvs_ref. *)
Definition take_mvs (d : dec) (h : frame_hdr) (refp : list tpic) : list (option Z) :=
  if z2b (use_ref_frame_mvs (f_refs h)) then
    map (fun x => if same_blocks h (snd x) then r_refmvs (slot_at d (fst x)) else None)
      (combine (refidx (f_refs h)) refp)
  else repeat None 7.

(** decode.c:3594-3660: f->prev_segmap_ref, f->cur_segmap_ref. *)
Definition take_segmap (d : dec) (h : frame_hdr) (refp : list tpic) (id : Z)
  : outcome (option Z * option Z) :=
  let sg := f_seg h in
  if z2b (sg_enabled sg) then
    let pri := primary_ref_frame (f_pre h) in
    let! prev :=
      (if z2b (sg_temporal sg) || negb (z2b (sg_update_map sg)) then
         guard! negb (pri =? PRIMARY_REF_NONE) in
         match nth_error refp (Z.to_nat pri), nth_error (refidx (f_refs h)) (Z.to_nat pri) with
         | Some p, Some i => Ok (if same_blocks h p then r_segmap (slot_at d i) else None)
         | _, _ => Undef
         end
       else Ok None) in
    Ok (prev, if z2b (sg_update_map sg) then Some id
              else match prev with Some _ => prev | None => Some id end)
  else Ok (None, None).

(** decode.c:3713-3747 error path. *)
Definition submit_fail (s : settings) (i : nat) (m : props) (d : dec) : dec :=
  let d := if s_n_fc s =? 1 then w_out None d
           else w_fc (upd_nth (d_fc d) i (mkFctx (fc_ret (nth i (d_fc d) fctx0)) true None)) d in
  w_err_props m d.

(** picture.c:190-234 dav1d_thread_picture_alloc after a successful allocation:
    the new picture and the context. *)
Definition new_pic (s : settings) (sq : seq_hdr) (h : frame_hdr) (id : Z) (m : props) (bad : bool)
  (d : dec) : tpic :=
  let vis := z2b (show_frame (f_pre h)) in
  mkTpic h sq (Some id) m
    (if vis then d_cll d else None) (if vis then d_mdcv d else None) (if vis then d_itut d else [])
    (show_frame (f_pre h)) (showable_frame (f_pre h)) (d_frame_flags d) bad.
Definition pic_alloc_ctx (s : settings) (h : frame_hdr) (d : dec) : dec :=
  let vis := z2b (show_frame (f_pre h)) in
  let mask := if (vis || s_output_invisible s) && (d_max_sid d =? f_spatial_id h) then 0 else 3 in
  let d := w_frame_flags (Z.land (d_frame_flags d) mask) d in
  if vis then w_itut [] d else d.

(** decode.c:3326-3748.  [m] is c->in.m.  The result is the return value. *)
Definition submit_frame (o : oracle) (s : settings) (sq : seq_hdr) (h : frame_hdr) (m : props) (d : dec)
  : outcome (Z * dec * list ev) :=
  let i := d_next d in
  let! (d, evs) := (if s_n_fc s =? 1 then Ok (d, []) else ring_take s d) in
  let d := w_fhdr None d in
  let refuse r d := Ok (r, submit_fail s i m d, evs ++ [EvRefuse h r]) in
  let inter := is_inter_or_switch (frame_type (f_pre h)) in
  let pri := primary_ref_frame (f_pre h) in
  let pri_slot := slot_at d (nth (Z.to_nat pri) (refidx (f_refs h)) 0) in
  (* 3424-3431 *)
  if inter && negb (pri =? PRIMARY_REF_NONE) &&
     negb (match r_pic pri_slot with Some p => has_data p | None => false end)
  then refuse EINVAL_ d else
  match (if inter then take_refs d sq h (refidx (f_refs h)) else Some []) with
  | None => refuse EINVAL_ d
  | Some refp =>
    (* 3475-3480; referencing an empty CDF slot would be undefined *)
    let! in_cdf :=
      (if pri =? PRIMARY_REF_NONE then Ok (Some (static_cdf (yac (f_quant h))))
       else guard! (pri <? 7) && negb (is_none (r_cdf pri_slot)) in Ok (r_cdf pri_slot)) in
    (* 3486-3500 *)
    let tiles := d_tiles d in
    let id := d_jobs d in
    let d := w_jobs (id + 1) (w_tiles [] d) in
    match tiles with
    | [] => Undef                      (* f->tile[0] *)
    | t0 :: _ =>
      (* 3503-3511 *)
      if o_alloc o id sq h <? 0 then refuse (o_alloc o id sq h) d else
      let pic bad := new_pic s sq h id (tg_props t0) bad d in
      let d := pic_alloc_ctx s h d in
      let sz := fsz (f_refs h) in
      if negb (width0 sz =? width1 sz) && (o_alloc2 o id sq h <? 0)
      then refuse (o_alloc2 o id sq h) d else
      let mvs := if inter || z2b (allow_intrabc (f_refs h)) then Some id else None in
      let! (prev, cur) := take_segmap d h refp id in
      let j := mkJob id sq h tiles refp in_cdf
                 (if inter then take_mvs d h refp else repeat None 7) prev cur in
      let r := o_decode o j in
      let cdf := if z2b (refresh_context h) then Some id else in_cdf in
      let rmv := if z2b (allow_intrabc (f_refs h)) then None else mvs in
      let flags := refresh_frame_flags (f_refs h) in
      if s_n_fc s =? 1 then
        (* 3526-3530, 3686-3700 *)
        let p := pic false in
        let show := z2b (show_frame (f_pre h)) || s_output_invisible s in
        let! d := (if show then put_out p d else Ok d) in
        if dr_ret r <? 0 then
          let d := w_refs (refresh_slots 0 flags (fun _ => slot0) (d_refs d)) (w_out None d) in
          Ok (dr_ret r, submit_fail s i m d, evs ++ [EvSubmit j (dr_ret r)])
        else
          let d := w_refs (refresh_slots 0 flags (fun _ => mkSlot (Some p) cdf cur rmv) (d_refs d)) d in
          Ok (0, d, evs ++ EvSubmit j 0 :: (if show then [EvOut p] else []))
      else
        let p := pic (dr_bad r) in
        let d := w_fc (upd_nth (d_fc d) i (mkFctx (dr_ret r) (dr_err r) (Some p))) d in
        let d := w_refs (refresh_slots 0 flags (fun _ => mkSlot (Some p) cdf cur rmv) (d_refs d)) d in
        Ok (0, d, evs ++ [EvSubmit j 0])
    end
  end.

(** Model of the decoding API: /repo/src/lib.c:300-575.  The events record what the
    functions do; they have no effect on it.

    dav1d_get_picture returns a picture together with the information whether film
    grain was applied to it; applying film grain is [o_grain] (its picture
    allocation) and otherwise leaves the picture's description alone.  Packets are
    non-empty byte lists with their properties. *)
From Coq Require Import ZArith List Bool.
From Verif Require Import Base.CInt GetBits.Model Obu.SeqModel Obu.FrameModel Dec.State Dec.Submit
  Dec.ObuModel.
Import ListNotations.
Open Scope Z_scope.
Local Open Scope outcome_scope.

(** lib.c:300-307 has_grain. *)
Definition has_grain (p : tpic) : bool :=
  let g := f_fg (tp_hdr p) in
  negb (is_none (hd_error (fg_y_points g))) || negb (is_none (hd_error (fg_u_points g))) ||
  negb (is_none (hd_error (fg_v_points g))) ||
  (z2b (fg_clip_to_restricted_range g) && z2b (fg_csfl g)).

(** "only the highest spatial layer": lib.c:313, 325, 333. *)
Definition one_layer (s : settings) (d : dec) : bool := negb (s_all_layers s) && z2b (d_max_sid d).

(** A returned picture. *)
Record opic : Type := mkOpic { op_pic : tpic; op_grain : bool }.

(** The picture that output_image would take. *)
Definition source (s : settings) (d : dec) : option tpic := if one_layer s d then d_cache d else d_out d.
Definition take_ev (s : settings) (d : dec) : list ev := match source s d with Some p => [EvTake p] | None => [] end.

(** lib.c:309-329 output_image: return value, picture, context.  An empty source
    picture would be dereferenced by has_grain when apply_grain is set. *)
Definition output_image (o : oracle) (s : settings) (d : dec) : outcome (Z * option opic * dec) :=
  match source s d with
  | None => Undef
  | Some p =>
    let '(r, out) :=
      if negb (s_apply_grain s) || negb (has_grain p) then (0, Some (mkOpic p false))
      else if o_grain o p <? 0 then (o_grain o p, None) else (0, Some (mkOpic p true)) in
    let d := if one_layer s d then w_out None (w_cache (d_out d) d) else w_out None d in
    Ok (r, out, d)
  end.

(** lib.c:331-350 output_picture_ready. *)
Definition output_picture_ready (s : settings) (drain : bool) (d : dec) : bool * dec :=
  if negb (d_cached_error d =? 0) then (true, d) else
  if one_layer s d then
    match d_out d, d_cache d with
    | Some p, Some q =>
      if (d_max_sid d =? f_spatial_id (tp_hdr q)) || z2b (Z.land (tp_flags p) PF_NEW_TEMPORAL_UNIT)
      then (true, d)
      else (false, w_out None (w_cache (Some p) d))
    | None, Some _ => (drain, d)
    | Some p, None => (false, w_out None (w_cache (Some p) d))
    | None, None => (false, d)
    end
  else (negb (is_none (d_out d)), d).

(** lib.c:352-406 drain_picture. *)
Definition drain_end (o : oracle) (s : settings) (d : dec) (evs : list ev)
  : outcome (Z * option opic * dec * list ev) :=
  let '(rdy, d) := output_picture_ready s true d in
  let evs := evs ++ [EvCut] in
  if rdy then let! (r, p, d') := output_image o s d in Ok (r, p, d', evs ++ take_ev s d)
  else Ok (EAGAIN_, None, d, evs).
Fixpoint drain_loop (n : nat) (o : oracle) (s : settings) (drained : bool) (d : dec) (evs : list ev)
  : outcome (Z * option opic * dec * list ev) :=
  match n with
  | O => drain_end o s d evs
  | S n =>
    let i := d_next d in
    guard! (i <? length (d_fc d))%nat in
    let f := nth i (d_fc d) fctx0 in
    let busy := negb (is_none (fc_out f)) || fc_err f in
    if negb busy && drained then drain_end o s d evs else
    let drained := drained || busy in
    let d := w_next (ring_next s d) d in
    let set f d := w_fc (upd_nth (d_fc d) i f) d in
    if negb (fc_ret f =? 0) then
      Ok (fc_ret f, None,
          set (mkFctx 0 (fc_err f) None)
            (w_err_props (match fc_out f with Some p => tp_props p | None => props0 end) d), evs ++ [EvErr (fc_ret f)])
    else
      match fc_out f with
      | None => drain_loop n o s drained d evs
      | Some p =>
        let d := set (mkFctx 0 (fc_err f) None) d in
        let! (d, evs) :=
          (if shown s p && negb (tp_bad p) then let! d := put_out p d in Ok (d, evs ++ [EvOut p])
           else Ok (d, evs)) in
        let '(rdy, d) := output_picture_ready s false d in
        if rdy then let! (r, p, d') := output_image o s d in Ok (r, p, d', evs ++ take_ev s d)
        else drain_loop n o s drained d evs
      end
  end.
Definition drain_picture (o : oracle) (s : settings) (d : dec)
  : outcome (Z * option opic * dec * list ev) :=
  drain_loop (Z.to_nat (s_n_fc s)) o s false d [].

(** lib.c:415-430 the loop of gen_picture; one iteration per byte at most. *)
Fixpoint gen_loop (fuel : nat) (o : oracle) (s : settings) (d : dec) (evs : list ev)
  : outcome (Z * dec * list ev) :=
  match d_in d with
  | None => Ok (0, d, evs)
  | Some (buf, m) =>
    match fuel with
    | O => Undef
    | S fuel =>
      let! (r, d, e) := parse_obus o s buf m d in
      let evs := evs ++ EvParse buf m r (d_max_sid d) :: e in
      let! d :=
        (if r <? 0 then Ok (w_in None d)
         else guard! r <=? zlen buf in                       (* assert *)
              Ok (w_in (if r =? zlen buf then None else Some (skipn (Z.to_nat r) buf, m)) d)) in
      let '(rdy, d) := output_picture_ready s false d in
      if rdy then Ok (0, d, evs)
      else if r <? 0 then Ok (r, d, evs)
      else gen_loop fuel o s d evs
    end
  end.
(** lib.c:408-432 gen_picture. *)
Definition gen_picture (o : oracle) (s : settings) (d : dec) : outcome (Z * dec * list ev) :=
  let '(rdy, d) := output_picture_ready s false d in
  if rdy then Ok (0, d, [])
  else gen_loop (match d_in d with Some (buf, _) => length buf | None => O end) o s d [].

(** lib.c:434-453 dav1d_send_data.  [None] is a Dav1dData without data.  The
    boolean result is whether the caller's Dav1dData was consumed. *)
Definition send_data (o : oracle) (s : settings) (pkt : option (list Z * props)) (d : dec)
  : outcome (Z * bool * dec * list ev) :=
  if match pkt with Some (buf, _) => zlen buf =? 0 | None => false end
  then Ok (EINVAL_, false, d, [])
  else
    let d := match pkt with Some _ => w_drain false d | None => d end in
    match d_in d with
    | Some _ => Ok (EAGAIN_, false, d, [])
    | None =>
      let! (r, d, e) := gen_picture o s (w_in pkt d) in
      Ok (r, r =? 0, d, match pkt with Some (buf, m) => [EvIn buf m] | None => [] end ++ e)
    end.

(** lib.c:455-483 dav1d_get_picture. *)
Definition get_picture (o : oracle) (s : settings) (d : dec) : outcome (Z * option opic * dec * list ev) :=
  let drain := d_drain d in
  let! (r, d, e) := gen_picture o s (w_drain true d) in
  if r <? 0 then Ok (r, None, d, e) else
  if negb (d_cached_error d =? 0) then Ok (d_cached_error d, None, w_cached_error 0 d, e ++ [EvErr (d_cached_error d)]) else
  let e := if (s_n_fc s =? 1) && is_none (d_out d) then e ++ [EvCut] else e in
  let '(rdy, d) := output_picture_ready s (s_n_fc s =? 1) d in
  if rdy then let! (r, p, d') := output_image o s d in Ok (r, p, d', e ++ take_ev s d)
  else if negb (s_n_fc s =? 1) && drain then
    let! (r, p, d, e2) := drain_picture o s d in Ok (r, p, d, e ++ e2)
  else Ok (EAGAIN_, None, d, e).

(** lib.c:522-602 dav1d_flush. *)
Definition flush (s : settings) (d : dec) : dec :=
  let d := w_in None (w_out None (w_cache None (w_drain false (w_cached_error 0 d)))) in
  let d := w_refs (repeat slot0 8) (w_fhdr None (w_seq None d)) in
  let d := w_mdcv None (w_cll None (w_itut [] (w_err_props props0 d))) in
  if s_n_fc s =? 1 then d else w_next O (w_fc (repeat fctx0 (length (d_fc d))) d).

(** lib.c dav1d_get_event_flags and dav1d_get_decode_error_data_props. *)
Definition get_event_flags (d : dec) : Z * dec := (d_event_flags d, w_event_flags 0 d).
Definition get_decode_error_data_props (d : dec) : props * dec := (d_err_props d, w_err_props props0 d).

(** Model of segment id decoding: /repo/src/decode.c:169-189, 494-512, 815-948
    and /repo/src/env.h:440-461. *)
From Coq Require Import ZArith List Bool.
From Verif Require Import Base.CInt.
Import ListNotations.
Open Scope Z_scope.
Local Open Scope outcome_scope.

(** decode.c:169-189 neg_deinterleave, on ints. *)
Definition neg_deinterleave (diff ref max : Z) : Z :=
  if ref =? 0 then diff
  else if max - 1 <=? ref then max - diff - 1
  else if 2 * ref <? max then
    if diff <=? 2 * ref then
      if z2b (Z.land diff 1) then ref + Z.shiftr (diff + 1) 1 else ref - Z.shiftr diff 1
    else diff
  else
    if diff <=? 2 * (max - ref - 1) then
      if z2b (Z.land diff 1) then ref + Z.shiftr (diff + 1) 1 else ref - Z.shiftr diff 1
    else max - (diff + 1).

(** decode.c:852-859 and 928-935: an explicitly coded id.  [diff], [pred] and
    last_active_seg_id are unsigned (an int8_t -1 becomes UINT_MAX), the
    arguments are converted to int, b->seg_id is a uint8_t. *)
Definition coded_seg_id (diff pred last : Z) : Z :=
  let last := u32 last in
  let id := u8 (neg_deinterleave (s32 diff) (s32 pred) (s32 (u32 (last + 1)))) in
  let id := if last <? id then 0 else id in
  if 8 <=? id then 0 else id.

(** env.h:440-461 get_cur_frame_segid.  [map] is cur_segmap, row by row;
    the result is (predicted id, seg_ctx). *)
Definition cur_segid (by_ bx : Z) (have_top have_left : bool) (map : list Z) (stride : Z)
  : outcome (Z * Z) :=
  let p := bx + by_ * stride in
  if have_left && have_top then
    let! l := rd_at map (p - 1) in
    let! a := rd_at map (p - stride) in
    let! al := rd_at map (p - (stride + 1)) in
    let ctx := if (l =? a) && (al =? l) then 2
               else if (l =? a) || (al =? l) || (a =? al) then 1 else 0 in
    Ok (if a =? al then a else l, ctx)
  else if have_left then let! l := rd_at map (p - 1) in Ok (l, 0)
  else if have_top then let! a := rd_at map (p - stride) in Ok (a, 0)
  else Ok (0, 0).

(** decode.c:494-512 get_prev_frame_segid: minimum over the block, stopping after a
    row once it is 0.  The row loop is a do-while: [h4] counts the rows left after
    the current one. *)
Fixpoint min_row (w : nat) (map : list Z) (p acc : Z) : outcome Z :=
  match w with
  | O => Ok acc
  | S w => let! v := rd_at map p in min_row w map (p + 1) (Z.min acc v)
  end.
Fixpoint min_rows (h : nat) (w4 stride : Z) (map : list Z) (p acc : Z) : outcome Z :=
  let! acc := min_row (Z.to_nat w4) map p acc in
  match h with
  | O => Ok acc
  | S h => if negb (acc =? 0) then min_rows h w4 stride map (p + stride) acc else Ok acc
  end.
Definition prev_segid (by_ bx w4 h4 : Z) (map : list Z) (stride : Z) : outcome Z :=
  let! id := min_rows (Z.to_nat (h4 - 1)) w4 stride map (by_ * stride + bx) 8 in
  guard! id <? 8 in Ok id.

(** The segmentation parameters of the frame header used here. *)
Record segcfg : Type := mkSegcfg {
  g_enabled : bool; g_update_map : bool; g_temporal : bool; g_preskip : bool; g_last : Z }.
(** decode.c:818-831, 838-847, 913-922: the id taken from the previous map, 0 without one. *)
Definition from_prev (by_ bx w4 h4 : Z) (prev : option (list Z)) (stride : Z) : outcome Z :=
  match prev with Some map => prev_segid by_ bx w4 h4 map stride | None => Ok 0 end.

(** decode.c:815-871 before the skip flag is known: None is "not decided yet".
    [sp] is the decoded seg_pred flag and [diff] the decoded symbol, if read. *)
Definition seg_id_preskip (g : segcfg) (by_ bx w4 h4 : Z) (have_top have_left : bool)
  (cur : list Z) (prev : option (list Z)) (stride : Z) (sp : bool) (diff : Z) : outcome (option Z) :=
  if g_enabled g then
    if negb (g_update_map g) then
      let! id := from_prev by_ bx w4 h4 prev stride in Ok (Some id)
    else if g_preskip g then
      if g_temporal g && sp then let! id := from_prev by_ bx w4 h4 prev stride in Ok (Some id)
      else
        let! (pred, _) := cur_segid by_ bx have_top have_left cur stride in
        Ok (Some (coded_seg_id diff pred (g_last g)))
    else Ok None
  else Ok (Some 0).
(** decode.c:896-948 after the skip flag. *)
Definition seg_id_postskip (g : segcfg) (by_ bx w4 h4 : Z) (have_top have_left : bool)
  (cur : list Z) (prev : option (list Z)) (stride : Z) (skip sp : bool) (diff : Z) : outcome Z :=
  if negb skip && g_temporal g && sp then from_prev by_ bx w4 h4 prev stride
  else
    let! (pred, _) := cur_segid by_ bx have_top have_left cur stride in
    if skip then Ok (if 8 <=? u8 pred then 0 else u8 pred)
    else Ok (coded_seg_id diff pred (g_last g)).
Definition seg_id (g : segcfg) (by_ bx w4 h4 : Z) (have_top have_left : bool)
  (cur : list Z) (prev : option (list Z)) (stride : Z) (skip sp : bool) (diff : Z) : outcome Z :=
  let! r := seg_id_preskip g by_ bx w4 h4 have_top have_left cur prev stride sp diff in
  match r with
  | Some id => Ok id
  | None => seg_id_postskip g by_ bx w4 h4 have_top have_left cur prev stride skip sp diff
  end.

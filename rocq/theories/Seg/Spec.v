(** Segment ids, from the AV1 specification 5.11.8, 5.11.9, 5.11.19, 5.11.21 and 7.
    A segmentation map is a function of row and column. *)
From Coq Require Import ZArith List Bool.
Open Scope Z_scope.

(** 5.11.9: the ids coded by 0, 1, 2, … for prediction [r] and [m] legal ids are
    r, r+1, r-1, r+2, r-2, … as long as both neighbours are legal ids, and then the
    remaining ids in order of their distance from r. *)
Definition Clip3 (lo hi x : Z) : Z := if x <? lo then lo else if hi <? x then hi else x.
Definition deinterleave (diff r m : Z) : Z :=
  if r =? 0 then diff
  else if r >=? m - 1 then m - diff - 1
  else
    let zigzag := if Z.odd diff then r + (diff + 1) / 2 else r - diff / 2 in
    if 2 * r <? m then if diff <=? 2 * r then zigzag else diff
    else if diff <=? 2 * (m - r - 1) then zigzag else m - (diff + 1).
(** 5.11.9 read_segment_id, the part after reading the symbol. *)
Definition spec_coded (diff pred last : Z) : Z :=
  Clip3 0 last (deinterleave diff pred (last + 1)).

Definition smap : Type := Z -> Z -> Z.
(** 5.11.9 prediction and 8.3.2 context; -1 is "not available". *)
Definition spec_pred (prevUL prevU prevL : Z) : Z :=
  if prevU =? -1 then if prevL =? -1 then 0 else prevL
  else if prevL =? -1 then prevU
  else if prevUL =? prevU then prevU else prevL.
Definition spec_ctx (prevUL prevU prevL : Z) : Z :=
  if prevUL <? 0 then 0
  else if (prevUL =? prevU) && (prevUL =? prevL) then 2
  else if (prevUL =? prevU) || (prevUL =? prevL) || (prevU =? prevL) then 1
  else 0.
(** 5.11.21 get_segment_id: [m] is the smallest id of the block. *)
Definition smallest (map : smap) (row col h w m : Z) : Prop :=
  (exists y x, 0 <= y < h /\ 0 <= x < w /\ map (row + y) (col + x) = m) /\
  (forall y x, 0 <= y < h -> 0 <= x < w -> m <= map (row + y) (col + x)).

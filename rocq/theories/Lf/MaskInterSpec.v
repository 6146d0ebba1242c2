(** The transform sizes of the luma of an inter block, written from the AV1 specification (read_var_tx_size,
    Split_Tx_Size): the size of the transform at a position is found by descending the tree of splits. Sizes are
    logarithms, in units of four samples; [split depth i j] is txfm_split of the transform in row [i], column [j] of
    the transforms of that depth. *)
From Coq Require Import ZArith Bool.
Open Scope Z_scope.

(** Split_Tx_Size: the longer side is halved, or both when they are equal *)
Definition split_w (lw lh : Z) : Z := if lh <=? lw then lw - 1 else lw.
Definition split_h (lw lh : Z) : Z := if lw <=? lh then lh - 1 else lh.
(** The width and height of the transform at row [r], column [c] of a transform of size [lw], [lh] *)
Fixpoint tx_size (levels : nat) (split : Z -> Z -> Z -> bool) (depth lw lh i j r c : Z) : Z * Z :=
  match levels with
  | O => (lw, lh)
  | S n =>
    if (lw =? 0) && (lh =? 0) then (lw, lh)
    else if split depth i j then
      let sw := split_w lw lh in let sh := split_h lw lh in
      let dr := r / 2 ^ sh in let dc := c / 2 ^ sw in
      tx_size n split (depth + 1) sw sh (2 * i + dr) (2 * j + dc) (r - dr * 2 ^ sh) (c - dc * 2 ^ sw)
    else (lw, lh)
  end.
(** In a block whose largest transforms have size [lw], [lh]; MAX_VARTX_DEPTH is 2 *)
Definition block_tx (split : Z -> Z -> Z -> bool) (lw lh r c : Z) : Z * Z :=
  tx_size 2 split 0 lw lh (r / 2 ^ lh) (c / 2 ^ lw) (r mod 2 ^ lh) (c mod 2 ^ lw).

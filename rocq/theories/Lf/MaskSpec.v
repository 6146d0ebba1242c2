(** Which edges the loop filter of the AV1 specification filters, and how (7.14.2, 7.14.3), written from the
    specification alone. Positions and sizes are in units of four samples of the plane, in the direction across
    the edge. *)
From Coq Require Import ZArith Bool.
Open Scope Z_scope.

(** 7.14.3: from the transform sizes on both sides of the edge, in samples *)
Definition filter_size (plane txSize prevTxSize : Z) : Z :=
  let baseSize := Z.min txSize prevTxSize in
  if plane =? 0 then Z.min 16 baseSize else Z.min 8 baseSize.
(** 7.14.2: an edge at position [pos], between a transform of size [prevTx] and one of size [tx] in a block of size [block] *)
Definition edge (plane pos tx block prevTx : Z) (skip isIntra : bool) : option Z :=
  let isTxEdge := pos mod tx =? 0 in
  let isBlockEdge := pos mod block =? 0 in
  if isTxEdge && (isBlockEdge || negb skip || isIntra) then Some (filter_size plane (4 * tx) (4 * prevTx)) else None.

(** The syntax of the tile data in a tile group: AV1 specification 5.11.1
    (tile_group_obu, from tile_size_minus_1 on) and 4.10.4 (le(n)). *)
From Coq Require Import ZArith List.
Import ListNotations.
Open Scope Z_scope.

(** le(n): least significant byte first *)
Fixpoint le (l : list Z) : Z := match l with [] => 0 | b :: l => b + 256 * le l end.

(** [tiles_of nb k p ts]: the payload [p] holds [k] tiles [ts]; every tile but the
    last is preceded by its size minus one in [nb] bytes, the last takes what is left *)
Inductive tiles_of (nb : nat) : nat -> list Z -> list (list Z) -> Prop :=
| T_last : forall p, tiles_of nb 1 p [p]
| T_more : forall k size_bytes t rest ts,
    length size_bytes = nb -> Z.of_nat (length t) = le size_bytes + 1 -> tiles_of nb (S k) rest ts ->
    tiles_of nb (S (S k)) (size_bytes ++ t ++ rest) (t :: ts).

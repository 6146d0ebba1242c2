(** Model of how the tile groups of a frame are divided into tiles:
    /repo/src/decode.c:3141-3197 dav1d_decode_frame_init_cdf.

    Left out: the contents of the tile state other than the tile's data, row and
    column; the copying of the CDFs; the reset of the above contexts. The data of a
    tile group is a list of bytes, a pointer into it a position. *)
From Coq Require Import ZArith List Bool.
From Verif Require Import Base.CInt Dec.State.
Import ListNotations.
Open Scope Z_scope.
Open Scope outcome_scope.

(** what setup_tile (decode.c:2427) gets: index into f->ts, data pointer (tile group
    and position) and size, row, column *)
Record tile : Type := mkTile { ti_idx : Z; ti_grp : Z; ti_pos : Z; ti_sz : Z; ti_row : Z; ti_col : Z }.

Section FRAME.
Variables (n_bytes cols n_ts update : Z) (refresh_context : bool).
(** the sizes of f->ts (and tile_start_off), and of col_start_sb and row_start_sb in
    the header (include/dav1d/headers.h:331-332) *)
Definition MAX_TILES : Z := 64.

(** :3165-3167: [k] bytes remain; the bytes are shifted by [sh] bits *)
Fixpoint read_size (data : list Z) (pos : Z) (k : nat) (sh acc : Z) : outcome Z :=
  match k with
  | O => Ok acc
  | S k =>
    let! b := rd_at data pos in
    guard! (sh <? 32) in
    read_size data (pos + 1) k (sh + 8) (Z.lor acc (u32 (Z.shiftl b sh)))
  end.

Record st : Type := mkSt { s_row : Z; s_col : Z; s_upd : bool; s_out : list tile }.

(** :3171-3182 *)
Definition one_tile (g j : Z) (pos tile_sz : Z) (s : st) : outcome st :=
  guard! ((0 <=? j) && (j <? n_ts)) in
  guard! ((0 <=? s_col s) && (s_col s <? MAX_TILES) && (0 <=? s_row s) && (s_row s <? MAX_TILES)) in
  let col := s_col s + 1 in
  Ok (mkSt (if col =? cols then s_row s + 1 else s_row s) (if col =? cols then 0 else col)
           (s_upd s || ((j =? update) && refresh_context))
           (s_out s ++ [mkTile j g pos tile_sz (s_row s) (s_col s)])).

(** :3158-3186 the tiles [j]..[last] of group [g]; [None]: goto error *)
Fixpoint group (n : nat) (g : Z) (data : list Z) (last j pos size : Z) (s : st) : outcome (option st) :=
  if last <? j then Ok (Some s) else
  match n with
  | O => Undef
  | S n =>
    if j =? last then
      let tile_sz := size in
      let! s := one_tile g j pos tile_sz s in
      group n g data last (j + 1) (pos + tile_sz) (u64 (size - tile_sz)) s
    else
      if size <? n_bytes then Ok None else
      let! sz := read_size data pos (Z.to_nat n_bytes) 0 0 in
      let pos := pos + n_bytes in
      let tile_sz := u64 (sz + 1) in
      let size := u64 (size - n_bytes) in
      if size <? tile_sz then Ok None else
      let! s := one_tile g j pos tile_sz s in
      group n g data last (j + 1) (pos + tile_sz) (u64 (size - tile_sz)) s
  end.

(** :3153-3187 *)
Fixpoint groups (g : Z) (l : list tgrp) (s : st) : outcome (option st) :=
  match l with
  | [] => Ok (Some s)
  | t :: l =>
    let! r := group (Z.to_nat (tg_end t - tg_start t + 1)) g (tg_data t) (tg_end t) (tg_start t) 0 (zlen (tg_data t)) s in
    match r with
    | None => Ok None
    | Some s => groups (g + 1) l s
    end
  end.
Definition init_cdf (l : list tgrp) : outcome (option st) := groups 0 l (mkSt 0 0 false []).
End FRAME.

(** the bytes a tile decoder is given *)
Definition tile_bytes (l : list tgrp) (t : tile) : list Z :=
  match nth_error l (Z.to_nat (ti_grp t)) with
  | Some g => firstn (Z.to_nat (ti_sz t)) (skipn (Z.to_nat (ti_pos t)) (tg_data g))
  | None => []
  end.

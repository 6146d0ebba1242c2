(** Model of the loops of dav1d_loopfilter_sbrow_cols (src/lf_apply_tmpl.c) that correct the masks at the boundaries of
    tile columns and tile rows; the correction of one line is in Lf/MaskModel.v.

    Simplifications:
    - the code corrects luma and chroma in the same loop; the masks of each are corrected on their own here, with [fix]
      the correction of one line, and [ss_hor], [ss_ver] zero for luma;
    - lflvl is a function from the position of the 128x128 block in the row to the masks of one direction; an access has to
      be inside of the row, which has [nsb] blocks;
    - lpf_y and lpf_uv are positions in tx_lpf_right_edge, which has [nlpf] elements; a[x].tx_lpf_y is [ctx x], of [nctx]
      elements. *)
From Coq Require Import ZArith List Bool.
From Verif Require Import Base.CInt Base.Loop Lf.Model Lf.MaskModel.
Import ListNotations.
Open Scope Z_scope.
Local Open Scope outcome_scope.

Definition row_masks : Type := Z -> masks.
Definition at_sb (nsb : Z) (ms : row_masks) (x : Z) (f : masks -> outcome masks) : outcome row_masks :=
  guard! (0 <=? x) && (x <? nsb) in
  let! m := f (ms x) in Ok (fun x' => if x' =? x then m else ms x').
(** The correction of the elements [lo] to [hi] of line [x]: x lo hi nlpf lpf m *)
Definition fixer : Type := Z -> Z -> Z -> Z -> arr -> masks -> outcome masks.

(** lines 331-366; col_start_sb has [DAV1D_MAX_TILE_COLS] + 1 elements *)
Definition MAX_TILE_COLS : Z := 64.
Fixpoint tile_cols_loop (k : nat) (fix_ : fixer) (nsb bw is_sb64 sbl2 ss_hor halign lo hi nlpf : Z) (col_start_sb lpf : arr) (pos tile_col : Z) (ms : row_masks) : outcome row_masks :=
  match k with
  | O => Undef
  | S k =>
    let! x := rd1 (MAX_TILE_COLS + 1) col_start_sb tile_col in
    if Z.shiftl x sbl2 >=? bw then Ok ms
    else
      let bx4 := if Z.land x is_sb64 =? 0 then 0 else 16 in let cbx4 := Z.shiftr bx4 ss_hor in
      let! ms := at_sb nsb ms (Z.shiftr x is_sb64) (fix_ cbx4 lo hi (nlpf - pos) (fun i => lpf (pos + i))) in
      tile_cols_loop k fix_ nsb bw is_sb64 sbl2 ss_hor halign lo hi nlpf col_start_sb lpf (pos + halign) (tile_col + 1) ms
  end.
(** lines 317-332 *)
Definition tile_cols (fix_ : fixer) (nsb bw bh h4 is_sb64 sby ss_hor ss_ver nlpf : Z) (col_start_sb lpf : arr) (ms : row_masks) : outcome row_masks :=
  let starty4 := Z.shiftl (Z.land sby is_sb64) 4 in
  let sbsz := Z.shiftr 32 is_sb64 in
  let sbl2 := 5 - is_sb64 in
  let halign := Z.land (bh + 31) (Z.lnot 31) in
  let endy4 := starty4 + Z.min (h4 - sby * sbsz) sbsz in
  tile_cols_loop 65 fix_ nsb bw is_sb64 sbl2 ss_hor (Z.shiftr halign ss_ver) (Z.shiftr starty4 ss_ver) (Z.shiftr (endy4 + ss_ver) ss_ver) nlpf col_start_sb lpf (Z.shiftl sby (sbl2 - ss_ver)) 1 ms.
(** lines 369-403 *)
Definition tile_rows (fix_ : fixer) (nsb w4 is_sb64 sby ss_hor ss_ver nctx : Z) (ctx : Z -> arr) (ms : row_masks) : outcome row_masks :=
  let starty4 := Z.shiftl (Z.land sby is_sb64) 4 in
  for_ 0 nsb (fun x ms =>
    let w := u32 (Z.min 32 (w4 - Z.shiftl x 5)) in
    let cw := Z.shiftr (w + ss_hor) ss_hor in
    at_sb nsb ms x (fix_ (Z.shiftr starty4 ss_ver) 0 cw nctx (ctx x))) ms.

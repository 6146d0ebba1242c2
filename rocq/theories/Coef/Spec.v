(** The coefficient syntax of the AV1 specification: coeffs() (section 5.11.39),
    transform_type() (5.11.47), compute_tx_type() (5.11.40) and get_tx_set(), the
    selection of the probability tables (8.3.2) and the dequantisation (7.12.3),
    written independently of the code. *)
From Coq Require Import ZArith List Bool.
From Verif Require Import Itx.Spec2d Coef.Prog.
Import ListNotations.
Open Scope Z_scope.
Open Scope prog_scope.

(** The syntax elements, each with what selects its probability table. *)
Inductive element : Type :=
| all_zero (txSzCtx ctx : Z)
| intra_tx_type (set txSzSqr intraDir : Z)
| inter_tx_type (set txSzSqr : Z)
| eob_pt (eobMultisize ptype ctx : Z)         (* eob_pt_16 .. eob_pt_1024 *)
| eob_extra (txSzCtx ptype i : Z)
| coeff_base_eob (txSzCtx ptype ctx : Z)
| coeff_base (txSzCtx ptype ctx : Z)
| coeff_br (txSzCtx ptype ctx : Z)
| dc_sign (ptype ctx : Z)
| literal.                                    (* L(1) *)
Definition Sp := prog element.

(** What the syntax depends on.  [above] and [left]: the level and DC contexts of the
    4x4 blocks over and beside the transform block; [None]: outside the frame. *)
Record info : Type := mkInfo {
  i_lossless : bool; i_tx : nat; i_plane : Z; i_is_inter : bool; i_reduced : bool;
  i_qidx : Z;                                 (* get_qidx( 1, segment_id ) *)
  i_YMode : Z;
  i_filter_intra : option Z;                  (* filter_intra_mode if use_filter_intra *)
  i_uvMode : Z;
  i_lumaType : nat;                           (* TxTypes at the place of a chroma block *)
  i_bw4log2 : nat; i_bh4log2 : nat;           (* size of the block: 4 << these *)
  i_subX : bool; i_subY : bool;               (* subsampling_x, subsampling_y *)
  i_dc_q : Z; i_ac_q : Z;                     (* get_dc_quant, get_ac_quant *)
  i_qm : option (nat -> Z);                   (* the quantizer matrix if used, by position *)
  i_BitDepth : Z;
  i_above : list (option (Z * Z)); i_left : list (option (Z * Z))
}.

Section SPEC.
Variable I : info.
Let tx := i_tx I.

Definition Tx_Size_Sqr : Z := Z.of_nat (Nat.min (log2w tx) (log2h tx)) - 2.
Definition Tx_Size_Sqr_Up : Z := Z.of_nat (Nat.max (log2w tx) (log2h tx)) - 2.
Definition TX_16 : Z := 2. Definition TX_32 : Z := 3.
Definition txSzCtx : Z := (Tx_Size_Sqr + Tx_Size_Sqr_Up + 1) / 2.
Definition ptype : Z := if 0 <? i_plane I then 1 else 0.

(** ** Transform type *)
Definition TX_SET_DCTONLY : Z := 0. Definition TX_SET_1 : Z := 1. Definition TX_SET_2 : Z := 2. Definition TX_SET_3 : Z := 3.
Definition get_tx_set : Z :=
  if TX_32 <? Tx_Size_Sqr_Up then TX_SET_DCTONLY
  else if i_is_inter I then
    if i_reduced I || (Tx_Size_Sqr_Up =? TX_32) then TX_SET_3
    else if Tx_Size_Sqr =? TX_16 then TX_SET_2 else TX_SET_1
  else
    if Tx_Size_Sqr_Up =? TX_32 then TX_SET_DCTONLY
    else if i_reduced I then TX_SET_2
    else if Tx_Size_Sqr =? TX_16 then TX_SET_2 else TX_SET_1.
(** Tx_Type_Intra_Inv_Set1 etc.; the types are numbered DCT_DCT = 0, ADST_DCT,
    DCT_ADST, ADST_ADST, FLIPADST_DCT, DCT_FLIPADST, FLIPADST_FLIPADST,
    ADST_FLIPADST, FLIPADST_ADST, IDTX = 9, V_DCT, H_DCT, V_ADST, H_ADST,
    V_FLIPADST, H_FLIPADST *)
Definition inv_set (inter : bool) (set : Z) : list nat :=
  if inter then
    if set =? 1 then [9; 10; 11; 12; 13; 14; 15; 0; 1; 2; 4; 5; 3; 6; 7; 8]%nat
    else if set =? 2 then [9; 10; 11; 0; 1; 2; 4; 5; 3; 6; 7; 8]%nat
    else if set =? 3 then [9; 0]%nat else [0%nat]
  else
    if set =? 1 then [9; 0; 10; 11; 3; 1; 2]%nat
    else if set =? 2 then [9; 0; 3; 1; 2]%nat else [0%nat].
Definition is_tx_type_in_set (ty : nat) : bool := existsb (Nat.eqb ty) (inv_set (i_is_inter I) get_tx_set).
Definition intraDir : Z :=
  match i_filter_intra I with
  | Some m => nth (Z.to_nat m) [0; 1; 2; 6; 0] 0   (* Filter_Intra_Mode_To_Intra_Dir *)
  | None => i_YMode I
  end.
(** transform_type *)
Definition transform_type : Sp nat :=
  let set := get_tx_set in
  if (0 <? set) && (0 <? i_qidx I) then
    let l := inv_set (i_is_inter I) set in
    let* v := read (if i_is_inter I then inter_tx_type set Tx_Size_Sqr else intra_tx_type set Tx_Size_Sqr intraDir)
                   (Z.of_nat (length l) - 1) in
    Ret (nth (Z.to_nat v) l 0%nat)
  else Ret 0%nat.
(** Mode_To_Txfm for the modes DC, V, H, D45, D135, D113, D157, D203, D67, SMOOTH,
    SMOOTH_V, SMOOTH_H, PAETH, UV_CFL *)
Definition Mode_To_Txfm : list nat := [0; 1; 2; 0; 3; 1; 2; 2; 1; 3; 1; 2; 3; 0]%nat.
(** compute_tx_type for chroma *)
Definition chroma_tx_type : nat :=
  if TX_32 <? Tx_Size_Sqr_Up then 0%nat
  else
    let ty := if i_is_inter I then i_lumaType I else nth (Z.to_nat (i_uvMode I)) Mode_To_Txfm 0%nat in
    if is_tx_type_in_set ty then ty else 0%nat.
(** PlaneTxType; for lossless blocks DCT_DCT stands for the Walsh-Hadamard transform *)
Definition PlaneTxType : Sp nat :=
  if i_lossless I then Ret 0%nat
  else if i_plane I =? 0 then transform_type else Ret chroma_tx_type.

Inductive class := TX_CLASS_2D | TX_CLASS_HORIZ | TX_CLASS_VERT.
Definition get_tx_class (ty : nat) : class :=
  match ty with
  | 10 | 12 | 14 => TX_CLASS_VERT
  | 11 | 13 | 15 => TX_CLASS_HORIZ
  | _ => TX_CLASS_2D
  end%nat.

(** ** Contexts *)
(** Adjusted_Tx_Size *)
Definition tw : nat := scan_w tx.
Definition th : nat := scan_h tx.

Definition here (c : option (Z * Z)) : Z * Z := match c with Some p => p | None => (0, 0) end.
Definition maxlevel (l : list (option (Z * Z))) : Z := fold_right (fun c m => Z.max (fst (here c)) m) 0 l.
Definition anyset (l : list (option (Z * Z))) : Z :=
  fold_right (fun c m => Z.lor (Z.lor (fst (here c)) (snd (here c))) m) 0 l.
(** get_plane_residual_size; no block has a side less than 4 *)
Definition bw : Z :=
  let w := 4 * 2 ^ Z.of_nat (i_bw4log2 I) in if (0 <? i_plane I) && i_subX I then Z.max 4 (w / 2) else w.
Definition bh : Z :=
  let h := 4 * 2 ^ Z.of_nat (i_bh4log2 I) in if (0 <? i_plane I) && i_subY I then Z.max 4 (h / 2) else h.
Definition all_zero_ctx : Z :=
  let w := Z.of_nat (width tx) in let h := Z.of_nat (height tx) in
  if i_plane I =? 0 then
    let top := maxlevel (i_above I) in let left := maxlevel (i_left I) in
    if (bw =? w) && (bh =? h) then 0
    else if (top =? 0) && (left =? 0) then 1
    else if (top =? 0) || (left =? 0) then 2 + (if 3 <? Z.max top left then 1 else 0)
    else if Z.max top left <=? 3 then 4
    else if Z.min top left <=? 3 then 5 else 6
  else
    7 + (if anyset (i_above I) =? 0 then 0 else 1) + (if anyset (i_left I) =? 0 then 0 else 1) +
    (if w * h <? bw * bh then 3 else 0).
(** DC contexts: 1 for negative, 2 for positive *)
Definition dcSign (l : list (option (Z * Z))) : Z :=
  fold_right (fun c m => (if snd (here c) =? 1 then -1 else if snd (here c) =? 2 then 1 else 0) + m) 0 l.
Definition dc_sign_ctx : Z :=
  let s := dcSign (i_above I) + dcSign (i_left I) in
  if s <? 0 then 1 else if 0 <? s then 2 else 0.

(** the levels read so far, by position *)
Definition array := nat -> Z.
Definition set (Q : array) (p : nat) (v : Z) : array := fun q => if Nat.eqb q p then v else Q q.

Section TYPE.
Variable ty : nat.
Let cls := get_tx_class ty.
Definition scan (c : nat) : nat := nth c (get_scan tx ty) 0%nat.

(** the neighbours (rows, columns) that count for coeff_base, Sig_Ref_Diff_Offset,
    and for coeff_br, Mag_Ref_Offset_With_Tx_Class *)
Definition sig_ref : list (nat * nat) :=
  match cls with
  | TX_CLASS_2D => [(0, 1); (1, 0); (1, 1); (0, 2); (2, 0)]
  | TX_CLASS_HORIZ => [(0, 1); (1, 0); (0, 2); (0, 3); (0, 4)]
  | TX_CLASS_VERT => [(1, 0); (0, 1); (2, 0); (3, 0); (4, 0)]
  end%nat.
Definition mag_ref : list (nat * nat) :=
  match cls with
  | TX_CLASS_2D => [(0, 1); (1, 0); (1, 1)]
  | TX_CLASS_HORIZ => [(0, 1); (1, 0); (0, 2)]
  | TX_CLASS_VERT => [(0, 1); (1, 0); (2, 0)]
  end%nat.
Definition near (Q : array) (limit : Z) (row col : nat) (l : list (nat * nat)) : Z :=
  fold_right (fun d m =>
    let r := (row + fst d)%nat in let c := (col + snd d)%nat in
    (if Nat.ltb r th && Nat.ltb c tw then Z.min (Q (r * tw + c)%nat) limit else 0) + m) 0 l.

(** get_coeff_base_ctx, the part for the last coefficient; [c]: its scan index *)
Definition base_eob_ctx (c : nat) : Z :=
  if Nat.eqb c 0 then 0
  else if Nat.leb c (tw * th / 8) then 1
  else if Nat.leb c (tw * th / 4) then 2 else 3.
(** Coeff_Base_Ctx_Offset[ txSz ], given by the rule that generates it *)
Definition base_offset (row col : nat) : Z :=
  if Nat.ltb (width tx) (height tx) && Nat.ltb row 2 then 11
  else if Nat.ltb (height tx) (width tx) && Nat.ltb col 2 then 16
  else if Nat.ltb (row + col) 2 then 1
  else if Nat.ltb (row + col) 4 then 6
  else 21.
Definition base_ctx (Q : array) (pos : nat) : Z :=
  let row := (pos / tw)%nat in let col := (pos mod tw)%nat in
  let ctx := Z.min ((near Q 3 row col sig_ref + 1) / 2) 4 in
  match cls with
  | TX_CLASS_2D => if Nat.eqb row 0 && Nat.eqb col 0 then 0 else ctx + base_offset (Nat.min row 4) (Nat.min col 4)
  | TX_CLASS_HORIZ => ctx + 26 + 5 * Z.of_nat (Nat.min col 2)
  | TX_CLASS_VERT => ctx + 26 + 5 * Z.of_nat (Nat.min row 2)
  end.
Definition br_ctx (Q : array) (pos : nat) : Z :=
  let row := (pos / tw)%nat in let col := (pos mod tw)%nat in
  let mag := Z.min ((near Q 15 row col mag_ref + 1) / 2) 6 in
  if Nat.eqb pos 0 then mag
  else match cls with
  | TX_CLASS_2D => if Nat.ltb row 2 && Nat.ltb col 2 then mag + 7 else mag + 14
  | TX_CLASS_HORIZ => if Nat.eqb col 0 then mag + 7 else mag + 14
  | TX_CLASS_VERT => if Nat.eqb row 0 then mag + 7 else mag + 14
  end.

(** ** Levels *)
Fixpoint read_br (n : nat) (ctx level : Z) : Sp Z :=
  match n with
  | O => Ret level
  | S n =>
    let* v := read (coeff_br (Z.min txSzCtx 3) ptype ctx) 3 in
    if v <? 3 then Ret (level + v) else read_br n ctx (level + v)
  end.
Definition read_level (c : nat) (isEob : bool) (Q : array) : Sp array :=
  let pos := scan c in
  let* level :=
    (if isEob then let* v := read (coeff_base_eob txSzCtx ptype (base_eob_ctx c)) 2 in Ret (v + 1)
     else read (coeff_base txSzCtx ptype (base_ctx Q pos)) 3) in
  let* level := (if 2 <? level then read_br 4 (br_ctx Q pos) level else Ret level) in
  Ret (set Q pos level).
(** for ( c = eob - 1; c >= 0; c-- ), from [c] - 1 on *)
Fixpoint read_levels (c : nat) (Q : array) : Sp array :=
  match c with
  | O => Ret Q
  | S c => let* Q := read_level c false Q in read_levels c Q
  end.

Definition read_all_levels (eob : nat) : Sp array :=
  let* Q := read_level (eob - 1) true (fun _ => 0) in read_levels (eob - 1) Q.

(** ** Signs and Golomb codes *)
(** length - 1: the number of zero bits.  The specification requires length <= 20;
    here up to 32 zero bits are counted, and then one more bit is read. *)
Fixpoint golomb_zeros (n : nat) (zeros : nat) : Sp nat :=
  let* b := read literal 1 in
  match n with
  | O => Ret zeros
  | S n => if b =? 1 then Ret zeros else golomb_zeros n (S zeros)
  end.
Fixpoint golomb_bits (n : nat) (x : Z) : Sp Z :=
  match n with
  | O => Ret x
  | S n => let* b := read literal 1 in golomb_bits n (2 * x + b)
  end.
Definition golomb : Sp Z := let* z := golomb_zeros 32 0 in golomb_bits z 1.

Record acc : Type := mkAcc { a_quant : array; a_culLevel : Z; a_dcCategory : Z }.
Definition read_sign (c : nat) (s : acc) : Sp acc :=
  let pos := scan c in
  let level := a_quant s pos in
  let* sign :=
    (if negb (level =? 0) then
       if Nat.eqb c 0 then read (dc_sign ptype dc_sign_ctx) 1 else read literal 1
     else Ret 0) in
  let* level := (if 14 <? level then let* x := golomb in Ret (x + 14) else Ret level) in
  let cat := if Nat.eqb pos 0 && (0 <? level) then if sign =? 1 then 1 else 2 else a_dcCategory s in
  let level := level mod 2 ^ 20 in
  Ret (mkAcc (set (a_quant s) pos (if sign =? 1 then - level else level)) (a_culLevel s + level) cat).
Fixpoint read_signs (l : list nat) (s : acc) : Sp acc :=
  match l with
  | [] => Ret s
  | c :: l => let* s := read_sign c s in read_signs l s
  end.

(** ** Dequantisation, 7.12.3 *)
Definition dqDenom : Z :=
  let n := (width tx * height tx)%nat in if Nat.ltb 1024 n then 4 else if Nat.ltb 256 n then 2 else 1.
Definition Dequant (Q : array) (i j : nat) : Z :=
  let p := (i * tw + j)%nat in
  let q := if Nat.eqb p 0 then i_dc_q I else i_ac_q I in
  let q2 := match i_qm I with
            | Some m => if Nat.ltb ty 9 && negb (i_lossless I) then (q * m p + 16) / 32 else q
            | None => q
            end in
  let dq := (Z.abs (Q p) * q2) mod 2 ^ 24 / dqDenom in
  let dq := if Q p <? 0 then - dq else dq in
  Z.max (- 2 ^ (7 + i_BitDepth I)) (Z.min (2 ^ (7 + i_BitDepth I) - 1) dq).
End TYPE.

(** ** The end of block *)
Definition eobMultisize : Z := Z.of_nat (Nat.min (log2w tx) 5) + Z.of_nat (Nat.min (log2h tx) 5) - 4.
Fixpoint eob_bits (n : nat) (eob : Z) : Sp Z :=
  match n with
  | O => Ret eob
  | S n => let* b := read literal 1 in eob_bits n (if b =? 1 then eob + 2 ^ Z.of_nat n else eob)
  end.
Definition read_eob (cls : class) : Sp nat :=
  let ctx := match cls with TX_CLASS_2D => 0 | _ => 1 end in
  let* v := read (eob_pt eobMultisize ptype (if eobMultisize <? 5 then ctx else 0)) (4 + eobMultisize) in
  let eobPt := v + 1 in
  let eob := if eobPt <? 2 then eobPt else 2 ^ (eobPt - 2) + 1 in
  if 3 <=? eobPt then
    let* x := read (eob_extra txSzCtx ptype (eobPt - 3)) 1 in
    let* r := eob_bits (Z.to_nat (eobPt - 3)) (if x =? 1 then eob + 2 ^ (eobPt - 3) else eob) in
    Ret (Z.to_nat r)
  else Ret (Z.to_nat eob).

(** What coeffs() delivers: nothing for an all zero block, else the type, the number
    of coefficients and the array Dequant; and the contexts to be stored. *)
Definition coeffs : Sp (option (nat * nat * (nat -> nat -> Z)) * (Z * Z)) :=
  let* z := read (all_zero txSzCtx all_zero_ctx) 1 in
  if z =? 1 then Ret (None, (0, 0))
  else
    let* ty := PlaneTxType in
    let* eob := read_eob (get_tx_class ty) in
    let* Q := read_all_levels ty eob in
    let* s := read_signs ty (seq 0 eob) (mkAcc Q 0 0) in
    Ret (Some (ty, eob, Dequant ty (a_quant s)), (Z.min 63 (a_culLevel s), a_dcCategory s)).
End SPEC.

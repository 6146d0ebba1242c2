(** The symbol decoder of the AV1 specification, section 8.2 ("Parsing process
    for symbol decoder"), bit-serial, with CDFs in the specification's
    convention (increasing, 32768 = 1.0, counter last). *)
From Coq Require Import ZArith List Bool.
From Verif Require Import GetBits.Spec.
Import ListNotations.
Open Scope Z_scope.

Record sym : Type := mkSym {
  SymbolValue : Z;
  SymbolRange : Z;
  SymbolMaxBits : Z;
  bit_pos : Z            (* read position in the tile data *)
}.

Section Data.
(** Bits of the tile data and its size in bytes. *)
Variable b : Z -> Z.
Variable sz : Z.

(** 8.2.2 init_symbol(sz). *)
Definition init_symbol : sym :=
  let numBits := Z.min (sz * 8) 15 in
  let buf := f_n b 0 numBits in
  let paddedBuf := buf * 2 ^ (15 - numBits) in
  {| SymbolValue := Z.lxor (2 ^ 15 - 1) paddedBuf;
     SymbolRange := 2 ^ 15;
     SymbolMaxBits := 8 * sz - 15;
     bit_pos := numBits |}.

(** 8.2.6, search loop: [cdf] has N entries of which the last is 32768. *)
Fixpoint search (fuel : nat) (cdf : list Z) (N range value cur symbol : Z) : Z * Z * Z :=
  let symbol := symbol + 1 in
  let prev := cur in
  let f := 2 ^ 15 - nth (Z.to_nat symbol) cdf 0 in
  let cur := ((range / 2 ^ 8) * (f / 2 ^ 6) / 2 ^ (7 - 6)) + 4 * (N - symbol - 1) in
  match fuel with
  | O => (prev, cur, symbol)
  | S fuel => if value <? cur then search fuel cdf N range value cur symbol
              else (prev, cur, symbol)
  end.

(** 8.2.6, renormalisation. *)
Definition renorm (s : sym) : sym :=
  let bits := 15 - Z.log2 (SymbolRange s) in
  let numBits := Z.min bits (Z.max 0 (SymbolMaxBits s)) in
  let newData := f_n b (bit_pos s) numBits in
  let paddedData := newData * 2 ^ (bits - numBits) in
  {| SymbolRange := SymbolRange s * 2 ^ bits;
     SymbolValue := Z.lxor paddedData ((SymbolValue s + 1) * 2 ^ bits - 1);
     SymbolMaxBits := SymbolMaxBits s - bits;
     bit_pos := bit_pos s + numBits |}.

(** 8.2.6 symbol decoding without the adaptation; N symbols. *)
Definition read_symbol_raw (s : sym) (cdf : list Z) (N : Z) : Z * sym :=
  let '(prev, cur, symbol) :=
    search (Z.to_nat N) cdf N (SymbolRange s) (SymbolValue s) (SymbolRange s) (-1) in
  (symbol,
   renorm {| SymbolRange := prev - cur; SymbolValue := SymbolValue s - cur;
             SymbolMaxBits := SymbolMaxBits s; bit_pos := bit_pos s |}).

(** 8.2.6 CDF adaptation: entry i of the updated array. *)
Definition adapt_entry (cdf : list Z) (N symbol rate i : Z) : Z :=
  let tmp := if symbol <=? i then 2 ^ 15 else 0 in
  let x := nth (Z.to_nat i) cdf 0 in
  if tmp <? x then x - (x - tmp) / 2 ^ rate
  else x + (tmp - x) / 2 ^ rate.
Definition adapt_cdf (cdf : list Z) (N symbol : Z) : list Z :=
  let cnt := nth (Z.to_nat N) cdf 0 in
  let rate := 3 + (if 15 <? cnt then 1 else 0) + (if 31 <? cnt then 1 else 0)
              + Z.min (Z.log2 N) 2 in
  map (fun i => adapt_entry cdf N symbol rate (Z.of_nat i)) (seq 0 (Z.to_nat (N - 1)))
  ++ [nth (Z.to_nat (N - 1)) cdf 0; cnt + (if cnt <? 32 then 1 else 0)].

(** 8.2.6 with adaptation controlled by disable_cdf_update. *)
Definition read_symbol (disable_cdf_update : bool) (s : sym) (cdf : list Z) (N : Z)
  : Z * list Z * sym :=
  let '(symbol, s') := read_symbol_raw s cdf N in
  (symbol, if disable_cdf_update then cdf else adapt_cdf cdf N symbol, s').

(** 8.2.4 read_bool(): a symbol with the fixed CDF {1<<14, 1<<15, 0}. *)
Definition read_bool (s : sym) : Z * sym := read_symbol_raw s [2 ^ 14; 2 ^ 15; 0] 2.

End Data.

(** 8.2.3 exit process for the symbol decoder: conformance requirements on
    the padding of a tile: the bit at trailingPosition is one and all later
    bits of the tile data are zero. *)
Definition trailingPosition (s : sym) : Z := bit_pos s - Z.min 15 (SymbolMaxBits s + 15).
Definition exit_conformant (b : Z -> Z) (sz : Z) (s : sym) : Prop :=
  -14 <= SymbolMaxBits s /\ b (trailingPosition s) = 1 /\
  forall i, trailingPosition s < i < 8 * sz -> b i = 0.

(** Model of src/msac.c and src/msac.h (the portable C entropy decoder). *)
From Coq Require Import ZArith List Bool.
From Verif Require Import Base.CInt.
Import ListNotations.
Open Scope Z_scope.
Local Open Scope outcome_scope.

(** /repo/src/msac.h:38-49 MsacContext.  Buffer pointers are indices into
    [ms_buf]; the function pointer of x86 builds is not modelled. *)
Record msac : Type := mkMsac {
  ms_buf : list Z;
  ms_pos : Z;
  ms_end : Z;
  ms_dif : Z;       (* ec_win *)
  ms_rng : Z;       (* unsigned *)
  ms_cnt : Z;       (* int *)
  ms_upd : bool
}.

Definition EC_PROB_SHIFT : Z := 6.   (* msac.c:36 *)
Definition EC_MIN_PROB : Z := 4.     (* msac.c:37 *)

Section Window.
(** [W] is EC_WIN_SIZE (msac.c:39): 32 or 64. *)
Variable W : Z.

Definition uW (x : Z) : Z := x mod 2 ^ W.
(** Bitwise complement of an [ec_win]. *)
Definition notW (x : Z) : Z := 2 ^ W - 1 - x.
(** A left shift of an [ec_win]; shift counts outside 0..W-1 are undefined. *)
Definition shlW (x c : Z) : outcome Z :=
  guard! (0 <=? c) && (c <? W) in Ok (uW (Z.shiftl x c)).

(** msac.c:46-54 the do-while loop of ctx_refill. *)
Fixpoint refill_loop (fuel : nat) (buf : list Z) (pos end_ dif c : Z)
  : outcome (Z * Z * Z) :=
  match fuel with
  | O => Undef
  | S fuel =>
    if end_ <=? pos then
      let! m := shlW (notW 255) c in
      Ok (pos, Z.lor dif (notW m), c)
    else
      let! b := rd_at buf pos in
      let! x := shlW (Z.lxor b 255) c in
      let dif := Z.lor dif x in
      let c := c - 8 in
      if 0 <=? c then refill_loop fuel buf (pos + 1) end_ dif c
      else Ok (pos + 1, dif, c)
  end.

(** msac.c:41-58 ctx_refill. *)
Definition ctx_refill (s : msac) : outcome msac :=
  let c := W - ms_cnt s - 24 in
  let! (pos, dif, c) := refill_loop 9 (ms_buf s) (ms_pos s) (ms_end s) (ms_dif s) c in
  Ok {| ms_buf := ms_buf s; ms_pos := pos; ms_end := ms_end s; ms_dif := dif;
        ms_rng := ms_rng s; ms_cnt := W - c - 24; ms_upd := ms_upd s |}.

(** msac.c:85-97 ctx_norm; [clz(0)] and signed overflow of [cnt - d] are
    undefined. *)
Definition ctx_norm (s : msac) (dif rng : Z) : outcome msac :=
  guard! (0 <? rng) && (rng <=? 65535) in
  let d := Z.lxor 15 (Z.log2 rng) in
  let cnt := ms_cnt s in
  let! dif := shlW dif d in
  guard! fits_int (cnt - d) in
  let s := {| ms_buf := ms_buf s; ms_pos := ms_pos s; ms_end := ms_end s; ms_dif := dif;
              ms_rng := u32 (Z.shiftl rng d); ms_cnt := cnt - d; ms_upd := ms_upd s |} in
  if u32 cnt <? u32 d then ctx_refill s else Ok s.

(** msac.c:104-111 / 122-127, common tail of the two boolean decoders, given
    the split value [v]. *)
Definition bool_tail (s : msac) (v : Z) : outcome (Z * msac) :=
  let r := ms_rng s in
  let dif := ms_dif s in
  let! vw := shlW v (W - 16) in
  let ret := b2z (vw <=? dif) in
  let dif := uW (dif - uW (ret * vw)) in
  let v := u32 (v + u32 (ret * u32 (r - u32 (2 * v)))) in
  let! s := ctx_norm s dif v in
  Ok (1 - ret, s).

(** msac.c:99-112 dav1d_msac_decode_bool_equi_c. *)
Definition decode_bool_equi (s : msac) : outcome (Z * msac) :=
  let r := ms_rng s in
  guard! Z.shiftr (ms_dif s) (W - 16) <? r in
  bool_tail s (u32 (u32 (Z.shiftl (Z.shiftr r 8) 7) + EC_MIN_PROB)).

(** msac.c:117-128 dav1d_msac_decode_bool_c. *)
Definition decode_bool (s : msac) (f : Z) : outcome (Z * msac) :=
  let r := ms_rng s in
  guard! Z.shiftr (ms_dif s) (W - 16) <? r in
  bool_tail s (u32 (Z.shiftr (u32 (Z.shiftr r 8 * Z.shiftr f EC_PROB_SHIFT)) (7 - EC_PROB_SHIFT)
                    + EC_MIN_PROB)).

(** msac.c:142-148 symbol search loop: returns (u, v, val). *)
Fixpoint sym_loop (fuel : nat) (cdf : list Z) (c r n_symbols v val : Z) : outcome (Z * Z * Z) :=
  match fuel with
  | O => Undef
  | S fuel =>
    let val := u32 (val + 1) in
    let u := v in
    let! p := rd_at cdf val in
    let v := u32 (r * Z.shiftr p EC_PROB_SHIFT) in
    let v := Z.shiftr v (7 - EC_PROB_SHIFT) in
    let v := u32 (v + u32 (EC_MIN_PROB * u32 (n_symbols - val))) in
    if c <? v then sym_loop fuel cdf c r n_symbols v val
    else Ok (u, v, val)
  end.

(** msac.c:157-161 the two adaptation loops, over the index [i]. *)
Fixpoint adapt_loop (fuel : nat) (cdf : list Z) (i val n rate : Z) : outcome (list Z) :=
  if n <=? i then Ok cdf else
  match fuel with
  | O => Undef
  | S fuel =>
    let! x := rd_at cdf i in
    let x := if i <? val then u16 (x + Z.shiftr (32768 - x) rate)
             else u16 (x - Z.shiftr x rate) in
    let! cdf := wr_at cdf i x in
    adapt_loop fuel cdf (i + 1) val n rate
  end.
(** msac.c:155-162. *)
Definition adapt (cdf : list Z) (val n : Z) : outcome (list Z) :=
  let! count := rd_at cdf n in
  let rate := 4 + Z.shiftr count 4 + b2z (2 <? n) in
  let! cdf := adapt_loop (Z.to_nat n) cdf 0 val n rate in
  wr_at cdf n (u16 (count + b2z (count <? 32))).

(** msac.c:132-166 dav1d_msac_decode_symbol_adapt_c. *)
Definition decode_symbol_adapt (s : msac) (cdf : list Z) (n_symbols : Z)
  : outcome (Z * list Z * msac) :=
  let c := u32 (Z.shiftr (ms_dif s) (W - 16)) in
  let r := Z.shiftr (ms_rng s) 8 in
  guard! n_symbols <=? 15 in
  let! cn := rd_at cdf n_symbols in
  guard! cn <=? 32 in
  let! (u, v, val) := sym_loop 17 cdf c r n_symbols (ms_rng s) UINT_MAX in
  guard! u <=? ms_rng s in
  let! vw := shlW v (W - 16) in
  let! s' := ctx_norm s (uW (ms_dif s - vw)) (u32 (u - v)) in
  let! cdf := (if ms_upd s then adapt cdf val n_symbols else Ok cdf) in
  Ok (val, cdf, s').

(** msac.c:168-185 dav1d_msac_decode_bool_adapt_c. *)
Definition decode_bool_adapt (s : msac) (cdf : list Z) : outcome (Z * list Z * msac) :=
  let! p := rd_at cdf 0 in
  let! (bit, s') := decode_bool s p in
  if ms_upd s then
    let! count := rd_at cdf 1 in
    let rate := 4 + Z.shiftr count 4 in
    let! cdf := wr_at cdf 0 (if z2b bit then u16 (p + Z.shiftr (32768 - p) rate)
                             else u16 (p - Z.shiftr p rate)) in
    let! cdf := wr_at cdf 1 (u16 (count + b2z (count <? 32))) in
    Ok (bit, cdf, s')
  else Ok (bit, cdf, s').

(** msac.c:204-213 dav1d_msac_init. *)
Definition msac_init (buf : list Z) (sz : Z) (disable_cdf_update : bool) : outcome msac :=
  ctx_refill {| ms_buf := buf; ms_pos := 0; ms_end := sz; ms_dif := 0; ms_rng := 32768;
                ms_cnt := -15; ms_upd := negb disable_cdf_update |}.

End Window.

(** * Decoding programs

    The tile decoder issues decode calls, each possibly depending on the
    results of the previous ones; CDF arrays are addressed by an index. *)
Inductive dop : Type :=
| DEqui                        (* dav1d_msac_decode_bool_equi *)
| DBool (f : Z)                (* dav1d_msac_decode_bool *)
| DBoolAdapt (cdf : Z)         (* dav1d_msac_decode_bool_adapt on CDF number cdf *)
| DSym (cdf n_symbols : Z).    (* dav1d_msac_decode_symbol_adapt{4,8,16} *)

Inductive dp (A : Type) : Type :=
| DRet (a : A)
| DStuck                       (* failed assertion of the caller *)
| DDo (o : dop) (k : Z -> dp A).
Arguments DRet {A} a.
Arguments DStuck {A}.
Arguments DDo {A} o k.
Fixpoint dbind {A B} (m : dp A) (f : A -> dp B) : dp B :=
  match m with
  | DRet a => f a
  | DStuck => DStuck
  | DDo o k => DDo o (fun v => dbind (k v) f)
  end.
Definition dop_ (o : dop) : dp Z := DDo o DRet.

(** Execution of one call on the C decoder and the CDF arrays. *)
Definition dstep (W : Z) (o : dop) (s : msac) (cdfs : list (list Z))
  : outcome (Z * msac * list (list Z)) :=
  match o with
  | DEqui => let! (v, s) := decode_bool_equi W s in Ok (v, s, cdfs)
  | DBool f => let! (v, s) := decode_bool W s f in Ok (v, s, cdfs)
  | DBoolAdapt i =>
      let! cdf := rd_at cdfs i in
      let! (v, cdf, s) := decode_bool_adapt W s cdf in
      let! cdfs := wr_at cdfs i cdf in Ok (v, s, cdfs)
  | DSym i n =>
      let! cdf := rd_at cdfs i in
      let! (v, cdf, s) := decode_symbol_adapt W s cdf n in
      let! cdfs := wr_at cdfs i cdf in Ok (v, s, cdfs)
  end.
Fixpoint drun {A} (W : Z) (p : dp A) (s : msac) (cdfs : list (list Z))
  : outcome (A * msac * list (list Z)) :=
  match p with
  | DRet a => Ok (a, s, cdfs)
  | DStuck => Undef
  | DDo o k => let! (v, s, cdfs) := dstep W o s cdfs in drun W (k v) s cdfs
  end.

Declare Scope dp_scope.
Delimit Scope dp_scope with dp.
Notation "'dec' x '<-' m ';' k" := (dbind m (fun x => k))
  (at level 200, x pattern, m at level 100, k at level 200) : dp_scope.
Local Open Scope dp_scope.

(** msac.h:94-99 dav1d_msac_decode_bools. *)
Fixpoint decode_bools_loop (n : nat) (v : Z) : dp Z :=
  match n with
  | O => DRet v
  | S n => dec b <- dop_ DEqui; decode_bools_loop n (Z.lor (u32 (Z.shiftl v 1)) b)
  end.
Definition decode_bools (n : Z) : dp Z := decode_bools_loop (Z.to_nat n) 0.

(** msac.h:101-108 dav1d_msac_decode_uniform. *)
Definition decode_uniform (n : Z) : dp Z :=
  if negb (0 <? n) then DStuck else
  let l := ulog2 n + 1 in
  if negb ((1 <? l) && (l <? 31)) then DStuck else
  let m := u32 (Z.shiftl 1 l - n) in
  dec v <- decode_bools (l - 1);
  if v <? m then DRet (s32 v)
  else dec b <- dop_ DEqui; DRet (s32 (u32 (u32 (u32 (Z.shiftl v 1) - m) + b))).

(** msac.c:60-74 dav1d_msac_decode_subexp. *)
Definition decode_subexp (ref n k : Z) : dp Z :=
  if negb (Z.shiftr n k =? 8) then DStuck else
  dec b1 <- dop_ DEqui;
  dec (a, k) <- (if z2b b1 then
      dec b2 <- dop_ DEqui;
      dec k <- (if z2b b2 then dec b3 <- dop_ DEqui; DRet (k + (b3 + 1)) else DRet k);
      DRet (u32 (Z.shiftl 1 k), k)
    else DRet (0, k));
  dec x <- decode_bools k;
  let v := u32 (x + a) in
  DRet (if ref * 2 <=? n then s32 (inv_recenter ref v)
        else s32 (u32 (n - 1 - inv_recenter (n - 1 - ref) v))).

(** msac.c:187-201 dav1d_msac_decode_hi_tok_c. *)
Definition decode_hi_tok (cdf : Z) : dp Z :=
  dec tok_br <- dop_ (DSym cdf 3);
  if tok_br =? 3 then
    dec tok_br <- dop_ (DSym cdf 3);
    if tok_br =? 3 then
      dec tok_br <- dop_ (DSym cdf 3);
      if tok_br =? 3 then
        dec tok_br <- dop_ (DSym cdf 3);
        DRet (12 + tok_br)
      else DRet (9 + tok_br)
    else DRet (6 + tok_br)
  else DRet (3 + tok_br).

(** /repo/src/decode.c:2586-2590 the loop over the remaining bytes. *)
Fixpoint all_zero_from (fuel : nat) (buf : list Z) (p end_ : Z) : outcome bool :=
  if end_ <=? p then Ok true else
  match fuel with
  | O => Undef
  | S fuel =>
    let! x := rd_at buf p in
    if x =? 0 then all_zero_from fuel buf (p + 1) end_ else Ok false
  end%outcome.
(** decode.c:2578-2593 check_trailing_bits_after_symbol_coder; 1 on error. *)
Definition check_trailing_bits_after_symbol_coder (s : msac) : outcome Z :=
  (let n_bits := - (ms_cnt s + 14) in
   guard! n_bits <=? 0 in
   let n_bytes := Z.shiftr (n_bits + 7) 3 in
   let p := ms_pos s + n_bytes in
   let pattern := Z.shiftr 128 (Z.land (n_bits - 1) 7) in
   let! x := rd_at (ms_buf s) (p - 1) in
   if negb (Z.land x (2 * pattern - 1) =? pattern) then Ok 1 else
   let! z := all_zero_from (Z.to_nat (ms_end s)) (ms_buf s) p (ms_end s) in
   Ok (if z then 0 else 1))%outcome.

(** decode.c:2743-2749, the end of dav1d_decode_tile_sbrow, as far as the
    entropy decoder is concerned: [strict] is strict_std_compliance and
    [last] tells the last superblock row of the tile. *)
Definition tile_sbrow_end (s : msac) (strict last : bool) : outcome Z :=
  if ms_cnt s <=? -15 then Ok 1
  else if strict && last then check_trailing_bits_after_symbol_coder s
  else Ok 0.

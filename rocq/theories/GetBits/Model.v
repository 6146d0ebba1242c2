(** Model of src/getbits.c and src/getbits.h. *)
From Coq Require Import ZArith List Bool.
From Verif Require Import Base.CInt.
Import ListNotations.
Open Scope Z_scope.
Local Open Scope outcome_scope.

(** /repo/src/getbits.h:34-38 GetBits.  Pointers are indices relative to
    [ptr_start]; [gb_buf] is the memory that may be read. *)
Record gb : Type := mkGb {
  gb_buf   : list Z;
  gb_ptr   : Z;
  gb_end   : Z;
  gb_state : Z;     (* uint64_t *)
  gb_left  : Z;     (* int *)
  gb_err   : bool
}.

(** getbits.c:36-45 dav1d_init_get_bits. *)
Definition gb_init (buf : list Z) (sz : Z) : outcome gb :=
  guard! 0 <? sz in
  Ok {| gb_buf := buf; gb_ptr := 0; gb_end := sz;
        gb_state := 0; gb_left := 0; gb_err := false |}.

Definition gb_seterr (c : gb) : gb :=
  {| gb_buf := gb_buf c; gb_ptr := gb_ptr c; gb_end := gb_end c;
     gb_state := gb_state c; gb_left := gb_left c; gb_err := true |}.

(** getbits.c:59-62 tail of dav1d_get_bit.  [bits_left--] is checked for
    signed overflow. *)
Definition get_bit_tail (c : gb) : outcome (Z * gb) :=
  let state := gb_state c in
  guard! fits_int (gb_left c - 1) in
  Ok (Z.shiftr state 63,
      {| gb_buf := gb_buf c; gb_ptr := gb_ptr c; gb_end := gb_end c;
         gb_state := u64 (Z.shiftl state 1);
         gb_left := gb_left c - 1; gb_err := gb_err c |}).

(** getbits.c:47-63 dav1d_get_bit. *)
Definition get_bit (c : gb) : outcome (Z * gb) :=
  if gb_left c =? 0 then
    if gb_end c <=? gb_ptr c then get_bit_tail (gb_seterr c)
    else
      let! state := rd_at (gb_buf c) (gb_ptr c) in
      Ok (Z.shiftr state 7,
          {| gb_buf := gb_buf c; gb_ptr := gb_ptr c + 1; gb_end := gb_end c;
             gb_state := u64 (Z.shiftl state 57);
             gb_left := 7; gb_err := gb_err c |})
  else get_bit_tail c.

(** getbits.c:77: [c->state |= (uint64_t) state << (64 - c->bits_left)]; a
    shift count outside 0..63 is undefined. *)
Definition refill_done (c : gb) (state : Z) : outcome gb :=
  guard! (0 <=? 64 - gb_left c) && (64 - gb_left c <? 64) in
  Ok {| gb_buf := gb_buf c; gb_ptr := gb_ptr c; gb_end := gb_end c;
        gb_state := Z.lor (gb_state c) (u64 (Z.shiftl state (64 - gb_left c)));
        gb_left := gb_left c; gb_err := gb_err c |}.

(** getbits.c:68-76 the do-while loop of refill; [fuel] bounds the number of
    iterations, running out is Undef (proved unreachable). *)
Fixpoint refill_loop (fuel : nat) (c : gb) (n : Z) (state : Z) : outcome gb :=
  match fuel with
  | O => Undef
  | S fuel =>
    if gb_end c <=? gb_ptr c then
      let c := gb_seterr c in
      if z2b state then refill_done c state else Ok c
    else
      let! b := rd_at (gb_buf c) (gb_ptr c) in
      let state := u32 (Z.lor (Z.shiftl state 8) b) in
      let c := {| gb_buf := gb_buf c; gb_ptr := gb_ptr c + 1; gb_end := gb_end c;
                  gb_state := gb_state c; gb_left := gb_left c + 8;
                  gb_err := gb_err c |} in
      if gb_left c <? n then refill_loop fuel c n state
      else refill_done c state
  end.

(** getbits.c:65-78 refill. *)
Definition refill (c : gb) (n : Z) : outcome gb :=
  guard! (0 <=? gb_left c) && (gb_left c <? 32) in
  refill_loop 8 c n 0.

(** getbits.c:80-90 the GET_BITS macro up to the final conversion: returns the
    64-bit [state] the result is cut from, and the new reader. *)
Definition get_bits_state (c : gb) (n : Z) : outcome (Z * gb) :=
  guard! (0 <? n) && (n <=? 32) in
  let! c := (if u32 (gb_left c) <? u32 n then refill c n else Ok c) in
  let state := gb_state c in
  guard! fits_int (gb_left c - n) in
  Ok (state,
      {| gb_buf := gb_buf c; gb_ptr := gb_ptr c; gb_end := gb_end c;
         gb_state := u64 (Z.shiftl state n);
         gb_left := gb_left c - n; gb_err := gb_err c |}).

(** getbits.c:92 dav1d_get_bits. *)
Definition get_bits (c : gb) (n : Z) : outcome (Z * gb) :=
  let! (state, c) := get_bits_state c n in
  Ok (u32 (Z.shiftr state (64 - n)), c).

(** getbits.c:93 dav1d_get_sbits (arithmetic right shift of int64_t). *)
Definition get_sbits (c : gb) (n : Z) : outcome (Z * gb) :=
  let! (state, c) := get_bits_state c n in
  Ok (s32 (Z.shiftr (s64 state) (64 - n)), c).

(** getbits.h:52-64 dav1d_bytealign_get_bits. *)
Definition gb_align (c : gb) : outcome gb :=
  guard! gb_left c <=? 7 in
  Ok {| gb_buf := gb_buf c; gb_ptr := gb_ptr c; gb_end := gb_end c;
        gb_state := 0; gb_left := 0; gb_err := gb_err c |}.

(** getbits.h:67-69 dav1d_get_bits_pos, an [unsigned] computation. *)
Definition gb_pos (c : gb) : Z := u32 (u32 (u32 (gb_ptr c) * 8) - gb_left c).

(** /repo/src/obu.c:62-64: [while (size > 0 && gb->ptr[size - 1] == 0) size--],
    returning the final [size]. *)
Fixpoint trailing_size (fuel : nat) (buf : list Z) (p size : Z) : outcome Z :=
  if 0 <? size then
    match fuel with
    | O => Undef
    | S fuel => let! b := rd_at buf (p + size - 1) in
                if b =? 0 then trailing_size fuel buf p (size - 1) else Ok size
    end
  else Ok size.
(** obu.c:59-67, the part of check_trailing_bits that inspects the reader:
    true iff [!gb->state] and the scan ends with [size == 0]. *)
Definition gb_rest_zero (c : gb) : outcome bool :=
  if z2b (gb_state c) then Ok false
  else let! size := trailing_size (length (gb_buf c)) (gb_buf c)
                                  (gb_ptr c) (gb_end c - gb_ptr c) in
       Ok (size =? 0).

(** Parser programs over the reader.  Every header parser of obu.c is
    transcribed as a value of this type; [Fail e] is [goto error]/[return e]
    with error code [e], [Stuck] is undefined behaviour of the parser's own
    (array overrun, failed assertion). *)
Inductive rd (A : Type) : Type :=
| Ret (a : A)
| Fail (e : Z)
| Stuck
| RBit (k : Z -> rd A)
| RBits (n : Z) (k : Z -> rd A)
| RSBits (n : Z) (k : Z -> rd A)
| RErr (k : bool -> rd A)
| RSetErr (k : rd A)
| RAlign (k : rd A)
| RPos (k : Z -> rd A)
| RRest (k : bool -> rd A).
Arguments Ret {A} a.
Arguments Fail {A} e.
Arguments Stuck {A}.
Arguments RBit {A} k.
Arguments RBits {A} n k.
Arguments RSBits {A} n k.
Arguments RErr {A} k.
Arguments RSetErr {A} k.
Arguments RAlign {A} k.
Arguments RPos {A} k.
Arguments RRest {A} k.

Fixpoint rbind {A B} (m : rd A) (f : A -> rd B) : rd B :=
  match m with
  | Ret a => f a
  | Fail e => Fail e
  | Stuck => Stuck
  | RBit k => RBit (fun v => rbind (k v) f)
  | RBits n k => RBits n (fun v => rbind (k v) f)
  | RSBits n k => RSBits n (fun v => rbind (k v) f)
  | RErr k => RErr (fun v => rbind (k v) f)
  | RSetErr k => RSetErr (rbind k f)
  | RAlign k => RAlign (rbind k f)
  | RPos k => RPos (fun v => rbind (k v) f)
  | RRest k => RRest (fun v => rbind (k v) f)
  end.

Declare Scope rd_scope.
Delimit Scope rd_scope with rd.
Notation "'do' x '<-' m ';' k" := (rbind m (fun x => k))
  (at level 200, x pattern, m at level 100, k at level 200) : rd_scope.

Definition bit : rd Z := RBit Ret.
Definition bits (n : Z) : rd Z := RBits n Ret.
Definition sbits (n : Z) : rd Z := RSBits n Ret.
Definition get_error : rd bool := RErr Ret.
Definition set_error : rd unit := RSetErr (Ret tt).
Definition align : rd unit := RAlign (Ret tt).
Definition get_pos : rd Z := RPos Ret.
Definition rest_is_zero : rd bool := RRest Ret.
Definition lift {A} (o : outcome A) : rd A :=
  match o with Ok a => Ret a | Undef => Stuck end.
Definition assert (b : bool) : rd unit := if b then Ret tt else Stuck.

(** Execution of a parser program on the C reader. *)
Fixpoint exec {A} (p : rd A) (c : gb) : outcome ((A + Z) * gb) :=
  match p with
  | Ret a => Ok (inl a, c)
  | Fail e => Ok (inr e, c)
  | Stuck => Undef
  | RBit k => let! (v, c) := get_bit c in exec (k v) c
  | RBits n k => let! (v, c) := get_bits c n in exec (k v) c
  | RSBits n k => let! (v, c) := get_sbits c n in exec (k v) c
  | RErr k => exec (k (gb_err c)) c
  | RSetErr k => exec k (gb_seterr c)
  | RAlign k => let! c := gb_align c in exec k c
  | RPos k => exec (k (gb_pos c)) c
  | RRest k => let! b := gb_rest_zero c in exec (k b) c
  end.

Local Open Scope rd_scope.

(** getbits.c:99-104 loop of dav1d_get_uleb128; at most 8 iterations. *)
Fixpoint uleb_loop (fuel : nat) (val i : Z) : rd (Z * Z) :=
  match fuel with
  | O => Stuck
  | S fuel =>
    do v <- bits 8;
    let more := Z.land v 128 in
    let val := Z.lor val (u64 (Z.shiftl (Z.land v 127) i)) in
    let i := i + 7 in
    if z2b more && (i <? 56) then uleb_loop fuel val i
    else Ret (val, more)
  end.
(** getbits.c:95-112 dav1d_get_uleb128. *)
Definition get_uleb128 : rd Z :=
  do (val, more) <- uleb_loop 9 0 0;
  if (UINT_MAX <? val) || z2b more then do _ <- set_error; Ret 0
  else Ret (u32 val).

(** getbits.c:114-123 dav1d_get_uniform.  [1U << l] with l = 32 would be
    undefined. *)
Definition get_uniform (max : Z) : rd Z :=
  do _ <- assert (1 <? max);
  let l := ulog2 max + 1 in
  do _ <- assert ((1 <? l) && (l <? 32));
  let m := u32 (u32 (Z.shiftl 1 l) - max) in
  do v <- bits (l - 1);
  if v <? m then Ret v
  else do b <- bit; Ret (u32 (u32 (u32 (Z.shiftl v 1) - m) + b)).

(** getbits.c:130-133 the do-while loop of dav1d_get_vlc: returns [None] when
    [++n_bits == 32], otherwise the final [n_bits]. *)
Fixpoint vlc_loop (fuel : nat) (n_bits : Z) : rd (option Z) :=
  match fuel with
  | O => Stuck
  | S fuel =>
    let n_bits := n_bits + 1 in
    if n_bits =? 32 then Ret None
    else do b <- bit;
         if z2b b then Ret (Some n_bits) else vlc_loop fuel n_bits
  end.
(** getbits.c:125-136 dav1d_get_vlc. *)
Definition get_vlc : rd Z :=
  do b <- bit;
  if z2b b then Ret 0 else
  do r <- vlc_loop 32 0;
  match r with
  | None => Ret 4294967295
  | Some n => do v <- bits n; Ret (u32 (u32 (u32 (Z.shiftl 1 n) - 1) + v))
  end.

(** getbits.c:143-157 loop of get_bits_subexp_u ([3 * (1 << b)] is an int
    product, converted to unsigned for the sum). *)
Fixpoint subexp_loop (fuel : nat) (i : Z) (v n : Z) : rd Z :=
  match fuel with
  | O => Stuck
  | S fuel =>
    let b := if z2b i then 3 + i - 1 else 3 in
    do _ <- assert (fits_int (3 * Z.shiftl 1 b));
    if n <? u32 (v + 3 * Z.shiftl 1 b) then
      do x <- get_uniform (u32 (u32 (n - v) + 1));
      Ret (u32 (v + x))
    else
      do t <- bit;
      if z2b t then subexp_loop fuel (i + 1) (u32 (v + Z.shiftl 1 b)) n
      else do x <- bits b; Ret (u32 (v + x))
  end.
(** getbits.c:138-160 get_bits_subexp_u. *)
Definition get_bits_subexp_u (ref n : Z) : rd Z :=
  do v <- subexp_loop 32 0 0 n;
  Ret (if u32 (ref * 2) <=? n then inv_recenter ref v
       else u32 (n - inv_recenter (u32 (n - ref)) v)).
(** getbits.c:162-164 dav1d_get_bits_subexp. *)
Definition get_bits_subexp (ref n : Z) : rd Z :=
  do v <- get_bits_subexp_u (u32 (ref + Z.shiftl 1 n)) (u32 (Z.shiftl 2 n));
  Ret (s32 v - Z.shiftl 1 n).

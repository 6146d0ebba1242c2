(** RFC 1321, the MD5 message digest, written from the RFC and independent of
    the dav1d code. *)
From Coq Require Import ZArith List Bool Ascii String.
Import ListNotations.
Open Scope Z_scope.

(** RFC 1321 3.4: [T[i] = floor (4294967296 * |sin i|)], computed here with the
    Taylor series of the sine in fixed point. For an argument up to 64 the terms
    after the 110th are below [2^-80], and no term exceeds [2^90], so that 200
    fraction bits are ample. *)
Definition PREC : Z := 200.
Fixpoint sin_series (terms : nat) (x2 n term : Z) : Z :=
  match terms with
  | O => 0
  | S k => term + sin_series k x2 (n + 2) (- (term * x2 / ((n + 1) * (n + 2))))
  end.
Definition sin_fixed (i : Z) : Z := sin_series 110 (i * i) 1 (i * 2 ^ PREC).
Definition T (i : Z) : Z := Z.abs (sin_fixed i) / 2 ^ (PREC - 32).

(** RFC 1321 2: word arithmetic *)
Definition W : Z := 2 ^ 32.
Definition add (x y : Z) : Z := (x + y) mod W.
Definition not (x : Z) : Z := (W - 1 - x) mod W.
Definition rotl (x s : Z) : Z := (x * 2 ^ s) mod W + x / 2 ^ (32 - s).

(** RFC 1321 3.4: the auxiliary functions *)
Definition fF (x y z : Z) : Z := Z.lor (Z.land x y) (Z.land (not x) z).
Definition fG (x y z : Z) : Z := Z.lor (Z.land x z) (Z.land y (not z)).
Definition fH (x y z : Z) : Z := Z.lxor x (Z.lxor y z).
Definition fI (x y z : Z) : Z := Z.lxor y (Z.lor x (not z)).

Definition func (t : Z) : Z -> Z -> Z -> Z :=
  if t <? 16 then fF else if t <? 32 then fG else if t <? 48 then fH else fI.
(** which word of the block operation [t] uses *)
Definition word (t : Z) : Z :=
  if t <? 16 then t
  else if t <? 32 then (1 + 5 * t) mod 16
  else if t <? 48 then (5 + 3 * t) mod 16
  else (7 * t) mod 16.
Definition shifts (t : Z) : Z :=
  nth (Z.to_nat (t mod 4))
    (if t <? 16 then [7; 12; 17; 22] else if t <? 32 then [5; 9; 14; 20]
     else if t <? 48 then [4; 11; 16; 23] else [6; 10; 15; 21]) 0.

(** operation [t] (0 .. 63): [a = b + ((a + f(b,c,d) + X[k] + T[t+1]) <<< s)],
    after which the four registers change roles. *)
Definition op (X : Z -> Z) (t : Z) (s : Z * Z * Z * Z) : Z * Z * Z * Z :=
  let '(a, b, c, d) := s in
  (d, add b (rotl (add (add (add a (func t b c d)) (X (word t))) (T (t + 1))) (shifts t)), b, c).
Fixpoint ops (X : Z -> Z) (n : nat) (t : Z) (s : Z * Z * Z * Z) : Z * Z * Z * Z :=
  match n with O => s | S n => ops X n (t + 1) (op X t s) end.

Definition compress (X : Z -> Z) (s : Z * Z * Z * Z) : Z * Z * Z * Z :=
  let '(a, b, c, d) := s in
  let '(a', b', c', d') := ops X 64 0 s in
  (add a a', add b b', add c c', add d d').

(** RFC 1321 3.1, 3.2: a single 1 bit, 0 bits up to 448 modulo 512 bits, then
    the low 64 bits of the length in bits, low-order byte first. *)
Fixpoint le_bytes (n : nat) (x : Z) : list Z :=
  match n with O => [] | S n => x mod 256 :: le_bytes n (x / 256) end.
Definition pad (m : list Z) : list Z :=
  let len := Z.of_nat (List.length m) in
  m ++ 128 :: repeat 0 (Z.to_nat ((55 - len) mod 64)) ++ le_bytes 8 ((8 * len) mod 2 ^ 64).

(** the 16 words of a 64-byte block, low-order byte first *)
Fixpoint le_value (l : list Z) : Z :=
  match l with [] => 0 | b :: l => b + 256 * le_value l end.
Definition words (block : list Z) (i : Z) : Z :=
  le_value (firstn 4 (skipn (4 * Z.to_nat i) block)).

Fixpoint process (n : nat) (m : list Z) (s : Z * Z * Z * Z) : Z * Z * Z * Z :=
  match n with
  | O => s
  | S n => process n (skipn 64 m) (compress (words (firstn 64 m)) s)
  end.

Definition init : Z * Z * Z * Z := (0x67452301, 0xefcdab89, 0x98badcfe, 0x10325476).

Definition md5_words (m : list Z) : Z * Z * Z * Z :=
  let p := pad m in process (List.length p / 64)%nat p init.

(** the digest: A, B, C, D, low-order byte first *)
Definition md5 (m : list Z) : list Z :=
  let '(a, b, c, d) := md5_words m in
  le_bytes 4 a ++ le_bytes 4 b ++ le_bytes 4 c ++ le_bytes 4 d.

(** its usual textual form *)
Definition hex (bytes : list Z) : list ascii :=
  flat_map (fun b =>
    let dig v := ascii_of_nat (Z.to_nat (if v <? 10 then 48 + v else 87 + v)) in
    [dig (b / 16); dig (b mod 16)]) bytes.

(** RFC 1321 A.5 test suite *)
Definition bytes_of (s : string) : list Z :=
  map (fun c => Z.of_nat (nat_of_ascii c)) (list_ascii_of_string s).
Definition md5_text (s : string) : string := string_of_list_ascii (hex (md5 (bytes_of s))).
Example rfc_empty : md5_text "" = "d41d8cd98f00b204e9800998ecf8427e"%string.
Proof. vm_compute. reflexivity. Qed.
Example rfc_digits :
  md5_text "12345678901234567890123456789012345678901234567890123456789012345678901234567890"
  = "57edf4a22be3c955ac49da2e2107b67a"%string.
Proof. vm_compute. reflexivity. Qed.

(** ** What is hashed for a picture *)

(** Bytes per sample and the visible size of each plane (AV1 4:2:0, 4:2:2 and
    4:4:4 subsampling, odd sizes round up; monochrome has one plane). *)
Inductive chroma := Mono | C420 | C422 | C444.
Definition half (x : Z) : Z := (x + 1) / 2.
Definition planes (c : chroma) (w h : Z) : list (Z * Z * Z) :=
  (0, w, h) ::
  match c with
  | Mono => []
  | C420 => [(1, half w, half h); (2, half w, half h)]
  | C422 => [(1, half w, h); (2, half w, h)]
  | C444 => [(1, w, h); (2, w, h)]
  end.
Definition upto (n : Z) : list Z := map Z.of_nat (seq 0 (Z.to_nat n)).

(** All visible samples, plane by plane in raster order, low-order byte first. *)
Definition plane_bytes (bps : nat) (s : Z -> Z -> Z) (w h : Z) : list Z :=
  flat_map (fun y => flat_map (fun x => le_bytes bps (s x y)) (upto w)) (upto h).
Definition frame_bytes (bpc : Z) (c : chroma) (w h : Z) (s : Z -> Z -> Z -> Z) : list Z :=
  let bps := if bpc =? 8 then 1%nat else 2%nat in
  flat_map (fun '(pl, pw, ph) => plane_bytes bps (s pl) pw ph) (planes c w h).

(** A text is a rendering of some bytes: two hexadecimal digits of either case
    per byte. *)
Definition digit_of (v : Z) (c : ascii) : Prop :=
  nth_error (list_ascii_of_string "0123456789abcdef") (Z.to_nat v) = Some c
  \/ nth_error (list_ascii_of_string "0123456789ABCDEF") (Z.to_nat v) = Some c.
Inductive renders : list Z -> list ascii -> Prop :=
| R_nil : renders [] []
| R_byte : forall b bytes c1 c2 text, 0 <= b < 256 -> digit_of (b / 16) c1 -> digit_of (b mod 16) c2 ->
    renders bytes text -> renders (b :: bytes) (c1 :: c2 :: text).

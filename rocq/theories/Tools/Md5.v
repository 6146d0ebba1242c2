(** Model of /repo/tools/output/md5.c (little-endian build: the [ENDIANNESS_BIG]
    paths and the [FILE] handle are not modelled; what [md5_close] prints is the
    result of [md5_close]). *)
From Coq Require Import ZArith List Bool Ascii String.
From Verif Require Import Base.CInt.
Import ListNotations.
Open Scope Z_scope.
Open Scope outcome_scope.

(** md5.c:39-56 *)
Definition k : list Z := [
  0xd76aa478; 0xe8c7b756; 0x242070db; 0xc1bdceee;
  0xf57c0faf; 0x4787c62a; 0xa8304613; 0xfd469501;
  0x698098d8; 0x8b44f7af; 0xffff5bb1; 0x895cd7be;
  0x6b901122; 0xfd987193; 0xa679438e; 0x49b40821;
  0xf61e2562; 0xc040b340; 0x265e5a51; 0xe9b6c7aa;
  0xd62f105d; 0x02441453; 0xd8a1e681; 0xe7d3fbc8;
  0x21e1cde6; 0xc33707d6; 0xf4d50d87; 0x455a14ed;
  0xa9e3e905; 0xfcefa3f8; 0x676f02d9; 0x8d2a4c8a;
  0xfffa3942; 0x8771f681; 0x6d9d6122; 0xfde5380c;
  0xa4beea44; 0x4bdecfa9; 0xf6bb4b60; 0xbebfbc70;
  0x289b7ec6; 0xeaa127fa; 0xd4ef3085; 0x04881d05;
  0xd9d4d039; 0xe6db99e5; 0x1fa27cf8; 0xc4ac5665;
  0xf4292244; 0x432aff97; 0xab9423a7; 0xfc93a039;
  0x655b59c3; 0x8f0ccc92; 0xffeff47d; 0x85845dd1;
  0x6fa87e4f; 0xfe2ce6e0; 0xa3014314; 0x4e0811a1;
  0xf7537e82; 0xbd3af235; 0x2ad7d2bb; 0xeb86d391 ].

(** md5.c:79-91 struct MuxerPriv, the fields used for hashing. [m_data] is the
    64-byte union. *)
Record md5 := { m_a : Z; m_b : Z; m_c : Z; m_d : Z; m_data : list Z; m_len : Z }.

(** md5.c:93-117 md5_open; the buffer content is unspecified ([junk]). *)
Definition md5_open (junk : list Z) : md5 :=
  {| m_a := 0x67452301; m_b := 0xefcdab89; m_c := 0x98badcfe; m_d := 0x10325476;
     m_data := junk; m_len := 0 |}.

(** md5.c:119-121 *)
Definition leftrotate (x c : Z) : Z := Z.lor (u32 (Z.shiftl x c)) (Z.shiftr x (32 - c)).

Definition bnot (x : Z) : Z := u32 (Z.lnot x).
Definition kk (i : Z) : Z := nth (Z.to_nat i) k 0.

Section BODY.
(** the word array [data32] *)
Variable data : Z -> Z.

(** md5.c:123-149: the four statement macros. *)
Definition mF (i : Z) (s : Z * Z * Z * Z) : Z * Z * Z * Z :=
  let '(a, b, c, d) := s in
  let a := u32 (b + leftrotate (u32 (a + Z.lor (Z.land b c) (Z.land (bnot b) d) + kk (i + 0) + data (i + 0))) 7) in
  let d := u32 (a + leftrotate (u32 (d + Z.lor (Z.land a b) (Z.land (bnot a) c) + kk (i + 1) + data (i + 1))) 12) in
  let c := u32 (d + leftrotate (u32 (c + Z.lor (Z.land d a) (Z.land (bnot d) b) + kk (i + 2) + data (i + 2))) 17) in
  let b := u32 (c + leftrotate (u32 (b + Z.lor (Z.land c d) (Z.land (bnot c) a) + kk (i + 3) + data (i + 3))) 22) in
  (a, b, c, d).
Definition mG (i : Z) (s : Z * Z * Z * Z) : Z * Z * Z * Z :=
  let '(a, b, c, d) := s in
  let a := u32 (b + leftrotate (u32 (a + Z.lor (Z.land d b) (Z.land (bnot d) c) + kk (i + 0) + data (Z.land (i + 1) 15))) 5) in
  let d := u32 (a + leftrotate (u32 (d + Z.lor (Z.land c a) (Z.land (bnot c) b) + kk (i + 1) + data (Z.land (i + 6) 15))) 9) in
  let c := u32 (d + leftrotate (u32 (c + Z.lor (Z.land b d) (Z.land (bnot b) a) + kk (i + 2) + data (Z.land (i + 11) 15))) 14) in
  let b := u32 (c + leftrotate (u32 (b + Z.lor (Z.land a c) (Z.land (bnot a) d) + kk (i + 3) + data (Z.land (i + 0) 15))) 20) in
  (a, b, c, d).
Definition mH (i : Z) (s : Z * Z * Z * Z) : Z * Z * Z * Z :=
  let '(a, b, c, d) := s in
  let a := u32 (b + leftrotate (u32 (a + Z.lxor (Z.lxor b c) d + kk (i + 0) + data (Z.land (5 - i) 15))) 4) in
  let d := u32 (a + leftrotate (u32 (d + Z.lxor (Z.lxor a b) c + kk (i + 1) + data (Z.land (8 - i) 15))) 11) in
  let c := u32 (d + leftrotate (u32 (c + Z.lxor (Z.lxor d a) b + kk (i + 2) + data (Z.land (11 - i) 15))) 16) in
  let b := u32 (c + leftrotate (u32 (b + Z.lxor (Z.lxor c d) a + kk (i + 3) + data (Z.land (14 - i) 15))) 23) in
  (a, b, c, d).
Definition mI (i : Z) (s : Z * Z * Z * Z) : Z * Z * Z * Z :=
  let '(a, b, c, d) := s in
  let a := u32 (b + leftrotate (u32 (a + Z.lxor c (Z.lor b (bnot d)) + kk (i + 0) + data (Z.land (0 - i) 15))) 6) in
  let d := u32 (a + leftrotate (u32 (d + Z.lxor b (Z.lor a (bnot c)) + kk (i + 1) + data (Z.land (7 - i) 15))) 10) in
  let c := u32 (d + leftrotate (u32 (c + Z.lxor a (Z.lor d (bnot b)) + kk (i + 2) + data (Z.land (14 - i) 15))) 15) in
  let b := u32 (c + leftrotate (u32 (b + Z.lxor d (Z.lor c (bnot a)) + kk (i + 3) + data (Z.land (5 - i) 15))) 21) in
  (a, b, c, d).

(** md5.c:157-160 *)
Definition rounds (s : Z * Z * Z * Z) : Z * Z * Z * Z :=
  let s := mF 12 (mF 8 (mF 4 (mF 0 s))) in
  let s := mG 28 (mG 24 (mG 20 (mG 16 s))) in
  let s := mH 44 (mH 40 (mH 36 (mH 32 s))) in
  mI 60 (mI 56 (mI 52 (mI 48 s))).
End BODY.

(** word [i] of the union, little endian *)
Definition data32 (l : list Z) (i : Z) : Z :=
  let b j := nth (Z.to_nat (4 * i + j)) l 0 in
  b 0 + 256 * b 1 + 65536 * b 2 + 16777216 * b 3.

(** md5.c:151-166 md5_body *)
Definition md5_body (m : md5) : md5 :=
  let '(a, b, c, d) := rounds (data32 (m_data m)) (m_a m, m_b m, m_c m, m_d m) in
  {| m_a := u32 (m_a m + a); m_b := u32 (m_b m + b);
     m_c := u32 (m_c m + c); m_d := u32 (m_d m + d);
     m_data := m_data m; m_len := m_len m |}.

(** [memcpy (&buf[pos], data, n)]: both ranges must be inside their buffers *)
Definition copy (buf : list Z) (pos : Z) (data : list Z) (n : Z) : outcome (list Z) :=
  guard! ((0 <=? pos) && (0 <=? n) && (pos + n <=? zlen buf) && (n <=? zlen data)) in
  Ok (firstn (Z.to_nat pos) buf ++ firstn (Z.to_nat n) data ++ skipn (Z.to_nat (pos + n)) buf).

Definition set_data (m : md5) (d : list Z) : md5 :=
  {| m_a := m_a m; m_b := m_b m; m_c := m_c m; m_d := m_d m; m_data := d; m_len := m_len m |}.
Definition add_len (m : md5) (n : Z) : md5 :=
  {| m_a := m_a m; m_b := m_b m; m_c := m_c m; m_d := m_d m; m_data := m_data m;
     m_len := u64 (m_len m + n) |}.

(** md5.c:183-189 the loop over whole blocks *)
Fixpoint blocks (fuel : nat) (m : md5) (data : list Z) (len : Z) : outcome (md5 * list Z * Z) :=
  if len <? 64 then Ok (m, data, len) else
  match fuel with
  | O => Undef
  | S fuel =>
    let! d := copy (m_data m) 0 data 64 in
    blocks fuel (add_len (md5_body (set_data m d)) 64) (skipn 64 data) (len - 64)
  end.

(** md5.c:171-181 completing a started block *)
Definition fill (m : md5) (data : list Z) (len : Z) : outcome (md5 * list Z * Z) :=
  if z2b (Z.land (m_len m) 63) then
    let tmp := Z.min len (64 - Z.land (m_len m) 63) in
    let! d := copy (m_data m) (Z.land (m_len m) 63) data tmp in
    let m := add_len (set_data m d) tmp in
    let m := if Z.land (m_len m) 63 =? 0 then md5_body m else m in
    Ok (m, skipn (Z.to_nat tmp) data, len - tmp)
  else Ok (m, data, len).

(** md5.c:168-195 md5_update; [len] bytes at the start of [data] *)
Definition md5_update (m : md5) (data : list Z) (len : Z) : outcome md5 :=
  if len =? 0 then Ok m else
  let! r := fill m data len in
  let '(m, data, len) := r in
  let! r := blocks (Z.to_nat len) m data len in
  let '(m, data, len) := r in
  if len =? 0 then Ok m else
  let! d := copy (m_data m) 0 data len in
  Ok (add_len (set_data m d) len).

(** The output picture. [pl_mem] is one allocation and [pl_off] the position of
    [p->data[pl]] in it; the stride may be negative. *)
Inductive layout := I400 | I420 | I422 | I444.
Record pic := { p_w : Z; p_h : Z; p_bpc : Z; p_layout : layout;
                p_mem : Z -> list Z; p_off : Z -> Z; p_stride0 : Z; p_stride1 : Z }.

(** md5.c:212-225, 233-248 one plane: [n] rows of [bytes] bytes *)
Fixpoint rows (n : nat) (m : md5) (mem : list Z) (ptr stride bytes : Z) : outcome md5 :=
  match n with
  | O => Ok m
  | S n =>
    guard! ((bytes =? 0) || ((0 <=? ptr) && (ptr + bytes <=? zlen mem))) in
    let! m := md5_update m (skipn (Z.to_nat ptr) mem) bytes in
    rows n m mem (ptr + stride) stride bytes
  end.

(** md5.c:197-255 md5_write *)
Definition md5_write (m : md5) (p : pic) : outcome md5 :=
  let hbd := b2z (8 <? p_bpc p) in
  let w := p_w p in let h := p_h p in
  let! m := rows (Z.to_nat h) m (p_mem p 0) (p_off p 0) (p_stride0 p) (Z.shiftl w hbd) in
  match p_layout p with
  | I400 => Ok m
  | lay =>
    let ss_ver := match lay with I420 => 1 | _ => 0 end in
    let ss_hor := match lay with I444 => 0 | _ => 1 end in
    let cw := Z.shiftr (w + ss_hor) ss_hor in
    let ch := Z.shiftr (h + ss_ver) ss_ver in
    let! m := rows (Z.to_nat ch) m (p_mem p 1) (p_off p 1) (p_stride1 p) (Z.shiftl cw hbd) in
    rows (Z.to_nat ch) m (p_mem p 2) (p_off p 2) (p_stride1 p) (Z.shiftl cw hbd)
  end.

(** the bytes of a little-endian [uint64_t] *)
Definition le64 (x : Z) : list Z := map (fun i => Z.land (Z.shiftr x (8 * i)) 255) [0; 1; 2; 3; 4; 5; 6; 7].

(** md5.c:262-263 *)
Fixpoint pad_loop (fuel : nat) (m : md5) : outcome md5 :=
  if Z.land (m_len m) 63 =? 56 then Ok m else
  match fuel with
  | O => Undef
  | S fuel => let! m := md5_update m [0] 1 in pad_loop fuel m
  end.

(** md5.c:257-265 md5_finish; [len] is read before anything is hashed *)
Definition md5_finish (m : md5) : outcome md5 :=
  let len := u64 (Z.shiftl (m_len m) 3) in
  let! m := md5_update m [128; 0] 1 in
  let! m := pad_loop 64 m in
  md5_update m (le64 len) 8.

(** [%2.2x] of a byte *)
Definition hex_digit (x : Z) : ascii :=
  nth (Z.to_nat x) (list_ascii_of_string "0123456789abcdef") "?"%char.
Definition hex2 (x : Z) : list ascii := [hex_digit (Z.shiftr x 4); hex_digit (Z.land x 15)].
Definition print_word (x : Z) : list ascii :=
  hex2 (Z.land x 255) ++ hex2 (Z.land (Z.shiftr x 8) 255)
  ++ hex2 (Z.land (Z.shiftr x 16) 255) ++ hex2 (Z.shiftr x 24).

(** md5.c:267-283 md5_close: the text printed *)
Definition md5_close (m : md5) : outcome (list ascii) :=
  let! m := md5_finish m in
  Ok (print_word (m_a m) ++ print_word (m_b m) ++ print_word (m_c m) ++ print_word (m_d m)
      ++ ["010"%char]).

(** [strtoul (t, &ignore, 16)] for a two-character string: white space, a sign,
    an optional "0x" (which needs a third character to matter, so only its '0'
    counts), digits up to the first other character. *)
Definition hex_value (c : ascii) : option Z :=
  let n := Z.of_nat (nat_of_ascii c) in
  if (48 <=? n) && (n <=? 57) then Some (n - 48)
  else if (65 <=? n) && (n <=? 70) then Some (n - 55)
  else if (97 <=? n) && (n <=? 102) then Some (n - 87)
  else None.
Definition is_space (c : ascii) : bool :=
  let n := Z.of_nat (nat_of_ascii c) in (n =? 32) || ((9 <=? n) && (n <=? 13)).
Definition digits2 (c1 c2 : ascii) : Z :=
  match hex_value c1 with
  | None => 0
  | Some v1 => match hex_value c2 with None => v1 | Some v2 => 16 * v1 + v2 end
  end.
Definition digits1 (c : ascii) : Z := match hex_value c with None => 0 | Some v => v end.
Definition strtoul2 (c1 c2 : ascii) : Z :=
  if is_space c1 then (if is_space c2 then 0 else digits1 c2)
  else if Ascii.eqb c1 "-" then u64 (- digits1 c2)
  else if Ascii.eqb c1 "+" then digits1 c2
  else digits2 c1 c2.

(** md5.c:293-300 one word *)
Fixpoint verify_word (j : list Z) (s : list ascii) (acc : Z) : Z * list ascii :=
  match j, s with
  | sh :: j, c1 :: c2 :: s => verify_word j s (Z.lor acc (u32 (Z.shiftl (u32 (strtoul2 c1 c2)) sh)))
  | _, _ => (acc, s)
  end.

(** md5.c:285-309 md5_verify *)
Definition md5_verify (m : md5) (s : list ascii) : outcome Z :=
  let! m := md5_finish m in
  if zlen s <? 32 then Ok (-1) else
  let '(a, s) := verify_word [0; 8; 16; 24] s 0 in
  let '(b, s) := verify_word [0; 8; 16; 24] s 0 in
  let '(c, s) := verify_word [0; 8; 16; 24] s 0 in
  let '(d, s) := verify_word [0; 8; 16; 24] s 0 in
  Ok (b2z (negb ((a =? m_a m) && (b =? m_b m) && (c =? m_c m) && (d =? m_d m)))).

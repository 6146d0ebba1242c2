(** Model of the dav1d tool's demuxers: /repo/tools/input/parse.h, ivf.c,
    annexb.c, section5.c.

    A [FILE] is its bytes, the position and the end-of-file flag; reads never
    fail except by reaching the end. [off_t] is 64 bits (the offsets used stay far
    below). [alloc sz] says whether [dav1d_data_create (buf, sz)] succeeds; it may
    be any predicate. Opening and closing of the file, messages, [timebase] (a
    [double]) and the conversion of the seek target with it are not modelled. *)
From Coq Require Import ZArith List Bool.
From Verif Require Import Base.CInt.
Import ListNotations.
Open Scope Z_scope.
Open Scope outcome_scope.

(** ** stdio *)
Record file := { f_data : list Z; f_pos : Z; f_eof : bool }.

Definition fopen (l : list Z) : file := {| f_data := l; f_pos := 0; f_eof := false |}.
Definition slice (l : list Z) (pos n : Z) : list Z := firstn (Z.to_nat n) (skipn (Z.to_nat pos) l).

(** [fread (ptr, n, 1, f)]; [Some] when it returns 1. C11 7.21.8.1: with [n = 0]
    the result is 0 and nothing changes. A short read consumes what is left. *)
Definition fread (f : file) (n : Z) : option (list Z) * file :=
  if n =? 0 then (None, f)
  else if f_pos f + n <=? zlen (f_data f)
  then (Some (slice (f_data f) (f_pos f) n),
        {| f_data := f_data f; f_pos := f_pos f + n; f_eof := f_eof f |})
  else (None, {| f_data := f_data f; f_pos := Z.max (f_pos f) (zlen (f_data f)); f_eof := true |}).

(** [fseeko (f, off, SEEK_CUR)] and [fseeko (f, off, SEEK_SET)]: positions past the
    end are allowed, negative ones fail. *)
Definition fseek_to (f : file) (p : Z) : bool * file :=
  if p <? 0 then (false, f)
  else (true, {| f_data := f_data f; f_pos := p; f_eof := false |}).
Definition fseek_cur (f : file) (off : Z) : bool * file := fseek_to f (f_pos f + off).

Definition byte0 (l : list Z) : Z := nth 0 l 0.

(** ** parse.h *)

(** parse.h:36-51 leb128: value and number of bytes *)
Fixpoint leb128_loop (n : nat) (i val : Z) (f : file) : option (Z * Z) * file :=
  match n with
  | O => (None, f)   (* not reached: the loop ends at [i = 8] *)
  | S n =>
    match fread f 1 with
    | (None, f) => (None, f)
    | (Some b, f) =>
      let v := byte0 b in
      let more := Z.land v 0x80 in
      let val := Z.lor val (u64 (Z.shiftl (Z.land v 0x7F) (i * 7))) in
      let i := i + 1 in
      if z2b more && (i <? 8) then leb128_loop n i val f
      else if (UINT_MAX <? val) || z2b more then (None, f)
      else (Some (val, i), f)
    end
  end.
Definition leb128 (f : file) : option (Z * Z) * file := leb128_loop 8 0 0 f.

(** parse.h:56-70 leb on a buffer; [sz--] on the smallest [int] is undefined *)
Fixpoint leb_loop (n : nat) (i val : Z) (data : list Z) (pos sz : Z) : outcome (option (Z * Z)) :=
  match n with
  | O => Undef
  | S n =>
    guard! (fits_int (sz - 1)) in
    if sz =? 0 then Ok None else
    let sz := sz - 1 in
    let! v := rd_at data pos in
    let more := Z.land v 0x80 in
    let val := Z.lor val (u64 (Z.shiftl (Z.land v 0x7F) (i * 7))) in
    let i := i + 1 in
    if z2b more && (i <? 8) then leb_loop n i val data (pos + 1) sz
    else if (UINT_MAX <? val) || z2b more then Ok None
    else Ok (Some (val, i))
  end.
Definition leb (data : list Z) (pos sz : Z) : outcome (option (Z * Z)) := leb_loop 8 0 0 data pos sz.

(** checked [int] addition *)
Definition iadd (a b : Z) : outcome Z := guard! (fits_int (a + b)) in Ok (a + b).

(** parse.h:72-107 parse_obu_header: [None] for a negative result that is an
    explicit [-1], otherwise the returned [int], the size and the type *)
Definition parse_obu_header (data : list Z) (pos buf_size : Z) (allow_implicit_size : bool)
  : outcome (option (Z * Z * Z)) :=
  if buf_size =? 0 then Ok None else
  let! b := rd_at data pos in
  if z2b (Z.land b 0x80) then Ok None else
  let type := Z.shiftr (Z.land b 0x78) 3 in
  let extension_flag := Z.shiftr (Z.land b 0x4) 2 in
  let has_size_flag := Z.shiftr (Z.land b 0x2) 1 in
  let! buf_size := iadd buf_size (-1) in
  if z2b extension_flag && (buf_size =? 0) then Ok None else
  let! buf_size := if z2b extension_flag then iadd buf_size (-1) else Ok buf_size in
  let pos := pos + 1 + extension_flag in
  if z2b has_size_flag then
    let! r := leb data pos buf_size in
    match r with
    | None => Ok None
    | Some (obu_size, ret) =>
      let! r := iadd (s32 obu_size) ret in
      let! r := iadd r 1 in
      let! r := iadd r extension_flag in
      Ok (Some (r, obu_size, type))
    end
  else if negb allow_implicit_size then Ok None
  else
    let! r := iadd buf_size 1 in
    let! r := iadd r extension_flag in
    Ok (Some (r, u64 buf_size, type)).

(** include/dav1d/headers.h:48-58 *)
Definition OBU_SEQ_HDR : Z := 1.
Definition OBU_TD : Z := 2.
Definition OBU_FRAME_HDR : Z := 3.
Definition OBU_TILE_GRP : Z := 4.
Definition OBU_FRAME : Z := 6.
Definition PROBE_SIZE : Z := 2048.

(** ** section5.c *)

(** section5.c:61-80, one iteration: [inl] the result, [inr] the next [cnt, seq] *)
Definition s5_probe_step (data : list Z) (cnt seq : Z) : outcome (Z + Z * Z) :=
  let! r := parse_obu_header data cnt (PROBE_SIZE - cnt) false in
  match r with
  | None => Ok (inl 0)
  | Some (ret, obu_size, type) =>
    if ret <? 0 then Ok (inl 0) else
    let! cnt := iadd cnt ret in
    if type =? OBU_SEQ_HDR then Ok (inr (cnt, 1))
    else if (type =? OBU_FRAME) || (type =? OBU_FRAME_HDR) then Ok (inl seq)
    else if (type =? OBU_TD) || (type =? OBU_TILE_GRP) then Ok (inl 0)
    else Ok (inr (cnt, seq))
  end.
(** section5.c:59-82 *)
Fixpoint s5_probe_loop (fuel : nat) (data : list Z) (cnt : Z) (seq : Z) : outcome Z :=
  if negb (cnt <? PROBE_SIZE) then Ok seq else
  match fuel with
  | O => Undef
  | S fuel =>
    let! r := s5_probe_step data cnt seq in
    match r with
    | inl r => Ok r
    | inr (cnt, seq) => s5_probe_loop fuel data cnt seq
    end
  end.
(** section5.c:46-83 section5_probe *)
Definition section5_probe (fuel : nat) (data : list Z) : outcome Z :=
  let! r := parse_obu_header data 0 PROBE_SIZE false in
  match r with
  | None => Ok 0
  | Some (ret, obu_size, type) =>
    if (ret <? 0) || negb (type =? OBU_TD) || (0 <? obu_size) then Ok 0 else
    s5_probe_loop fuel data ret 0
  end.

(** section5.c:104-123 the counting loop of section5_open: [Some n] frames, or
    [None] for an error return *)
Fixpoint s5_count (fuel : nat) (n : Z) (f : file) : outcome (option Z) :=
  match fuel with
  | O => Undef
  | S fuel =>
    match fread f 1 with
    | (None, _) => Ok (Some n)
    | (Some b, f) =>
      let n := if Z.land (Z.shiftr (byte0 b) 3) 0xf =? OBU_TD then u32 (n + 1) else n in
      if Z.land (byte0 b) 0x2 =? 0 then Ok None else
      let '(r, f) := if z2b (Z.land (byte0 b) 0x4) then fread f 1 else (Some [], f) in
      match r with
      | None => Ok None
      | Some _ =>
        match leb128 f with
        | (None, _) => Ok None
        | (Some (len, _), f) => s5_count fuel n (snd (fseek_cur f len))
        end
      end
    end
  end.
(** section5.c:89-126 section5_open *)
Definition section5_open (l : list Z) : outcome (option (Z * file)) :=
  let! r := s5_count (S (length l)) 0 (fopen l) in
  match r with
  | None => Ok None
  | Some n => Ok (Some (n, fopen l))
  end.

(** section5.c:131-161 the loop that finds the end of the temporal unit; it yields
    [total_bytes] and the file, or an error *)
Fixpoint s5_scan (fuel : nat) (first : bool) (total : Z) (f : file) : outcome (option Z * file) :=
  match fuel with
  | O => Undef
  | S fuel =>
    match fread f 1 with
    | (None, f) => if negb first && f_eof f then Ok (Some total, f) else Ok (None, f)
    | (Some b, f) =>
      let obu_type := Z.land (Z.shiftr (byte0 b) 3) 0xf in
      if first && negb (obu_type =? OBU_TD) then Ok (None, f)
      else if negb first && (obu_type =? OBU_TD) then Ok (Some total, snd (fseek_cur f (-1)))
      else if Z.land (byte0 b) 0x2 =? 0 then Ok (None, f)
      else
        let has_extension := b2z (z2b (Z.land (byte0 b) 0x4)) in
        let '(r, f) := if z2b has_extension then fread f 1 else (Some [], f) in
        match r with
        | None => Ok (None, f)
        | Some _ =>
          match leb128 f with
          | (None, f) => Ok (None, f)
          | (Some (len, res), f) =>
            s5_scan fuel false (u64 (total + (1 + has_extension + res + len))) (snd (fseek_cur f len))
          end
        end
    end
  end.

Section ALLOC.
Variable alloc : Z -> bool.

(** section5.c:128-173 section5_read: [Some] packet, or [None] for [-1] *)
Definition section5_read (f : file) : outcome (option (list Z) * file) :=
  let! r := s5_scan (S (length (f_data f))) true 0 f in
  match r with
  | (None, f) => Ok (None, f)
  | (Some total, f) =>
    let f := snd (fseek_cur f (- total)) in
    if negb (alloc total) then Ok (None, f) else Ok (fread f total)
  end.

(** ** annexb.c *)

(** annexb.c:82-117 *)
Fixpoint ab_probe_loop (fuel : nat) (data : list Z) (cnt temporal_unit_size frame_unit_size seq : Z) : outcome Z :=
  if negb (cnt <? PROBE_SIZE) then Ok seq else
  match fuel with
  | O => Undef
  | S fuel =>
    let! avail := iadd PROBE_SIZE (- cnt) in
    let! r := leb data cnt avail in
    match r with
    | None => Ok 0
    | Some (obu_unit_size, ret) =>
      if frame_unit_size <? obu_unit_size + ret then Ok 0 else
      let! cnt := iadd cnt ret in
      let temporal_unit_size := u64 (temporal_unit_size - ret) in
      let frame_unit_size := u64 (frame_unit_size - ret) in
      let! avail := iadd PROBE_SIZE (- cnt) in
      let! r := parse_obu_header data cnt (Z.min avail (s32 obu_unit_size)) true in
      match r with
      | None => Ok 0
      | Some (ret, obu_size, type) =>
        if ret <? 0 then Ok 0 else
        let! cnt := iadd cnt (s32 obu_unit_size) in
        if (type =? OBU_FRAME) || (type =? OBU_FRAME_HDR) then Ok seq
        else if (type =? OBU_TD) || (type =? OBU_TILE_GRP) then Ok 0
        else
          let seq := if type =? OBU_SEQ_HDR then 1 else seq in
          let temporal_unit_size := u64 (temporal_unit_size - obu_unit_size) in
          let frame_unit_size := u64 (frame_unit_size - obu_unit_size) in
          if frame_unit_size <=? 0 then Ok 0
          else ab_probe_loop fuel data cnt temporal_unit_size frame_unit_size seq
      end
    end
  end.
(** annexb.c:48-120 annexb_probe *)
Definition annexb_probe (fuel : nat) (data : list Z) : outcome Z :=
  let! r := leb data 0 PROBE_SIZE in
  match r with
  | None => Ok 0
  | Some (temporal_unit_size, ret) =>
    let cnt := ret in
    let! r := leb data cnt (PROBE_SIZE - cnt) in
    match r with
    | None => Ok 0
    | Some (frame_unit_size, ret) =>
      if temporal_unit_size <? frame_unit_size + ret then Ok 0 else
      let cnt := cnt + ret in
      let temporal_unit_size := u64 (temporal_unit_size - ret) in
      let! r := leb data cnt (PROBE_SIZE - cnt) in
      match r with
      | None => Ok 0
      | Some (obu_unit_size, ret) =>
        if frame_unit_size <=? obu_unit_size + ret then Ok 0 else
        let cnt := cnt + ret in
        let temporal_unit_size := u64 (temporal_unit_size - (obu_unit_size + ret)) in
        let frame_unit_size := u64 (frame_unit_size - (obu_unit_size + ret)) in
        let! r := parse_obu_header data cnt (Z.min (PROBE_SIZE - cnt) (s32 obu_unit_size)) true in
        match r with
        | None => Ok 0
        | Some (ret, obu_size, type) =>
          if (ret <? 0) || negb (type =? OBU_TD) || (0 <? obu_size) then Ok 0 else
          let! cnt := iadd cnt (s32 obu_unit_size) in
          ab_probe_loop fuel data cnt temporal_unit_size frame_unit_size 0
        end
      end
    end
  end.

(** annexb.c:144-149 counting temporal units in annexb_open *)
Fixpoint ab_count (fuel : nat) (n : Z) (f : file) : outcome Z :=
  match fuel with
  | O => Undef
  | S fuel =>
    match leb128 f with
    | (None, _) => Ok n
    | (Some (len, _), f) => ab_count fuel (u32 (n + 1)) (snd (fseek_cur f len))
    end
  end.

(** annexb.c:122-126; the context is zeroed by [calloc] in input_open *)
Record annexb := { ab_f : file; ab_tu : Z; ab_fu : Z }.

(** annexb.c:128-153 annexb_open *)
Definition annexb_open (l : list Z) : outcome (Z * annexb) :=
  let! n := ab_count (S (length l)) 0 (fopen l) in
  Ok (n, {| ab_f := fopen l; ab_tu := 0; ab_fu := 0 |}).

(** annexb.c:155-181 annexb_read. A failed leb128 leaves the size it was to fill
    unchanged. Lines 159-162: *)
Definition ab_get_tu (c : annexb) : bool * annexb :=
  if ab_tu c =? 0 then
    match leb128 (ab_f c) with
    | (Some (v, _), f) => (true, {| ab_f := f; ab_tu := v; ab_fu := ab_fu c |})
    | (None, f) => (false, {| ab_f := f; ab_tu := ab_tu c; ab_fu := ab_fu c |})
    end
  else (true, c).
(** lines 163-167 *)
Definition ab_get_fu (c : annexb) : bool * annexb :=
  if ab_fu c =? 0 then
    match leb128 (ab_f c) with
    | (Some (v, res), f) =>
      if ab_tu c <? u64 (v + res)
      then (false, {| ab_f := f; ab_tu := ab_tu c; ab_fu := v |})
      else (true, {| ab_f := f; ab_tu := u64 (ab_tu c - res); ab_fu := v |})
    | (None, f) => (false, {| ab_f := f; ab_tu := ab_tu c; ab_fu := ab_fu c |})
    end
  else (true, c).
(** lines 168-180 *)
Definition ab_get_obu (c : annexb) : option (list Z) * annexb :=
  match leb128 (ab_f c) with
  | (None, f) => (None, {| ab_f := f; ab_tu := ab_tu c; ab_fu := ab_fu c |})
  | (Some (len, res), f) =>
    if ab_fu c <? u64 (len + res) then (None, {| ab_f := f; ab_tu := ab_tu c; ab_fu := ab_fu c |})
    else if negb (alloc len) then (None, {| ab_f := f; ab_tu := ab_tu c; ab_fu := ab_fu c |})
    else
      let tu := u64 (ab_tu c - (len + res)) in
      let fu := u64 (ab_fu c - (len + res)) in
      let '(r, f) := fread f len in
      (r, {| ab_f := f; ab_tu := tu; ab_fu := fu |})
  end.
Definition annexb_read (c : annexb) : option (list Z) * annexb :=
  match ab_get_tu c with
  | (false, c) => (None, c)
  | (true, c) =>
    match ab_get_fu c with
    | (false, c) => (None, c)
    | (true, c) => ab_get_obu c
    end
  end.

(** ** ivf.c *)

(** ivf.c:48-52 *)
Definition ivf_magic : list Z := [68; 75; 73; 70; 0; 0; 0x20; 0; 65; 86; 48; 49].
Fixpoint list_eqb (a b : list Z) : bool :=
  match a, b with
  | [], [] => true
  | x :: a, y :: b => (x =? y) && list_eqb a b
  | _, _ => false
  end.
(** [memcmp (&data[pos], ref, sizeof ref) == 0]; every byte must be readable *)
Fixpoint mem_eq (data : list Z) (pos : Z) (ref : list Z) : outcome bool :=
  match ref with
  | [] => Ok true
  | x :: ref =>
    let! v := rd_at data pos in
    let! r := mem_eq data (pos + 1) ref in
    Ok ((v =? x) && r)
  end.
(** ivf.c:54-56 ivf_probe *)
Definition ivf_probe (data : list Z) : outcome Z :=
  let! r := mem_eq data 0 ivf_magic in Ok (b2z r).

(** ivf.c:58-64 *)
Definition rl32 (p : list Z) (o : nat) : Z :=
  Z.lor (Z.lor (Z.lor (u32 (Z.shiftl (nth (o + 3) p 0) 24)) (Z.shiftl (nth (o + 2) p 0) 16))
               (Z.shiftl (nth (o + 1) p 0) 8)) (nth o p 0).
(** the [int64_t] result is assigned to a [uint64_t] by both callers *)
Definition rl64 (p : list Z) : Z := Z.lor (u64 (Z.shiftl (rl32 p 4) 32)) (rl32 p 0).

Record ivf := { iv_f : file; iv_broken : bool; iv_last_ts : Z; iv_step : Z }.

(** ivf.c:95-104: number of frames, [broken] and [last_ts] *)
Fixpoint ivf_scan (fuel : nat) (n : Z) (broken : bool) (last_ts : Z) (f : file)
  : outcome (Z * bool * Z * file) :=
  match fuel with
  | O => Undef
  | S fuel =>
    match fread f 4 with
    | (None, f) => Ok (n, broken, last_ts, f)
    | (Some d, f) =>
      let sz := rl32 d 0 in
      match fread f 8 with
      | (None, f) => Ok (n, broken, last_ts, f)
      | (Some d, f) =>
        let ts := rl64 d in
        let broken := if z2b n && (ts <=? last_ts) then true else broken in
        ivf_scan fuel (u32 (n + 1)) broken ts (snd (fseek_cur f sz))
      end
    end
  end.

(** ivf.c:109-110: [gcd] ends as the greatest common divisor *)
Fixpoint gcd_loop (fuel : nat) (a gcd : Z) : outcome Z :=
  match fuel with
  | O => Undef
  | S fuel =>
    guard! (negb (gcd =? 0)) in
    let b := a mod gcd in
    if b =? 0 then Ok gcd else gcd_loop fuel gcd b
  end.
(** ivf.c:114-117 *)
Fixpoint halve_loop (fuel : nat) (num den : Z) : outcome (Z * Z) :=
  if Z.lor num den <=? UINT_MAX then Ok (num, den) else
  match fuel with
  | O => Undef
  | S fuel => halve_loop fuel (Z.shiftr num 1) (Z.shiftr den 1)
  end.
(** ivf.c:106-124 *)
Definition ivf_fps (timebase0 timebase1 num_frames duration : Z) : outcome (Z * Z) :=
  let fps_num := u64 (timebase0 * num_frames) in
  let fps_den := u64 (timebase1 * duration) in
  let! r :=
    if z2b fps_num && z2b fps_den then
      let! gcd := gcd_loop 200 fps_den fps_num in
      guard! (negb (gcd =? 0)) in
      halve_loop 64 (fps_num / gcd) (fps_den / gcd)
    else Ok (fps_num, fps_den) in
  let '(fps_num, fps_den) := r in
  if z2b fps_num && z2b fps_den then Ok (u32 fps_num, u32 fps_den) else Ok (0, 0).

Record ivf_info := { in_fps : Z * Z; in_frames : Z; in_timebase : Z * Z }.

(** ivf.c:66-133 ivf_open; [None] for [-1]. The division in line 127 is undefined
    for a file without frames. *)
Definition ivf_open (l : list Z) : outcome (option (ivf * ivf_info)) :=
  match fread (fopen l) 32 with
  | (None, _) => Ok None
  | (Some hdr, f) =>
    let! tag := mem_eq hdr 0 (firstn 4 ivf_magic) in
    if negb tag then Ok None else
    let! av1 := mem_eq hdr 8 (skipn 8 ivf_magic) in
    if negb av1 then Ok None else
    let timebase0 := rl32 hdr 16 in
    let timebase1 := rl32 hdr 20 in
    let duration := rl32 hdr 24 in
    let! r := ivf_scan (S (length l)) 0 false 0 f in
    let '(num_frames, broken, _, f) := r in
    let! fps := ivf_fps timebase0 timebase1 num_frames duration in
    guard! (negb (num_frames =? 0)) in
    let step := duration / num_frames in
    Ok (Some ({| iv_f := snd (fseek_to f 32); iv_broken := broken; iv_last_ts := 0; iv_step := step |},
              {| in_fps := fps; in_frames := num_frames; in_timebase := (timebase0, timebase1) |}))
  end.

(** ivf.c:135-151 ivf_read_header: size, offset, time stamp *)
Definition ivf_read_header (c : ivf) : option (Z * Z * Z) * ivf :=
  let up f := {| iv_f := f; iv_broken := iv_broken c; iv_last_ts := iv_last_ts c; iv_step := iv_step c |} in
  let off := f_pos (iv_f c) in
  match fread (iv_f c) 4 with
  | (None, f) => (None, up f)
  | (Some d, f) =>
    let sz := rl32 d 0 in
    if negb (iv_broken c) then
      match fread f 8 with
      | (None, f) => (None, up f)
      | (Some d, f) => (Some (sz, off, rl64 d), up f)
      end
    else
      match fseek_cur f 8 with
      | (false, f) => (None, up f)
      | (true, f) => (Some (sz, off, if 32 <? off then u64 (iv_last_ts c + iv_step c) else 0), up f)
      end
  end.

(** ivf.c:153-169 ivf_read: bytes, offset, time stamp *)
Definition ivf_read (c : ivf) : option (list Z * Z * Z) * ivf :=
  match ivf_read_header c with
  | (None, c) => (None, c)
  | (Some (sz, off, ts), c) =>
    if negb (alloc sz) then (None, c) else
    match fread (iv_f c) sz with
    | (None, f) =>
      (None, {| iv_f := f; iv_broken := iv_broken c; iv_last_ts := iv_last_ts c; iv_step := iv_step c |})
    | (Some d, f) =>
      (Some (d, off, ts), {| iv_f := f; iv_broken := iv_broken c; iv_last_ts := ts; iv_step := iv_step c |})
    end
  end.

(** ivf.c:176-182 *)
Fixpoint ivf_seek_loop (fuel : nat) (ts : Z) (c : ivf) : outcome (bool * ivf) :=
  match fuel with
  | O => Undef
  | S fuel =>
    match ivf_read_header c with
    | (None, c) => Ok (false, c)
    | (Some (sz, _, cur), c) =>
      if ts <=? cur then Ok (true, c) else
      let '(ok, f) := fseek_cur (iv_f c) sz in
      if negb ok then Ok (false, c) else
      ivf_seek_loop fuel ts {| iv_f := f; iv_broken := iv_broken c; iv_last_ts := cur; iv_step := iv_step c |}
    end
  end.
(** ivf.c:171-188 ivf_seek to time stamp [ts]; the result is whether it worked *)
Definition ivf_seek (ts : Z) (c : ivf) : outcome (bool * ivf) :=
  let with_f f := {| iv_f := f; iv_broken := iv_broken c; iv_last_ts := iv_last_ts c; iv_step := iv_step c |} in
  let '(ok, f) := if ts <=? iv_last_ts c then fseek_to (iv_f c) 32 else (true, iv_f c) in
  if negb ok then Ok (false, with_f f) else
  let! r := ivf_seek_loop (S (length (f_data f))) ts (with_f f) in
  match r with
  | (false, c) => Ok (false, c)
  | (true, c) =>
    let '(ok, f) := fseek_cur (iv_f c) (-12) in
    Ok (ok, {| iv_f := f; iv_broken := iv_broken c; iv_last_ts := iv_last_ts c; iv_step := iv_step c |})
  end.
End ALLOC.

(** ** input.c *)
Inductive demuxer := D_ivf | D_annexb | D_section5.
(** input.c:104-109: the first demuxer whose probe accepts the buffer *)
Definition probe_all (fuel : nat) (data : list Z) : outcome (option demuxer) :=
  let! r := ivf_probe data in
  if z2b r then Ok (Some D_ivf) else
  let! r := annexb_probe fuel data in
  if z2b r then Ok (Some D_annexb) else
  let! r := section5_probe fuel data in
  if z2b r then Ok (Some D_section5) else Ok None.

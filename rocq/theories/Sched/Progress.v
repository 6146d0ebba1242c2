(** Frame progress publication by the worker threads,
    /repo/src/thread_task.c:435-453 (get_frame_progress) and :903-914 (end of
    dav1d_worker_task), as a transition system whose steps are the individual atomic
    operations.  One worker per superblock row; all interleavings are allowed.

    Simplifications: sequentially consistent atomics (the code uses the default memory
    order); the picture has not been released by a flush (f->sr_cur.p.data[0] is
    non-NULL); the abort of a frame whose initialisation fails happens before row tasks
    exist and is not included. *)
From Coq Require Import ZArith List Bool.
From Verif Require Import Base.CInt.
Import ListNotations.
Open Scope Z_scope.

(** thread_task.h:35 FRAME_ERROR. *)
Definition FRAME_ERROR : Z := UINT_MAX - 1.
(** Frame parameters: more than one frame context; number of superblock rows; 128x128
    superblocks.  decode.c:3560 sb_shift, thread_task.c:868 sbsz, :239 prog_sz. *)
Record cfg : Type := mkCfg { fthr : bool; sbh : Z; sb128 : bool }.
Definition sb_shift (c : cfg) : Z := 4 + b2z (sb128 c).
Definition sbsz (c : cfg) : Z := Z.shiftl 16 (b2z (sb128 c)) * 4.
Definition prog_sz (c : cfg) : Z := Z.shiftr (Z.land (sbh c + 31) (Z.lnot 31)) 5.

(** Where the worker of a row is. *)
Inductive phase : Type :=
| Working            (* filters of the row not finished *)
| Finished           (* finished, bit not set yet *)
| Marked             (* bit set (:905), waiting for f->task_thread.lock *)
| Locked             (* holds the lock; about to load progress[1] (:438) *)
| Scanning (idx : Z) (* about to load word idx (:445) *)
| Scanned (r : Z)    (* get_frame_progress returned r; about to load error (:909) *)
| Storing (r : Z) (e : bool)  (* about to store progress[1] (:912) *)
| Stored (r : Z)     (* about to unlock *)
| Unlocked (r : Z)   (* about to set done[0] if r+1 = sbh (:914) *)
| Done.
Record st : Type := mkSt {
  words : list Z; pub : Z; err : bool; lock : option Z; ph : Z -> phase; done0 : bool }.
Definition upd (f : Z -> phase) (i : Z) (v : phase) : Z -> phase := fun j => if j =? i then v else f j.

(** ctz of a non-zero 32-bit value. *)
Fixpoint ctz_from (n : nat) (i v : Z) : Z :=
  match n with O => i | S n => if Z.testbit v i then i else ctz_from n (i + 1) v end.
Definition ctz (v : Z) : Z := ctz_from 32 0 v.

(** Result of letting the worker of a row take its next step. *)
Inductive result : Type := Blocked | Bad | Next (s : st).
Definition step (c : cfg) (s : st) (row : Z) : result :=
  let go p := Next (mkSt (words s) (pub s) (err s) (lock s) (upd (ph s) row p) (done0 s)) in
  match ph s row with
  | Working => go Finished
  | Finished =>                                                     (* :905 *)
      let i := Z.shiftr row 5 in
      match rd_at (words s) i with
      | Undef => Bad
      | Ok w => match wr_at (words s) i (u32 (Z.lor w (Z.shiftl 1 (Z.land row 31)))) with
                | Undef => Bad
                | Ok ws => Next (mkSt ws (pub s) (err s) (lock s) (upd (ph s) row Marked) (done0 s))
                end
      end
  | Marked =>                                                       (* :907 *)
      match lock s with
      | Some _ => Blocked
      | None => Next (mkSt (words s) (pub s) (err s) (Some row) (upd (ph s) row Locked) (done0 s))
      end
  | Locked =>                                                       (* :438-441 *)
      let frame_prog := if fthr c then pub s else 0 in
      if FRAME_ERROR <=? frame_prog then go (Scanned (sbh c - 1))
      else go (Scanning (Z.shiftr frame_prog (sb_shift c + 7)))
  | Scanning idx =>                                                 (* :443-452 *)
      match rd_at (words s) idx with
      | Undef => Bad
      | Ok w =>
          let val := u32 (Z.lnot w) in
          if negb (val =? 0) then go (Scanned (Z.lor (Z.shiftl idx 5) (ctz val) - 1))
          else if idx + 1 <? prog_sz c then go (Scanning (idx + 1))
          else go (Scanned (Z.lor (Z.shiftl (idx + 1) 5) 0 - 1))
      end
  | Scanned r => go (Storing r (err s))                             (* :909 *)
  | Storing r e =>                                                  (* :910-912 *)
      let y := if r + 1 =? sbh c then UINT_MAX else u32 ((r + 1) * sbsz c) in
      if fthr c then Next (mkSt (words s) (if e then FRAME_ERROR else y) (err s) (lock s) (upd (ph s) row (Stored r)) (done0 s))
      else go (Stored r)
  | Stored r => Next (mkSt (words s) (pub s) (err s) None (upd (ph s) row (Unlocked r)) (done0 s))
  | Unlocked r =>
      Next (mkSt (words s) (pub s) (err s) (lock s) (upd (ph s) row Done) (done0 s || (r + 1 =? sbh c)))
  | Done => Blocked
  end.
(** Any worker or tile thread may flag an error at any time. *)
Definition set_err (s : st) : st := mkSt (words s) (pub s) true (lock s) (ph s) (done0 s).

(** thread_task.c:238-249. *)
Definition init (c : cfg) : st :=
  mkSt (repeat 0 (Z.to_nat (prog_sz c))) 0 false None (fun _ => Working) false.

Inductive trans (c : cfg) (s s' : st) : Prop :=
| t_row (row : Z) : 0 <= row < sbh c -> step c s row = Next s' -> trans c s s'
| t_err : s' = set_err s -> trans c s s'.
Inductive reach (c : cfg) : st -> Prop :=
| r_init : reach c (init c)
| r_step s s' : reach c s -> trans c s s' -> reach c s'.

(** Model of the buffer pools: /repo/src/mem.c:220-318, used by any number of
    threads at once.

    Memory is a map from addresses to live objects; a new object may get any
    address that is free at that moment, including that of an object freed before.
    Touching memory that is not live (any more) is undefined, as is freeing it, a
    failed [assert], and [int] overflow of the reference count. The free list is
    the chain of [next] pointers inside the buffers. A section that holds
    [pool->lock] is one step; the steps of different threads interleave freely.

    The users of the pool may: ask for a buffer while they have not called
    dav1d_mem_pool_end (if fewer than 2^31-2 are in use); give back a buffer they hold; call dav1d_mem_pool_end once.
    Allocation may fail at any time. Initialisation of the mutex is not modelled. *)
From Coq Require Import ZArith List Bool.
From Verif Require Import Base.CInt.
Import ListNotations.
Open Scope Z_scope.
Open Scope outcome_scope.

(** mem.h:96-107 *)
Inductive obj : Type :=
| OPool (buf : option nat) (ref_cnt : Z) (ended : bool)
| OBuf (size : Z) (next : option nat).
Definition heap := nat -> option obj.
Definition hset (h : heap) (a : nat) (o : option obj) : heap := fun x => if Nat.eqb x a then o else h x.

(** where a thread is: *)
Inductive pc : Type :=
| PopCheck (b : nat) (size : Z)   (* mem.c:251: got [b] from the list *)
| PopAlloc (size : Z)             (* :262 *)
| PopFail                         (* :265: allocation failed, about to lock *)
| PushFree (b : nat) (ref_cnt : Z) (* :236: the pool has ended, about to free [b] *)
| EndFree (b : option nat) (ref_cnt : Z) (* :311: walking the list *)
| Last (ref_cnt : Z).             (* :237, :269, :316: the test for destruction *)

Record st : Type := { mem : heap; held : list nat; ended : bool; pcs : list pc }.

Definition remove1 (b : nat) (l : list nat) : list nat :=
  (fix go l := match l with [] => [] | x :: l => if Nat.eqb x b then l else x :: go l end) l.
Definition drop_nth {A} (i : nat) (l : list A) : list A := firstn i l ++ skipn (S i) l.

Section POOL.
Variable pool : nat.  (* its address *)

Definition get_pool (h : heap) : outcome (option nat * Z * bool) :=
  match h pool with Some (OPool b r e) => Ok (b, r, e) | _ => Undef end.
Definition get_buf (h : heap) (a : nat) : outcome (Z * option nat) :=
  match h a with Some (OBuf s n) => Ok (s, n) | _ => Undef end.
(** dav1d_free_aligned of a buffer *)
Definition free_buf (h : heap) (a : nat) : outcome heap :=
  let! _ := get_buf h a in Ok (hset h a None).

(** mem.c:240-249, the locked part of dav1d_mem_pool_pop *)
Definition pop_enter (h : heap) (size : Z) : outcome (heap * pc) :=
  let! r := get_pool h in
  let '(buf, ref_cnt, e) := r in
  guard! (fits_int (ref_cnt + 1)) in
  match buf with
  | Some b =>
    let! r := get_buf h b in
    let '(_, next) := r in
    Ok (hset h pool (Some (OPool next (ref_cnt + 1) e)), PopCheck b size)
  | None => Ok (hset h pool (Some (OPool None (ref_cnt + 1) e)), PopAlloc size)
  end.
(** mem.c:226-235, the locked part of dav1d_mem_pool_push; [None] when done *)
Definition push_enter (h : heap) (b : nat) : outcome (heap * option pc) :=
  let! r := get_pool h in
  let '(buf, ref_cnt, e) := r in
  let ref_cnt := ref_cnt - 1 in
  guard! (fits_int ref_cnt) in
  if negb e then
    let! r := get_buf h b in
    let h := hset h b (Some (OBuf (fst r) buf)) in
    let h := hset h pool (Some (OPool (Some b) ref_cnt e)) in
    guard! (0 <? ref_cnt) in
    Ok (h, None)
  else Ok (hset h pool (Some (OPool buf ref_cnt e)), Some (PushFree b ref_cnt)).
(** mem.c:304-309 the locked part of dav1d_mem_pool_end *)
Definition end_enter (h : heap) : outcome (heap * pc) :=
  let! r := get_pool h in
  let '(buf, ref_cnt, _) := r in
  guard! (fits_int (ref_cnt - 1)) in
  Ok (hset h pool (Some (OPool None (ref_cnt - 1) true)), EndFree buf (ref_cnt - 1)).

(** What a step of a thread leads to: another place, the return of a buffer, or the
    end of the call. *)
Inductive res : Type := Goto (p : pc) | Return (b : nat) | Done.

(** [a]: the address a successful allocation gives, [None] for failure. The result
    is [None] if [a] is not possible. *)
Definition run (h : heap) (p : pc) (a : option nat) : option (outcome (heap * res)) :=
  match p with
  | PopCheck b size =>                                          (* mem.c:250-256 *)
    Some (let! r := get_buf h b in
          if negb (fst r =? size) then
            let! h := free_buf h b in Ok (h, Goto (PopAlloc size))
          else Ok (h, Return b))
  | PopAlloc size =>                                            (* mem.c:262-274 *)
    match a with
    | None => Some (Ok (h, Goto PopFail))
    | Some x =>
      match h x with
      | None => Some (Ok (hset h x (Some (OBuf size None)), Return x))
      | Some _ => None
      end
    end
  | PopFail =>                                                  (* mem.c:265-268 *)
    Some (let! r := get_pool h in
          let '(buf, ref_cnt, e) := r in
          guard! (fits_int (ref_cnt - 1)) in
          Ok (hset h pool (Some (OPool buf (ref_cnt - 1) e)), Goto (Last (ref_cnt - 1))))
  | PushFree b ref_cnt =>                                       (* mem.c:236 *)
    Some (let! h := free_buf h b in Ok (h, Goto (Last ref_cnt)))
  | EndFree (Some b) ref_cnt =>                                 (* mem.c:312-314 *)
    Some (let! r := get_buf h b in
          let! h := free_buf h b in
          Ok (h, Goto (EndFree (snd r) ref_cnt)))
  | EndFree None ref_cnt => Some (Ok (h, Goto (Last ref_cnt)))  (* mem.c:311 *)
  | Last ref_cnt =>                                             (* mem.c:220-223 *)
    Some (if ref_cnt =? 0 then let! _ := get_pool h in Ok (hset h pool None, Done)
          else Ok (h, Done))
  end.

Inductive label : Type :=
| LPop (size : Z) | LPush (b : nat) | LEnd | LRun (i : nat) (a : option nat).
(** [None]: not possible, or against the rules for the users *)
Definition exec (s : st) (l : label) : option (outcome st) :=
  match l with
  | LPop size =>
    if ended s || negb (zlen (held s) + zlen (pcs s) <? INT_MAX - 1) then None else
    Some (let! r := pop_enter (mem s) size in
          Ok {| mem := fst r; held := held s; ended := false; pcs := snd r :: pcs s |})
  | LPush b =>
    if existsb (Nat.eqb b) (held s) then
      Some (let! r := push_enter (mem s) b in
            Ok {| mem := fst r; held := remove1 b (held s); ended := ended s;
                  pcs := match snd r with Some p => p :: pcs s | None => pcs s end |})
    else None
  | LEnd =>
    if ended s then None else
    Some (let! r := end_enter (mem s) in
          Ok {| mem := fst r; held := held s; ended := true; pcs := snd r :: pcs s |})
  | LRun i a =>
    match nth_error (pcs s) i with
    | None => None
    | Some p =>
      match run (mem s) p a with
      | None => None
      | Some r =>
        Some (let! r := r in
              Ok match r with
                 | (h, Goto p) => {| mem := h; held := held s; ended := ended s; pcs := upd_nat (pcs s) i p |}
                 | (h, Return b) => {| mem := h; held := b :: held s; ended := ended s; pcs := drop_nth i (pcs s) |}
                 | (h, Done) => {| mem := h; held := held s; ended := ended s; pcs := drop_nth i (pcs s) |}
                 end)
      end
    end
  end.

(** mem.c:279-301 dav1d_mem_pool_init: the only object is the pool *)
Definition init : st :=
  {| mem := hset (fun _ => None) pool (Some (OPool None 1 false)); held := []; ended := false; pcs := [] |}.

(** a possible run: every label is possible where it comes *)
Inductive runs : st -> list label -> outcome st -> Prop :=
| R_nil : forall s, runs s [] (Ok s)
| R_bad : forall s l ls, exec s l = Some Undef -> runs s (l :: ls) Undef
| R_cons : forall s l ls s' r, exec s l = Some (Ok s') -> runs s' ls r -> runs s (l :: ls) r.
End POOL.

(** Film grain shared by the worker threads: dav1d_task_delayed_fg and delayed_fg_task,
    /repo/src/thread_task.c:349-366 and :465-550, with the part of dav1d_worker_task that
    starts them (:553-566) and the waiting of idle workers (:662-670).  A transition system
    whose steps are the individual atomic operations; sections that hold the lock and touch
    only lock-protected data are one step.

    Simplifications: sequentially consistent atomics; other tasks of a worker are a single
    "busy" phase; the conditional signals that merely start more workers early are covered by
    letting a waiting worker wake up at any time (POSIX allows spurious wake-ups). *)
From Coq Require Import ZArith List Bool.
From Verif Require Import Base.CInt.
Import ListNotations.
Open Scope Z_scope.

Inductive wphase : Type :=
| WCheck              (* top of the loop, wants ttd->lock *)
| WWait               (* pthread_cond_wait on ttd->cond *)
| WBusy               (* another task *)
| WPrep               (* :481-498 preparing, unlocked, exec = 0 *)
| WPrepDone           (* type = APPLY stored; wants the lock (:500) *)
| WClaim              (* holds the lock; about to fetch_add progress[0] (:504) *)
| WClaimed (row : Z)  (* holds the lock; about to unlock *)
| WLoop (row : Z)     (* :507 *)
| WLast (row : Z)     (* wants the lock to clear exec (:511) *)
| WApply (row : Z)    (* applying grain to the strip *)
| WApplied (row : Z)  (* about to fetch_add progress[0] (:533) *)
| WNext (row : Z)     (* next row claimed; about to fetch_add progress[1] (:534) *)
| WExit               (* wants the lock (:536) *)
| WExit1              (* holds the lock, exec = 0; about to fetch_add progress[1] (:538) *)
| WExit2 (done : Z)   (* about to load progress[0] (:539) *)
| WExit3 (fin : bool) (* about to signal (if fin) and give the lock up *).
Inductive cphase : Type :=
| COut                (* not in dav1d_task_delayed_fg *)
| CInit               (* fields set, wants the lock (:358) *)
| CWait               (* waiting on delayed_fg.cond *)
| CWoken              (* woken, wants the lock to look at finished *).
Record st : Type := mkSt {
  exec : bool; prep : bool (* type = FG_PREP *); p0 : Z; p1 : Z; finished : bool; lock : bool;
  height : Z; caller : cphase; ws : list wphase; log : list Z (* strips applied *) }.

(** FG_BLOCK_SIZE 32. *)
Definition progmax (s : st) : Z := Z.quot (height s + 32 - 1) 32.

Definition setw (s : st) (w : nat) (p : wphase) : st :=
  mkSt (exec s) (prep s) (p0 s) (p1 s) (finished s) (lock s) (height s) (caller s) (upd_nat (ws s) w p) (log s).
Definition w_exec (b : bool) (s : st) := mkSt b (prep s) (p0 s) (p1 s) (finished s) (lock s) (height s) (caller s) (ws s) (log s).
Definition w_prep (b : bool) (s : st) := mkSt (exec s) b (p0 s) (p1 s) (finished s) (lock s) (height s) (caller s) (ws s) (log s).
Definition w_p0 (v : Z) (s : st) := mkSt (exec s) (prep s) v (p1 s) (finished s) (lock s) (height s) (caller s) (ws s) (log s).
Definition w_p1 (v : Z) (s : st) := mkSt (exec s) (prep s) (p0 s) v (finished s) (lock s) (height s) (caller s) (ws s) (log s).
Definition w_fin (b : bool) (s : st) := mkSt (exec s) (prep s) (p0 s) (p1 s) b (lock s) (height s) (caller s) (ws s) (log s).
Definition w_lock (b : bool) (s : st) := mkSt (exec s) (prep s) (p0 s) (p1 s) (finished s) b (height s) (caller s) (ws s) (log s).
Definition w_caller (p : cphase) (s : st) := mkSt (exec s) (prep s) (p0 s) (p1 s) (finished s) (lock s) (height s) p (ws s) (log s).
Definition w_log (l : list Z) (s : st) := mkSt (exec s) (prep s) (p0 s) (p1 s) (finished s) (lock s) (height s) (caller s) (ws s) l.

(** Next step of worker [w]; [ch] resolves what an idle worker does.  None: blocked. *)
Definition wstep (s : st) (w : nat) (ch : bool) : option st :=
  match nth_error (ws s) w with
  | None => None
  | Some p =>
    match p with
    | WCheck =>
        if lock s then None else
        if exec s then
          if prep s then Some (setw (w_exec false s) w WPrep)
          else Some (setw (w_lock true s) w WClaim)
        else Some (setw s w (if ch then WWait else WBusy))
    | WWait | WBusy => Some (setw s w WCheck)
    | WPrep => Some (setw (w_prep false s) w WPrepDone)
    | WPrepDone => if lock s then None else Some (setw (w_exec true (w_lock true s)) w WClaim)
    | WClaim => Some (setw (w_p0 (p0 s + 1) s) w (WClaimed (p0 s)))
    | WClaimed row => Some (setw (w_lock false s) w (WLoop row))
    | WLoop row =>
        if row <? progmax s then
          if row + 1 <? progmax s then Some (setw s w (WApply row)) else Some (setw s w (WLast row))
        else Some (setw s w WExit)
    | WLast row => if lock s then None else Some (setw (w_exec false s) w (WApply row))
    | WApply row => Some (setw (w_log (row :: log s) s) w (WApplied row))
    | WApplied row => Some (setw (w_p0 (p0 s + 1) s) w (WNext (p0 s)))
    | WNext row => Some (setw (w_p1 (p1 s + 1) s) w (WLoop row))
    | WExit => if lock s then None else Some (setw (w_exec false (w_lock true s)) w WExit1)
    | WExit1 => Some (setw (w_p1 (p1 s + 1) s) w (WExit2 (p1 s + 1)))
    | WExit2 done => Some (setw s w (WExit3 (p0 s <=? done)))
    | WExit3 fin =>
        let s := setw (w_lock false s) w WCheck in
        Some (if fin then w_fin true (match caller s with CWait => w_caller CWoken s | _ => s end) else s)
    end
  end.
(** The caller: entering with a picture of height [h]; starting the workers, signalling
    worker [w] if every worker waits; waiting; returning. *)
Definition all_waiting (s : st) : bool := forallb (fun p => match p with WWait => true | _ => false end) (ws s).
Definition cstep (s : st) (h : Z) (w : nat) : option st :=
  match caller s with
  | COut => Some (mkSt (exec s) true 0 0 (finished s) (lock s) h CInit (ws s) [])
  | CInit => if lock s then None else
      let s := w_caller CWait (w_fin false (w_exec true s)) in
      Some (if all_waiting s then setw s w WCheck else s)
  | CWait => Some (w_caller CWoken s)
  | CWoken => if lock s then None else Some (w_caller (if finished s then COut else CWait) s)
  end.
Definition init (n : nat) : st := mkSt false false 0 0 false false 1 COut (repeat WCheck n) [].
Inductive trans (s s' : st) : Prop :=
| t_w w ch : wstep s w ch = Some s' -> trans s s'
| t_c h w : 1 <= h <= 65536 -> (w < length (ws s))%nat -> cstep s h w = Some s' -> trans s s'.
Inductive reach (n : nat) : st -> Prop :=
| r_init : reach n (init n)
| r_step s s' : reach n s -> trans s s' -> reach n s'.

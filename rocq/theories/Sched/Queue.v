(** The task queue of a frame: insert_tasks, insert_tasks_between, add_pending,
    merge_pending_frame and the removal at "found:", /repo/src/thread_task.c:98-204 and
    :672-679, at the level of the linked-list pointers.

    A task is identified by its address; [nxt] is the next field of every task.  insert_tasks
    is only ever called through insert_task (first = last).  The waking of other threads and
    the updates of the scheduling hints (reset_task_cur) do not touch the lists and are left
    out; a scan may start from any hint.  Calls
    after a flush was requested return without inserting ([flush]). *)
From Coq Require Import ZArith List Bool.
From Verif Require Import Base.CInt.
Import ListNotations.
Open Scope Z_scope.
Local Open Scope outcome_scope.

(** internal.h:77-91 *)
Definition T_INIT : Z := 0.
Definition T_INIT_CDF : Z := 1.
Definition T_ENTROPY : Z := 2.
Definition T_RECON : Z := 4.
Record task : Type := mkTask { ty : Z; sby : Z }.
Record st : Type := mkSt {
  info : Z -> task; nxt : Z -> option Z;
  head : option Z; tail : option Z;                  (* f->task_thread.task_head/tail *)
  phead : option Z; ptail : option Z; merge : bool;  (* pending_tasks *)
  flush : bool }.
(** Addresses of the two tile task arrays, in units of tasks. *)
Record arrays : Type := mkArr { tile_tasks : bool -> Z }.

Definition set_nxt (n : Z -> option Z) (a : Z) (v : option Z) : Z -> option Z := fun x => if x =? a then v else n x.
Definition opt_eqb (a b : option Z) : bool :=
  match a, b with Some x, Some y => x =? y | None, None => true | _, _ => false end.

(** thread_task.c:98-113. *)
Definition insert_between (s : st) (first : Z) (a b : option Z) : outcome st :=
  if flush s then Ok s else
  guard! (match a with None => true | Some a => opt_eqb (nxt s a) b end) in
  let head' := match a with None => Some first | Some _ => head s end in
  let nxt1 := match a with None => nxt s | Some a => set_nxt (nxt s) a (Some first) end in
  let tail' := match b with None => Some first | Some _ => tail s end in
  Ok (mkSt (info s) (set_nxt nxt1 first b) head' tail' (phead s) (ptail s) (merge s) (flush s)).

(** The comparison of one loop iteration, :122-164. *)
Inductive verdict : Type := Continue | Insert | Bad.
Definition compare (ar : arrays) (s : st) (first p : Z) : verdict :=
  let f := info s first in let t := info s p in
  let tile :=
    if negb ((ty f =? T_RECON) || (ty f =? T_ENTROPY)) then Bad
    else if negb (ty f =? ty t) then Bad
    else if negb (sby t =? sby f) then Bad
    else
      let base := tile_tasks ar (ty f =? T_ENTROPY) in
      let ti := first - base in let pi := p - base in
      if ti =? pi then Bad else if pi <? ti then Continue else Insert in
  if ty t =? T_ENTROPY then
    if T_ENTROPY <? ty f then Continue
    else if sby t <? sby f then Continue
    else if sby f <? sby t then Insert
    else tile
  else
    if ty f =? T_ENTROPY then Insert
    else if sby t <? sby f then Continue
    else if sby f <? sby t then Insert
    else if ty t <? ty f then Continue
    else if ty f <? ty t then Insert
    else tile.
Fixpoint insert_loop (fuel : nat) (ar : arrays) (s : st) (first : Z) (prev cur : option Z) : outcome st :=
  match cur with
  | None => insert_between s first prev None                     (* :166-167 *)
  | Some p =>
      match fuel with
      | O => Undef
      | S fuel =>
          match compare ar s first p with
          | Bad => Undef
          | Insert => insert_between s first prev (Some p)
          | Continue => insert_loop fuel ar s first (Some p) (nxt s p)
          end
      end
  end.
Definition insert_task (fuel : nat) (ar : arrays) (s : st) (t : Z) : outcome st :=
  insert_loop fuel ar s t None (head s).

(** :176-186 add_pending (one critical section). *)
Definition add_pending (s : st) (t : Z) : outcome st :=
  let n1 := set_nxt (nxt s) t None in
  match phead s with
  | None => Ok (mkSt (info s) n1 (head s) (tail s) (Some t) (Some t) true (flush s))
  | Some h =>
      match ptail s with
      | None => Undef
      | Some l => Ok (mkSt (info s) (set_nxt n1 l (Some t)) (head s) (tail s) (Some h) (Some t) true (flush s))
      end
  end.
(** :188-205 merge_pending_frame. *)
Fixpoint drain (fuel : nat) (ar : arrays) (s : st) (t : option Z) : outcome st :=
  match t with
  | None => Ok s
  | Some t =>
      match fuel with
      | O => Undef
      | S fuel => let tmp := nxt s t in
          let! s := insert_task fuel ar s t in drain fuel ar s tmp
      end
  end.
Definition merge_pending (fuel : nat) (ar : arrays) (s : st) : outcome st :=
  if merge s then
    let t := phead s in
    drain fuel ar (mkSt (info s) (nxt s) (head s) (tail s) None None false (flush s)) t
  else Ok s.
(** :672-679 removal of [t], whose predecessor is taken to be [prev]. *)
Definition remove (s : st) (prev : option Z) (t : Z) : st :=
  let n1 := match prev with Some p => set_nxt (nxt s) p (nxt s t) | None => nxt s end in
  let head' := match prev with Some _ => head s | None => nxt s t end in
  let tail' := match nxt s t with None => prev | Some _ => tail s end in
  mkSt (info s) (set_nxt n1 t None) head' tail' (phead s) (ptail s) (merge s) (flush s).
(** The scan of :598-657 for the task taken, from the position hint (task_cur_prev). *)
Fixpoint scan (fuel : nat) (s : st) (t : Z) (prev cur : option Z) : outcome (option Z) :=
  match cur with
  | None => Undef
  | Some c => if c =? t then Ok prev else
      match fuel with O => Undef | S fuel => scan fuel s t (Some c) (nxt s c) end
  end.
Definition find_prev (fuel : nat) (s : st) (hint : option Z) (t : Z) : outcome (option Z) :=
  scan fuel s t hint (match hint with Some h => nxt s h | None => head s end).
Definition take (fuel : nat) (s : st) (hint : option Z) (t : Z) : outcome st :=
  let! prev := find_prev fuel s hint t in Ok (remove s prev t).
(** :629-640 a row task is being taken: the task of the next row (the following array
    element) is given its fields and inserted; then the row task is removed, using the
    predecessor found before the insertion. *)
Definition set_info (s : st) (t : Z) (v : task) : st :=
  mkSt (fun x => if x =? t then v else info s x) (nxt s) (head s) (tail s) (phead s) (ptail s) (merge s) (flush s).
Definition set_next (s : st) (t : Z) (v : option Z) : st :=
  mkSt (info s) (set_nxt (nxt s) t v) (head s) (tail s) (phead s) (ptail s) (merge s) (flush s).
Definition take_row (fuel : nat) (ar : arrays) (s : st) (hint : option Z) (t : Z) : outcome st :=
  let! prev := find_prev fuel s hint t in
  let s := set_next (set_info s (t + 1) (mkTask (ty (info s t)) (sby (info s t) + 1))) (t + 1) (nxt s t) in
  let! s := insert_task fuel ar s (t + 1) in
  Ok (remove s prev t).
(** :267-328 dav1d_task_create_tile_sbrow, allocation aside: the tile tasks, at consecutive
    addresses from [base] with start rows [sbys] and type [tty], linked in order, with the
    filter task [pf] (row 0, type [pty]) before the first tile that starts below row 0. *)
Definition link (s : st) (prev : option Z) (t : Z) : st :=
  match prev with None => s | Some p => set_next s p (Some t) end.
Fixpoint tiles (s : st) (tty : Z) (t : Z) (sbys : list Z) (prev pf : option Z) : outcome (st * option Z * option Z) :=
  match sbys with
  | nil => Ok (s, prev, pf)
  | y :: r =>
      let s := set_info s t (mkTask tty y) in
      let here := match pf with Some _ => negb (y =? 0) | None => false end in
      guard! (negb here || match prev with Some _ => true | None => false end) in
      let s' := if here then match pf with Some p => link s prev p | None => s end else s in
      let prev' := if here then pf else prev in
      let pf' := if here then None else pf in
      tiles (link s' prev' t) tty (t + 1) r (Some t) pf'
  end.
Definition create_sbrow (s : st) (tty base : Z) (sbys : list Z) (pf pty : Z) : outcome st :=
  let s := set_info s pf (mkTask pty 0) in
  let! r := tiles s tty base sbys None (Some pf) in
  let '(s, prev, pf') := r in
  match prev with
  | None => Undef
  | Some p0 =>
      let s := match pf' with Some p => set_next s p0 (Some p) | None => s end in
      let last := match pf' with Some p => p | None => p0 end in
      let s := set_next s last None in
      match phead s with
      | None => Ok (mkSt (info s) (nxt s) (head s) (tail s) (Some base) (Some last) true (flush s))
      | Some h =>
          match ptail s with
          | None => Undef
          | Some l => Ok (mkSt (info s) (set_nxt (nxt s) l (Some base)) (head s) (tail s) (Some h) (Some last) true (flush s))
          end
      end
  end.

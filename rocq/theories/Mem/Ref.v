(** Model of the reference counted objects: /repo/src/ref.c, /repo/src/ref.h, used by
    any number of threads at once.

    Memory is a map from addresses to live Dav1dRef objects; a new object may get any
    address that is free at that moment. Touching an object that is not live, or
    freeing it again, is undefined. Every access to an object is one step; the steps
    of different threads interleave freely.

    There are three sorts of objects, by what their free_callback does:
    - [KBlock]: frees the memory block the Dav1dRef is part of
      (default_free_callback, dav1d_picture_free_itut_t35);
    - [KPool]: gives the buffer the Dav1dRef is part of back to its pool
      (pool_free_callback, free_buffer of picture.c);
    - [KUser]: the user's callback, which does not know of the Dav1dRef.
    Every object gets a number when it is created, which is not in the C code: it
    tells objects that had the same address apart. [log] lists the numbers of the
    objects whose callback ran.

    What a call of the library does to shared objects is a list of actions. Each
    thread owns references: [own] lists the objects it has pointers to that were
    counted, one entry per pointer. *)
From Coq Require Import ZArith List Bool.
From Verif Require Import Base.CInt Mem.Pool.
Import ListNotations.
Open Scope Z_scope.
Open Scope outcome_scope.

Inductive kind : Type := KBlock | KPool | KUser.
(** ref.h:38-45; [r_fr] is free_ref, [r_wr] whether [data] is not NULL *)
Record robj : Type := { r_cnt : Z; r_kind : kind; r_fr : bool; r_wr : bool; r_id : nat }.
Definition rheap := nat -> option robj.
Definition rset (h : rheap) (a : nat) (o : option robj) : rheap := fun x => if Nat.eqb x a then o else h x.
Definition with_cnt (o : robj) (n : Z) : robj :=
  {| r_cnt := n; r_kind := r_kind o; r_fr := r_fr o; r_wr := r_wr o; r_id := r_id o |}.

(** one access to a shared object by a function of the library *)
Inductive act : Type :=
| ANew (r : nat) (k : kind) (fr wr : bool) (* initialisation of a new object at [r] *)
| AInc (r : nat)                           (* ref.h:67-69 dav1d_ref_inc *)
| ADec (r : nat)                           (* ref.c:77-90 dav1d_ref_dec of a non-NULL pointer *)
| ARead (r : nat).                         (* reads a field of the object *)

(** where a thread is in dav1d_ref_dec after the last reference was dropped *)
Inductive dpc : Type :=
| DRead (r : nat)                                     (* ref.c:85: about to read the fields *)
| DCall (r : nat) (k : kind) (fr : bool) (id : nat)   (* ref.c:86: about to run the callback *)
| DFree (r : nat).                                    (* ref.c:87: about to free the object *)

Record thr : Type := { own : list nat; todo : list act; at_ : option dpc }.
Record st : Type := { mem : rheap; thrs : list thr; log : list nat; nxt : nat }.

Definition get (h : rheap) (r : nat) : outcome robj := match h r with Some o => Ok o | None => Undef end.
Definition has (r : nat) (l : list nat) : bool := existsb (Nat.eqb r) l.

(** ** The rule for the users: only objects they own a reference to are touched *)
Definition after1 (own : list nat) (a : act) : list nat :=
  match a with
  | ANew r _ _ _ | AInc r => r :: own
  | ADec r => remove1 r own
  | ARead _ => own
  end.
Definition after (own : list nat) (l : list act) : list nat := fold_left after1 l own.
Definition is_user (k : kind) : bool := match k with KUser => true | _ => false end.
Definition allowed (own : list nat) (a : act) : bool :=
  match a with
  | ANew _ k fr _ => eqb fr (is_user k) (* free_ref: the callback does not free the object *)
  | AInc r | ADec r | ARead r => has r own
  end.
Fixpoint disc (own : list nat) (l : list act) : bool :=
  match l with
  | [] => true
  | a :: l => allowed own a && disc (after1 own a) l
  end.

(** ** Steps *)
Definition total (s : st) : Z := zlen (concat (map own (thrs s))).

(** the result: memory, next place in dav1d_ref_dec, log *)
Definition do_act (s : st) (a : act) : option (outcome (rheap * option dpc)) :=
  let h := mem s in
  match a with
  | ANew r k fr wr =>                                   (* ref.c:44-48, :66-71; ref.h:58-63 *)
    match h r with
    | Some _ => None                                    (* not what an allocation returns *)
    | None => Some (Ok (rset h r (Some {| r_cnt := 1; r_kind := k; r_fr := fr; r_wr := wr; r_id := nxt s |}), None))
    end
  | AInc r =>                                           (* ref.h:68 *)
    if total s <? INT_MAX then
      Some (let! o := get h r in
            guard! (fits_int (r_cnt o + 1)) in
            Ok (rset h r (Some (with_cnt o (r_cnt o + 1))), None))
    else None
  | ADec r =>                                           (* ref.c:84 *)
    Some (let! o := get h r in
          Ok (rset h r (Some (with_cnt o (r_cnt o - 1))), if r_cnt o =? 1 then Some (DRead r) else None))
  | ARead r => Some (let! _ := get h r in Ok (h, None))
  end.

(** ref.c:85-87; the result: memory, next place, log *)
Definition do_dec (h : rheap) (log : list nat) (p : dpc) : outcome (rheap * option dpc * list nat) :=
  match p with
  | DRead r =>
    let! o := get h r in Ok (h, Some (DCall r (r_kind o) (r_fr o) (r_id o)), log)
  | DCall r k fr id =>
    let! h := match k with
              | KUser => Ok h
              | KBlock | KPool => let! _ := get h r in Ok (rset h r None)
              end in
    Ok (h, if fr then Some (DFree r) else None, id :: log)
  | DFree r =>
    let! _ := get h r in Ok (rset h r None, None, log)
  end.

Inductive label : Type :=
| LCall (i : nat) (l : list act)      (* thread [i] calls a function with these accesses *)
| LStep (i : nat)                     (* thread [i] goes on *)
| LMove (i j : nat) (r : nat).        (* thread [i] gives a reference to thread [j] *)

Definition put (s : st) (i : nat) (t : thr) : list thr := upd_nat (thrs s) i t.
(** [None]: not possible, or against the rules for the users *)
Definition exec (s : st) (l : label) : option (outcome st) :=
  match l with
  | LCall i acts =>
    match nth_error (thrs s) i with
    | Some {| own := o; todo := []; at_ := None |} =>
      if disc o acts then
        Some (Ok {| mem := mem s; thrs := put s i {| own := o; todo := acts; at_ := None |}; log := log s; nxt := nxt s |})
      else None
    | _ => None
    end
  | LStep i =>
    match nth_error (thrs s) i with
    | None => None
    | Some t =>
      match at_ t with
      | Some p =>
        Some (let! r := do_dec (mem s) (log s) p in
              let '(h, p', lg) := r in
              Ok {| mem := h; thrs := put s i {| own := own t; todo := todo t; at_ := p' |}; log := lg; nxt := nxt s |})
      | None =>
        match todo t with
        | [] => None
        | a :: l =>
          match do_act s a with
          | None => None
          | Some r =>
            Some (let! r := r in
                  Ok {| mem := fst r;
                        thrs := put s i {| own := after1 (own t) a; todo := l; at_ := snd r |};
                        log := log s;
                        nxt := match a with ANew _ _ _ _ => S (nxt s) | _ => nxt s end |})
          end
        end
      end
    end
  | LMove i j r =>
    match nth_error (thrs s) i, nth_error (thrs s) j with
    | Some {| own := o; todo := []; at_ := None |}, Some {| own := o'; todo := []; at_ := None |} =>
      if has r o && negb (Nat.eqb i j) then
        Some (Ok {| mem := mem s;
                    thrs := upd_nat (put s i {| own := remove1 r o; todo := []; at_ := None |}) j
                                    {| own := r :: o'; todo := []; at_ := None |};
                    log := log s; nxt := nxt s |})
      else None
    | _, _ => None
    end
  end.

(** ref.h:71-73 dav1d_ref_is_writable *)
Definition is_writable (h : rheap) (r : nat) : outcome bool :=
  let! o := get h r in Ok ((r_cnt o =? 1) && r_wr o).

Definition init (n : nat) : st :=
  {| mem := fun _ => None; thrs := repeat {| own := []; todo := []; at_ := None |} n; log := []; nxt := 0 |}.

Inductive runs : st -> list label -> outcome st -> Prop :=
| R_nil : forall s, runs s [] (Ok s)
| R_bad : forall s l ls, exec s l = Some Undef -> runs s (l :: ls) Undef
| R_cons : forall s l ls s' r, exec s l = Some (Ok s') -> runs s' ls r -> runs s (l :: ls) r.

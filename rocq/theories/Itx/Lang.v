(** A small language for the straight-line integer code of the inverse
    transforms (/repo/src/itx_1d.c), interpreted over an arbitrary domain of
    values.  The C meaning is the interpretation over [cint]: 32-bit signed
    arithmetic in which every overflow, every read of an uninitialised
    variable and every access outside the vector is undefined. *)
From Coq Require Import ZArith List Bool Lia FMapPositive.
From Verif.Base Require Import CInt Lemmas.
Import ListNotations.
Open Scope Z_scope.
Open Scope outcome_scope.

(** Expressions: local variables, elements of the input vector, constants. *)
Inductive expr :=
| EL (x : positive)              (* local variable *)
| EA (k : Z)                     (* in[k * stride] *)
| EK (z : Z)                     (* constant *)
| EAdd (a b : expr)
| ESub (a b : expr)
| EMul (a b : expr)
| EShr (a : expr) (n : Z)        (* a >> n *)
| ENeg (a : expr)
| EClip (a : expr).              (* CLIP(a), itx_1d.c:37 *)

Inductive stmt :=
| SL (x : positive) (e : expr)   (* x = e *)
| SA (k : Z) (e : expr).         (* out[k * stride] = e *)

(** A function body.  Reads of element [k] go to [b_rbase + k * b_rmul] and
    writes of element [k] to [b_wbase + k * b_wmul] of the caller's vector;
    locals do not survive the block. *)
Record block := { b_rbase : Z; b_rmul : Z; b_wbase : Z; b_wmul : Z; b_body : list stmt }.

Definition body (l : list stmt) : block := {| b_rbase := 0; b_rmul := 1; b_wbase := 0; b_wmul := 1; b_body := l |}.

(** Calling a function on [c] with twice the stride (itx_1d.c:101 and
    following): element [k] of the callee is element [2 * k] of the caller. *)
Definition call2 (fn : list block) : list block :=
  map (fun b => {| b_rbase := 2 * b_rbase b; b_rmul := 2 * b_rmul b;
                   b_wbase := 2 * b_wbase b; b_wmul := 2 * b_wmul b; b_body := b_body b |}) fn.

(** Value domains. *)
Record dom := {
  dS : Type; dV : Type;
  dK : dS -> Z -> outcome (dS * dV);
  dAdd : dS -> dV -> dV -> outcome (dS * dV);
  dSub : dS -> dV -> dV -> outcome (dS * dV);
  dMul : dS -> dV -> dV -> outcome (dS * dV);
  dShr : dS -> dV -> Z -> outcome (dS * dV);
  dNeg : dS -> dV -> outcome (dS * dV);
  dClip : dS -> dV -> outcome (dS * dV) }.

Section Interp.
Variable D : dom.

Definition rd_init {A} (l : list (option A)) (k : Z) : outcome A :=
  let! o := rd_at l k in match o with Some v => Ok v | None => Undef end.

Fixpoint eval (loc : PositiveMap.t (dV D)) (arr : list (option (dV D))) (rb rm : Z)
    (s : dS D) (e : expr) : outcome (dS D * dV D) :=
  match e with
  | EL x => match PositiveMap.find x loc with Some v => Ok (s, v) | None => Undef end
  | EA k => let! v := rd_init arr (rb + k * rm) in Ok (s, v)
  | EK z => dK D s z
  | EAdd a b => let! (s, x) := eval loc arr rb rm s a in
                let! (s, y) := eval loc arr rb rm s b in dAdd D s x y
  | ESub a b => let! (s, x) := eval loc arr rb rm s a in
                let! (s, y) := eval loc arr rb rm s b in dSub D s x y
  | EMul a b => let! (s, x) := eval loc arr rb rm s a in
                let! (s, y) := eval loc arr rb rm s b in dMul D s x y
  | EShr a n => let! (s, x) := eval loc arr rb rm s a in dShr D s x n
  | ENeg a => let! (s, x) := eval loc arr rb rm s a in dNeg D s x
  | EClip a => let! (s, x) := eval loc arr rb rm s a in dClip D s x
  end.

Fixpoint exec (rb rm wb wm : Z) (l : list stmt) (loc : PositiveMap.t (dV D))
    (arr : list (option (dV D))) (s : dS D) : outcome (dS D * list (option (dV D))) :=
  match l with
  | [] => Ok (s, arr)
  | SL x e :: l =>
      let! (s, v) := eval loc arr rb rm s e in
      exec rb rm wb wm l (PositiveMap.add x v loc) arr s
  | SA k e :: l =>
      let! (s, v) := eval loc arr rb rm s e in
      let! arr := wr_at arr (wb + k * wm) (Some v) in
      exec rb rm wb wm l loc arr s
  end.

Fixpoint run (fn : list block) (arr : list (option (dV D))) (s : dS D)
    : outcome (dS D * list (option (dV D))) :=
  match fn with
  | [] => Ok (s, arr)
  | b :: fn =>
      let! (s, arr) := exec (b_rbase b) (b_rmul b) (b_wbase b) (b_wmul b) (b_body b)
                            (PositiveMap.empty (dV D)) arr s in
      run fn arr s
  end.
End Interp.

(** The C domain: [int] arithmetic (all the values are int32_t or int). *)
Definition cint_op (v : Z) : outcome (unit * Z) := if fits_int v then Ok (tt, v) else Undef.

Definition cint (lo hi : Z) : dom := {|
  dS := unit; dV := Z;
  dK := fun _ z => cint_op z;
  dAdd := fun _ a b => cint_op (a + b);
  dSub := fun _ a b => cint_op (a - b);
  dMul := fun _ a b => cint_op (a * b);
  dShr := fun _ a n => if (0 <=? n) && (n <? 32) then Ok (tt, Z.shiftr a n) else Undef;
  dNeg := fun _ a => cint_op (- a);
  dClip := fun _ a => Ok (tt, iclip a lo hi) |}.

(** What a 1-D function leaves in its vector of [int32_t]. *)
Definition run_c (lo hi : Z) (fn : list block) (arr : list (option Z)) : outcome (list (option Z)) :=
  let! (_, arr) := run (cint lo hi) fn arr tt in Ok arr.

(** ** Concrete syntax used to write the functions down as in C. *)
Definition expr_of_Z (z : Z) : expr := EK z.
Definition Z_of_expr (e : expr) : option Z := match e with EK z => Some z | _ => None end.
Declare Scope itx_scope.
Delimit Scope itx_scope with itx.
Bind Scope itx_scope with expr.
Number Notation expr expr_of_Z Z_of_expr : itx_scope.
Notation "a + b" := (EAdd a b) : itx_scope.
Notation "a - b" := (ESub a b) : itx_scope.
Notation "a * b" := (EMul a b) : itx_scope.
Notation "- a" := (ENeg a) : itx_scope.
Notation "a >> n" := (EShr a n%Z) (at level 58, left associativity) : itx_scope.
Notation "'CLIP' a" := (EClip a) (at level 9, a at level 9) : itx_scope.
Notation "'c[' k ]" := (EA k%Z) (at level 0, k at level 200) : itx_scope.
Notation "x <- e" := (SL x e%itx) (at level 90, e at level 89).
Notation "'c[' k ]' <- e" := (SA k%Z e%itx) (at level 0, k at level 200, e at level 89).
Coercion EL : positive >-> expr.

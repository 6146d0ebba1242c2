(** Meaning of the decode calls in terms of the specification: which symbol
    reading process each call of the decoder stands for. *)
From Coq Require Import ZArith List Bool.
From Verif Require Import Msac.Model Msac.Spec.
Import ListNotations.
Open Scope Z_scope.

Definition nth_cdf (cdfs : list (list Z)) (i : Z) : list Z := nth (Z.to_nat i) cdfs [].
Fixpoint set_cdf (cdfs : list (list Z)) (i : nat) (c : list Z) : list (list Z) :=
  match cdfs, i with
  | [], _ => []
  | _ :: t, O => c :: t
  | h :: t, S i => h :: set_cdf t i c
  end.

(** One call.  A fixed-probability boolean is a symbol with CDF
    {32768 - f, 32768}, not adapted. *)
Definition sstep (b : Z -> Z) (dis : bool) (o : dop) (s : sym) (cdfs : list (list Z))
  : Z * sym * list (list Z) :=
  match o with
  | DEqui => let '(v, s) := read_bool b s in (v, s, cdfs)
  | DBool f => let '(v, s) := read_symbol_raw b s [2 ^ 15 - f; 2 ^ 15; 0] 2 in (v, s, cdfs)
  | DBoolAdapt i =>
      let '(v, c, s) := read_symbol b dis s (nth_cdf cdfs i) 2 in (v, s, set_cdf cdfs (Z.to_nat i) c)
  | DSym i n =>
      let '(v, c, s) := read_symbol b dis s (nth_cdf cdfs i) (n + 1) in
      (v, s, set_cdf cdfs (Z.to_nat i) c)
  end.

Fixpoint srun_dp {A} (b : Z -> Z) (dis : bool) (p : dp A) (s : sym) (cdfs : list (list Z))
  : option (A * sym * list (list Z)) :=
  match p with
  | DRet a => Some (a, s, cdfs)
  | DStuck => None
  | DDo o k => let '(v, s, cdfs) := sstep b dis o s cdfs in srun_dp b dis (k v) s cdfs
  end.

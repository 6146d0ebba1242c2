(** Programs that read symbols.  A request names what is read (an adaptive
    probability table, or a plain bit) and the largest value it can have; the
    program goes on with whatever value the arithmetic decoder delivers.  [Stop]
    is undefined behaviour in a model of the code, and a violated requirement of
    bitstream conformance in a specification. *)
From Coq Require Import ZArith List Bool.
From Verif Require Import Base.CInt.
Import ListNotations.
Open Scope Z_scope.

Inductive prog (R A : Type) : Type :=
| Ret (a : A)
| Stop
| Rd (r : R) (n : Z) (k : Z -> prog R A).
Arguments Ret {R A} a.
Arguments Stop {R A}.
Arguments Rd {R A} r n k.

Fixpoint bind {R A B} (p : prog R A) (f : A -> prog R B) : prog R B :=
  match p with
  | Ret a => f a
  | Stop => Stop
  | Rd r n k => Rd r n (fun v => bind (k v) f)
  end.
Definition read {R} (r : R) (n : Z) : prog R Z := Rd r n (fun v => Ret v).
Definition lift {R A} (o : outcome A) : prog R A := match o with Ok a => Ret a | Undef => Stop end.

Declare Scope prog_scope.
Delimit Scope prog_scope with prog.
Notation "'let*' x ':=' m 'in' k" := (bind m (fun x => k))
  (at level 200, x pattern, m at level 100, k at level 200) : prog_scope.
Notation "'lift*' x ':=' m 'in' k" := (bind (lift m) (fun x => k))
  (at level 200, x pattern, m at level 100, k at level 200) : prog_scope.
Notation "'guard*' b 'in' k" := (if b then k else Stop)
  (at level 200, b at level 100, k at level 200) : prog_scope.

(** [reads p tr a]: delivering the values of [tr], the program makes exactly the
    requests of [tr] and ends with [a]. *)
Inductive reads {R A} : prog R A -> list (R * Z) -> A -> Prop :=
| reads_ret : forall a, reads (Ret a) [] a
| reads_rd : forall r n k v tr a, 0 <= v <= n -> reads (k v) tr a -> reads (Rd r n k) ((r, v) :: tr) a.

(** [p] does what the specification [q] says; a request of [q] is the request [m]
    of it in [p]. *)
Inductive sim {R S A B} (m : S -> R) (Q : A -> B -> Prop) : prog R A -> prog S B -> Prop :=
| sim_ret : forall a b, Q a b -> sim m Q (Ret a) (Ret b)
| sim_stop : forall p, sim m Q p Stop
| sim_rd : forall r s n k k', r = m s -> (forall v, 0 <= v <= n -> sim m Q (k v) (k' v)) ->
    sim m Q (Rd r n k) (Rd s n k').

Lemma sim_bind : forall R S A B A' B' (m : S -> R) (Q : A -> B -> Prop) (Q' : A' -> B' -> Prop) p q f g,
  sim m Q p q -> (forall a b, Q a b -> sim m Q' (f a) (g b)) -> sim m Q' (bind p f) (bind q g).
Proof.
  intros R S A B A' B' m Q Q' p q f g H F. induction H; cbn [bind].
  - auto.
  - constructor.
  - constructor; auto.
Qed.
Lemma sim_read : forall R S (m : S -> R) r s n, r = m s -> sim m (fun a b => a = b /\ 0 <= a <= n) (read r n) (read s n).
Proof. intros. constructor; auto. intros v V. constructor. auto. Qed.
Lemma sim_weaken : forall R S A B (m : S -> R) (Q Q' : A -> B -> Prop) p q,
  sim m Q p q -> (forall a b, Q a b -> Q' a b) -> sim m Q' p q.
Proof. intros R S A B m Q Q' p q H W. induction H; constructor; auto. Qed.

Lemma sim_assoc : forall R S A B C D (m : S -> R) (Q : C -> D -> Prop) (p : prog R A) (f : A -> prog R B) (g : B -> prog R C) q,
  sim m Q (bind p (fun a => bind (f a) g)) q -> sim m Q (bind (bind p f) g) q.
Proof.
  intros R S A B C D m Q p f g. induction p as [a| |r n k IH]; cbn [bind]; intros q H; auto.
  inversion H; subst; constructor; auto.
Qed.

Lemma sim_assoc_r : forall R S A B C D (m : S -> R) (Q : D -> C -> Prop) (q : prog S A) (f : A -> prog S B) (g : B -> prog S C) p,
  sim m Q p (bind q (fun a => bind (f a) g)) -> sim m Q p (bind (bind q f) g).
Proof.
  intros R S A B C D m Q q f g. induction q as [a| |r n k IH]; cbn [bind]; intros p H; auto.
  inversion H; subst; constructor; auto.
Qed.

Lemma sim_ret_r : forall R S A B (m : S -> R) (Q : A -> B -> Prop) p q, sim m Q p (bind q (fun b => Ret b)) -> sim m Q p q.
Proof.
  intros R S A B m Q p q. revert p. induction q as [a| |r n k IH]; cbn [bind]; intros p H; auto.
  inversion H; subst; constructor; auto.
Qed.

Lemma bind_assoc_sim : forall R A B C (p : prog R A) (f : A -> prog R B) (g : B -> prog R C) tr c,
  reads (bind (bind p f) g) tr c <-> reads (bind p (fun a => bind (f a) g)) tr c.
Proof.
  intros R A B C p f g. induction p; cbn [bind]; intros tr c; try tauto.
  split; intros K; inversion K; subst; constructor; auto; apply H; auto.
Qed.

(** No value that can be delivered leads to [Stop]. *)
Inductive safe {R A} : prog R A -> Prop :=
| safe_ret : forall a, safe (Ret a)
| safe_rd : forall r n k, (forall v, 0 <= v <= n -> safe (k v)) -> safe (Rd r n k).
Lemma safe_bind : forall R A B (p : prog R A) (f : A -> prog R B), safe p -> (forall a, safe (f a)) -> safe (bind p f).
Proof. intros R A B p f H F. induction H; cbn [bind]; [auto|constructor; auto]. Qed.
Lemma safe_read : forall R (r : R) n, safe (read r n).
Proof. intros. constructor. intros. constructor. Qed.
Theorem sim_safe : forall R S A B (m : S -> R) (Q : A -> B -> Prop) p q, sim m Q p q -> safe q -> safe p.
Proof. intros R S A B m Q p q H K. induction H; inversion K; subst; constructor; auto. Qed.

(** What the specification says is what happens. *)
Theorem sim_reads : forall R S A B (m : S -> R) (Q : A -> B -> Prop) p q tr b,
  sim m Q p q -> reads q tr b -> exists a, reads p (map (fun rv => (m (fst rv), snd rv)) tr) a /\ Q a b.
Proof.
  intros R S A B m Q p q tr b H K. revert p H. induction K as [a|r n k v tr a V K IH]; intros p H; inversion H; subst.
  - eexists; split; [constructor|eassumption].
  - match goal with F : forall v, _ -> sim _ _ _ _ |- _ => destruct (IH _ (F _ V)) as (a' & K1 & K2) end.
    exists a'. split; auto. cbn. constructor; auto.
Qed.
(** A program is deterministic: the values delivered determine the run. *)
Theorem reads_det : forall R A (p : prog R A) tr1 a1 tr2 a2, reads p tr1 a1 -> reads p tr2 a2 ->
  (exists t, map snd tr1 ++ t = map snd tr2) -> tr1 = tr2 /\ a1 = a2.
Proof.
  intros R A p tr1 a1 tr2 a2 H. revert tr2 a2. induction H as [a|r n k v tr a V H IH]; intros tr2 a2 K (t & E); inversion K; subst.
  - auto.
  - cbn in E. injection E as E1 E2. subst.
    match goal with F : reads (k _) _ a2 |- _ => destruct (IH _ _ F (ex_intro _ t E2)) end. subst. auto.
Qed.

(** Running a program on given values. *)
Fixpoint run {R A} (p : prog R A) (l : list Z) : option (list R * A) :=
  match p with
  | Ret a => match l with [] => Some ([], a) | _ => None end
  | Stop => None
  | Rd r n k =>
    match l with
    | v :: l => if (0 <=? v) && (v <=? n) then match run (k v) l with Some (rs, a) => Some (r :: rs, a) | None => None end else None
    | [] => None
    end
  end.
Lemma run_reads : forall R A (p : prog R A) l rs a, run p l = Some (rs, a) -> reads p (combine rs l) a.
Proof.
  intros R A. induction p as [x| |r n k IH]; intros l rs a E; cbn [run] in E.
  - destruct l; [|discriminate]. injection E as <- <-. constructor.
  - discriminate.
  - destruct l as [|v l]; [discriminate|]. destruct ((0 <=? v) && (v <=? n)) eqn:V; [|discriminate].
    destruct (run (k v) l) as [[rs' a']|] eqn:K; [|discriminate]. injection E as <- <-.
    apply andb_prop in V. destruct V as [V1 V2]. cbn [combine]. constructor; [split; apply Z.leb_le; auto|]. apply IH. auto.
Qed.

Theorem sim_reads_inv : forall R S A B (m : S -> R) (Q : A -> B -> Prop) p q tr a,
  sim m Q p q -> safe q -> reads p tr a ->
  exists tr' b, reads q tr' b /\ tr = map (fun rv => (m (fst rv), snd rv)) tr' /\ Q a b.
Proof.
  intros R S A B m Q p q tr a H K. revert tr a. induction H as [x b E| |r s n k k' E H IH]; intros tr a P.
  - inversion P; subst. exists [], b. repeat split; auto. constructor.
  - inversion K.
  - inversion P as [|r' n' k0 v tr' a' V P']; subst. inversion K as [|r' n' k0 F]; subst.
    destruct (IH v V (F v V) _ _ P') as (t & b & T1 & T2 & T3). subst.
    exists ((s, v) :: t), b. split; [constructor; auto|]. split; auto.
Qed.

(** The one-dimensional functions, put together: in range they are defined,
    bounded, and equal to the steps of the specification. *)
From Coq Require Import ZArith List Bool Lia.
From Verif.Base Require Import CInt Lemmas.
From Verif.Itx Require Import Lang Txfm1d Sim Interval Sym Spec1d Equiv Txfm2d Spec2d.
Import ListNotations.
Open Scope Z_scope.
Open Scope outcome_scope.

Definition MAXV := 4194304.
Definition small (v : Z) : Prop := - MAXV <= v <= MAXV.

(** *** Interval runs *)
Definition ival_okb (b lo hi l h : Z) (fn : list block) (m n : nat) : bool :=
  match run (idom lo hi) fn (repeat (Some (l, h)) m ++ repeat None (n - m)) tt with
  | Ok (_, a) => Nat.eqb (length a) n &&
      forallb (fun o => match o with Some (p, q) => (- b <=? p) && (q <=? b) | None => false end) a
  | _ => false
  end.

Lemma Forall2_repeat_l : forall A B (R : A -> B -> Prop) a l, Forall (R a) l -> Forall2 R (repeat a (length l)) l.
Proof. intros A B R a l. induction 1; cbn; constructor; auto. Qed.

Definition ival_ok := ival_okb MAXV.

Lemma ival_okb_sound : forall b lo hi l h fn m n ins, ival_okb b lo hi l h fn m n = true -> lo <= hi ->
  length ins = m -> Forall (fun v => l <= v <= h) ins ->
  exists T, run_c lo hi fn (map Some ins ++ repeat None (n - m)) = Ok (map Some T) /\ length T = n /\ Forall (fun v => - b <= v <= b) T.
Proof.
  intros b lo hi l h fn m n ins H LH LE FI. unfold ival_okb in H.
  destruct (run (idom lo hi) fn _ tt) as [[[] a]|] eqn:E; try discriminate.
  apply andb_true_iff in H as [H1 H2]. apply Nat.eqb_eq in H1.
  assert (R : Forall2 (ro (idom lo hi) (cint lo hi) (fun _ _ => inI) tt tt)
     (repeat (Some (l, h)) m ++ repeat None (n - m)) (map Some ins ++ repeat None (n - m))).
  { apply Forall2_app.
    - subst m. rewrite <- (map_length Some ins). apply Forall2_repeat_l.
      apply Forall_map. eapply Forall_impl; [|exact FI]. intros v Q. exists v. auto.
    - generalize (n - m)%nat. intros k. induction k; cbn; constructor; auto; reflexivity. }
  destruct (interval_sound lo hi LH fn _ _ _ R E) as (a2 & R1 & R2).
  rewrite R1. clear E R R1. rewrite <- H1. clear H1 n.
  revert a2 R2. induction a as [|o a IH]; intros a2 R2; inversion R2 as [|? o2 ? a2' O1 O2 E1 E2]; subst.
  - exists []. auto.
  - cbn in H2. apply andb_true_iff in H2 as [H2 H3]. destruct (IH H3 _ O2) as (T & E & L & F).
    injection E as ->. destruct o as [[p q]|]; [|discriminate]. destruct O1 as (v & -> & O1).
    exists (v :: T). split; auto. cbn. split; [auto|]. constructor; auto.
    apply andb_true_iff in H2 as [P1 P2]. apply Z.leb_le in P1, P2. cbn in O1. unfold inI in O1. cbn in O1.
    destruct O1 as [O3 O4]. cbn [dV cint] in *. split; [exact (Z.le_trans _ _ _ P1 O3)|exact (Z.le_trans _ _ _ O4 P2)].
Qed.

(** *** The table of functions *)
Definition kind_of (t : tx1d) : kind :=
  match t with DCT => Dct | ADST => Adst | FLIPADST => Flip | IDENTITY => Ident_ end.
Definition points (l : Z) : nat := 2 ^ (Z.to_nat l + 2).
Definition flipped (t : tx1d) {A} (T : list A) : list A := if is_flip (kind_of t) then rev T else T.

Definition range (R : Z) (v : Z) : Prop := - 2 ^ R <= v <= 2 ^ R - 1.
Definition R_ok (R : Z) : Prop := R = 15 \/ R = 17 \/ R = 19.
Definition satR (R : Z) (v : Z) : Z := iclip v (- 2 ^ R) (2 ^ R - 1).

Lemma tx1d_fns_ok : forall R l t fn, R_ok R -> tx1d_fns l t = Some fn ->
  let n := points l in let m := Nat.min 32 n in
  ival_ok (- 2 ^ R) (2 ^ R - 1) (- 2 ^ R) (2 ^ R - 1) fn m n = true /\
  same fn (kind_steps (kind_of t) (Z.to_nat l + 2)) m n (is_flip (kind_of t)) = true.
Proof.
  intros R l t fn HR H. cbv zeta.
  assert (L : l = 0 \/ l = 1 \/ l = 2 \/ l = 3 \/ l = 4).
  { destruct l as [|[p|p|]|]; auto; cbn in H.
    - destruct p; try discriminate. auto.
    - destruct p as [p|p|]; try discriminate; auto. destruct p; try discriminate. auto.
    - discriminate. }
  split.
  - destruct HR as [ -> |[ -> | -> ]]; destruct L as [ -> |[ -> |[ -> |[ -> | -> ]]]]; destruct t; cbn in H;
      try discriminate; injection H as <-; vm_compute; reflexivity.
  - destruct L as [ -> |[ -> |[ -> |[ -> | -> ]]]]; destruct t; cbn in H;
      try discriminate; injection H as <-.
    + exact same_dct4.
    + exact (same_adst4 false).
    + exact same_identity4.
    + exact (same_adst4 true).
    + exact same_dct8.
    + exact (same_adst8 false).
    + exact same_identity8.
    + exact (same_adst8 true).
    + exact same_dct16.
    + exact (same_adst16 false).
    + exact same_identity16.
    + exact (same_adst16 true).
    + exact same_dct32.
    + exact same_identity32.
    + exact same_dct64.
Qed.

Lemma map_some_inj : forall A (l1 l2 : list A), map Some l1 = map Some l2 -> l1 = l2.
Proof. induction l1; destruct l2; cbn; intros H; try discriminate; auto. injection H as -> H. f_equal; auto. Qed.

Theorem tx1d_run : forall R l t fn ins, R_ok R -> tx1d_fns l t = Some fn ->
  let n := points l in let m := Nat.min 32 n in
  length ins = m -> Forall (range R) ins ->
  let T := do_steps (satR R) (kind_steps (kind_of t) (Z.to_nat l + 2)) (ins ++ repeat 0 (n - m)) in
  run_c (- 2 ^ R) (2 ^ R - 1) fn (map Some ins ++ repeat None (n - m)) = Ok (map Some (flipped t T)) /\
  length T = n /\ Forall small T.
Proof.
  intros R l t fn ins HR E n m L F T.
  destruct (tx1d_fns_ok R l t fn HR E) as [E1 E2]. fold n m in E1, E2.
  assert (B : - 2 ^ R <= 0 <= 2 ^ R - 1) by (destruct HR as [ -> |[ -> | -> ]]; lia).
  destruct (ival_okb_sound MAXV _ _ _ _ _ _ _ ins E1 ltac:(lia) L F) as (T' & R1 & R2 & R3).
  pose proof (same_sound _ _ _ _ _ _ _ _ _ E2 B L R1) as Q. cbv zeta in Q.
  change (fun v : Z => iclip v (- 2 ^ R) (2 ^ R - 1)) with (satR R) in Q. fold T in Q.
  apply map_some_inj in Q. rewrite R1, Q. unfold flipped. split; [reflexivity|].
  rewrite Q in R2, R3. destruct (is_flip (kind_of t)).
  - rewrite rev_length in R2. split; auto. apply Forall_rev in R3. rewrite rev_involutive in R3. auto.
  - auto.
Qed.

(** *** Zero input gives zero output *)
Definition zeros (T : list Z) : Prop := Forall (fun v => v = 0) T.
Lemma zeros_get : forall T i, zeros T -> get T i = 0.
Proof. intros T i H. unfold get. revert i. induction H; intros [|i]; cbn; auto. Qed.
Lemma zeros_set : forall T i v, zeros T -> v = 0 -> zeros (set T i v).
Proof. intros T i v H E. revert i. induction H; intros [|i]; cbn; try constructor; auto; apply IHForall. Qed.
Lemma zeros_repeat : forall T, zeros T -> T = repeat 0 (length T).
Proof. induction 1; cbn; subst; f_equal; auto. Qed.
Lemma round2_0 : forall n, 0 <= n -> round2 0 n = 0.
Proof.
  intros n H. unfold round2. destruct (n =? 0) eqn:E; auto. apply Z.eqb_neq in E.
  rewrite shiftr_div by lia. apply Z.div_small. split; [apply Z.pow_nonneg; lia|].
  cbn. apply Z.pow_lt_mono_r; lia.
Qed.
Lemma zeros_map_get : forall T idx, zeros T -> zeros (map (get T) idx).
Proof. intros. unfold zeros. apply Forall_map, Forall_forall. intros. apply zeros_get; auto. Qed.

Definition step_ok (st : step) : Prop := match st with Ident _ _ den => 0 <= den | _ => True end.
Lemma do_step_zeros : forall sat st T, sat 0 = 0 -> step_ok st -> zeros T -> zeros (do_step sat st T).
Proof.
  intros sat st T S0 SO H. destruct st; cbn [do_step].
  - rewrite !zeros_get by auto. cbn [Z.mul Z.sub Z.add Z.opp].
    destruct flip; apply zeros_set; auto using zeros_set, round2_0 with zarith.
  - destruct flip; unfold do_H; rewrite !zeros_get by auto; apply zeros_set; auto using zeros_set.
  - apply zeros_map_get; auto.
  - rewrite !zeros_get by auto. apply zeros_set; auto.
  - rewrite !zeros_get by auto. apply zeros_set; auto. apply round2_0; auto.
  - rewrite !zeros_get by auto. vm_compute. repeat constructor.
  - rewrite !zeros_get by auto. vm_compute. repeat constructor.
Qed.
Lemma do_steps_zeros : forall sat l T, sat 0 = 0 -> Forall step_ok l -> zeros T -> zeros (do_steps sat l T).
Proof.
  intros sat l. unfold do_steps. induction l; cbn; intros T S0 F H; auto. inversion F; subst.
  apply IHl; auto. apply do_step_zeros; auto.
Qed.
Lemma kind_steps_ok : forall k n, Forall step_ok (kind_steps k n).
Proof.
  assert (FM : forall k f, (forall i, Forall step_ok (f i)) -> Forall step_ok (for_ k f)).
  { intros k f H. unfold for_. generalize (seq 0 k). intros l. induction l; cbn; [constructor|]. apply Forall_app; auto. }
  assert (FW : forall b l, Forall step_ok l -> Forall step_ok (when b l)) by (intros []; cbn; auto).
  assert (F1 : forall st, step_ok st -> Forall step_ok [st]) by auto.
  assert (F2 : forall a b, step_ok a -> step_ok b -> Forall step_ok [a; b]) by auto.
  intros k n. destruct k; cbn [kind_steps].
  - unfold dct_steps. cbv zeta.
    repeat match goal with
           | |- Forall step_ok (_ ++ _) => apply Forall_app; split
           | |- Forall step_ok (when _ _) => apply FW
           | |- Forall step_ok (for_ _ _) => apply FM; intros ?
           | |- Forall step_ok [_] => apply F1; exact I
           | |- Forall step_ok [_; _] => apply F2; exact I
           end.
  - destruct n as [|[|[|[|n]]]]; cbn; repeat constructor.
  - destruct n as [|[|[|[|n]]]]; cbn; repeat constructor.
  - assert (P : forall d, 0 <= Z.of_nat d) by (intros; lia).
    destruct n as [|[|[|[|[|n]]]]]; cbn [identity_steps]; apply FM; intros i; apply F1; cbn; lia.
Qed.

(** *** Only DC: every output of the DCT is the rounded half turn of the input *)
Inductive dcv := VZero | VIn | VOut.
Definition dget (T : list dcv) (i : nat) : dcv := nth i T VZero.
Fixpoint dset (T : list dcv) (i : nat) (v : dcv) : list dcv :=
  match T, i with
  | [], _ => []
  | _ :: T, O => v :: T
  | x :: T, S i => x :: dset T i v
  end.
Definition dstep (st : step) (T : list dcv) : option (list dcv) :=
  match st with
  | B a b angle flip =>
      match dget T a, dget T b with
      | VZero, VZero => Some (dset (dset T a VZero) b VZero)
      | VIn, VZero => if (cos128 angle =? 2896) && (sin128 angle =? 2896)
                      then Some (dset (dset T a VOut) b VOut) else None
      | _, _ => None
      end
  | H a b flip =>
      let '(a, b) := if flip then (b, a) else (a, b) in
      match dget T a, dget T b with
      | VZero, VZero => Some (dset (dset T a VZero) b VZero)
      | VOut, VZero => Some (dset (dset T a VOut) b VOut)
      | _, _ => None
      end
  | Perm idx => Some (map (dget T) idx)
  | _ => None
  end.
Fixpoint dsteps (l : list step) (T : list dcv) : option (list dcv) :=
  match l with
  | [] => Some T
  | st :: l => match dstep st T with Some T => dsteps l T | None => None end
  end.

Section DC.
Variable sat : Z -> Z.
Variable dc : Z.
Definition dc_out : Z := round2 (dc * 2896) 12.
Hypothesis sat0 : sat 0 = 0.
Hypothesis satout : sat dc_out = dc_out.

Definition dval (v : dcv) : Z := match v with VZero => 0 | VIn => dc | VOut => dc_out end.

Lemma get_map : forall T i, get (map dval T) i = dval (dget T i).
Proof. intros T i. unfold get, dget. change 0 with (dval VZero). apply map_nth. Qed.
Lemma set_map : forall T i v, set (map dval T) i (dval v) = map dval (dset T i v).
Proof. induction T; intros [|i] v; cbn; auto. rewrite IHT. reflexivity. Qed.

Lemma dstep_sound : forall st T T', dstep st T = Some T' -> do_step sat st (map dval T) = map dval T'.
Proof.
  assert (SM : forall T a b v1 v2 x y, x = dval v1 -> y = dval v2 ->
     set (set (map dval T) a x) b y = map dval (dset (dset T a v1) b v2)).
  { intros. subst. rewrite !set_map. reflexivity. }
  intros st T T' E. destruct st; cbn [dstep] in E; try discriminate.
  - cbn [do_step]. rewrite !get_map.
    destruct (dget T a), (dget T b); try discriminate; cbn [dval].
    + injection E as <-. destruct flip; apply SM; cbn; auto.
    + destruct (_ && _) eqn:Q; [|discriminate]. injection E as <-. apply andb_true_iff in Q as [Q1 Q2].
      apply Z.eqb_eq in Q1, Q2. rewrite Q1, Q2.
      assert (X : round2 (dc * 2896 - 0 * 2896) 12 = dc_out) by (unfold dc_out; f_equal; lia).
      assert (Y : round2 (dc * 2896 + 0 * 2896) 12 = dc_out) by (unfold dc_out; f_equal; lia).
      rewrite X, Y. destruct flip; apply SM; cbn; auto.
  - cbn [do_step]. unfold do_H. rewrite !get_map.
    destruct flip; destruct (dget T a), (dget T b); try discriminate; cbn [dval];
      rewrite ?Z.add_0_r, ?Z.sub_0_r, ?sat0, ?satout; injection E as <-; apply SM; auto.
  - injection E as <-. cbn [do_step]. rewrite map_map. apply map_ext. intros; apply get_map.
Qed.
Lemma dsteps_sound : forall l T T', dsteps l T = Some T' -> do_steps sat l (map dval T) = map dval T'.
Proof.
  unfold do_steps. induction l; cbn; intros T T' E; [injection E as ->; auto|].
  destruct (dstep a T) eqn:D; [|discriminate]. rewrite (dstep_sound _ _ _ D). auto.
Qed.

Theorem dct_dc : forall l, 0 <= l <= 4 ->
  do_steps sat (dct_steps (Z.to_nat l + 2)) (dc :: repeat 0 (points l - 1)) = repeat dc_out (points l).
Proof.
  intros l Hl.
  assert (D : dsteps (dct_steps (Z.to_nat l + 2)) (VIn :: repeat VZero (points l - 1)) = Some (repeat VOut (points l))).
  { assert (L : l = 0 \/ l = 1 \/ l = 2 \/ l = 3 \/ l = 4) by lia.
    destruct L as [ -> |[ -> |[ -> |[ -> | -> ]]]]; vm_compute; reflexivity. }
  apply dsteps_sound in D. cbn [map] in D.
  assert (MR : forall v k, map dval (repeat v k) = repeat (dval v) k) by (intros v k; induction k; cbn; f_equal; auto).
  rewrite !MR in D. exact D.
Qed.
End DC.

(** The C transforms compute the steps of the specification: checked by
    executing both symbolically. *)
From Coq Require Import ZArith NArith List Bool Lia.
From Verif.Base Require Import CInt Lemmas.
From Verif.Itx Require Import Lang Txfm1d Sim Interval Sym Spec1d.
Import ListNotations.
Open Scope Z_scope.
Open Scope outcome_scope.

(** ** Symbolic execution of the specification's steps *)
Definition lzero : lin := ([], 0).
Definition sget (T : list lin) (i : nat) : lin := nth i T lzero.
Fixpoint sset (T : list lin) (i : nat) (v : lin) : list lin :=
  match T, i with
  | [], _ => []
  | _ :: T, O => v :: T
  | x :: T, S i => x :: sset T i v
  end.
Definition lsub (a b : lin) : lin := ladd a (lscale (-1) b).
Definition lconst (k : Z) : lin := ([], k).
Definition sround2 (t : table) (a : lin) (n : Z) : outcome (table * lin) :=
  if n =? 0 then Ok (t, a) else sshr t (ladd a (lconst (2 ^ (n - 1)))) n.

Definition sdo_H (a b : nat) (t : table) (T : list lin) : outcome (table * list lin) :=
  let x := sget T a in let y := sget T b in
  let! (t, u) := sclip t (ladd x y) in
  let! (t, v) := sclip t (lsub x y) in
  Ok (t, sset (sset T a u) b v).

Definition sdo_step (st : step) (t : table) (T : list lin) : outcome (table * list lin) :=
  match st with
  | B a b angle flip =>
      let x := lsub (lscale (cos128 angle) (sget T a)) (lscale (sin128 angle) (sget T b)) in
      let y := ladd (lscale (sin128 angle) (sget T a)) (lscale (cos128 angle) (sget T b)) in
      let! (t, x) := sround2 t x 12 in
      let! (t, y) := sround2 t y 12 in
      Ok (t, if flip then sset (sset T a y) b x else sset (sset T a x) b y)
  | H a b flip => if flip then sdo_H b a t T else sdo_H a b t T
  | Perm idx => Ok (t, map (sget T) idx)
  | Neg i => Ok (t, sset T i (lscale (-1) (sget T i)))
  | Ident i num den =>
      let! (t, v) := sround2 t (lscale num (sget T i)) den in Ok (t, sset T i v)
  | Adst4 =>
      let s0 := lscale SINPI_1_9 (sget T 0) in
      let s1 := lscale SINPI_2_9 (sget T 0) in
      let s2 := lscale SINPI_3_9 (sget T 1) in
      let s3 := lscale SINPI_4_9 (sget T 2) in
      let s4 := lscale SINPI_1_9 (sget T 2) in
      let s5 := lscale SINPI_2_9 (sget T 3) in
      let s6 := lscale SINPI_4_9 (sget T 3) in
      let a7 := lsub (sget T 0) (sget T 2) in
      let b7 := ladd a7 (sget T 3) in
      let s0 := ladd s0 s3 in
      let s1 := lsub s1 s4 in
      let s3 := s2 in
      let s2 := lscale SINPI_3_9 b7 in
      let s0 := ladd s0 s5 in
      let s1 := lsub s1 s6 in
      let! (t, y0) := sround2 t (ladd s0 s3) 12 in
      let! (t, y1) := sround2 t (ladd s1 s3) 12 in
      let! (t, y2) := sround2 t s2 12 in
      let! (t, y3) := sround2 t (lsub (ladd s0 s1) s3) 12 in
      Ok (t, [y0; y1; y2; y3])
  | Wht4 =>
      let a := sget T 0 in let c := sget T 1 in let d := sget T 2 in let b := sget T 3 in
      let a := ladd a c in
      let d := lsub d b in
      let! (t, e) := sshr t (lsub a d) 1 in
      let b := lsub e b in
      let c := lsub e c in
      let a := lsub a b in
      let d := ladd d c in
      Ok (t, [a; b; c; d])
  end.

Fixpoint sdo_steps (l : list step) (t : table) (T : list lin) : outcome (table * list lin) :=
  match l with
  | [] => Ok (t, T)
  | st :: l => let! (t, T) := sdo_step st t T in sdo_steps l t T
  end.

Section Sound.
Variables (lo hi : Z) (ins : list Z).
Hypothesis LH : lo <= 0 <= hi.
Notation tv := (tval lo hi ins).
Notation sat := (fun v => iclip v lo hi).
Notation RV := (RVs lo hi ins).
Definition RT (t : table) (T : list lin) (V : list Z) : Prop := Forall2 (RV t tt) T V.
Definition ext (t t' : table) : Prop := wft t' /\ forall x y, RV t tt x y -> RV t' tt x y.

Lemma RT_ext : forall t t' T V, ext t t' -> RT t T V -> RT t' T V.
Proof. unfold RT. intros t t' T V [_ E] R. induction R; constructor; auto. Qed.
Lemma ext_trans : forall a b c, ext a b -> ext b c -> ext a c.
Proof. intros a b c [H1 H2] [H3 H4]. split; auto. Qed.
Lemma ext_refl : forall t, wft t -> ext t t.
Proof. split; auto. Qed.
Lemma RV_zero : forall t, RV t tt lzero 0.
Proof. split; [constructor|reflexivity]. Qed.
Lemma RT_get : forall t T V i, RT t T V -> RV t tt (sget T i) (get V i).
Proof.
  intros t T V i R. unfold sget, get. revert i. induction R; intros [|i]; cbn; auto using RV_zero.
Qed.
Lemma RT_set : forall t T V i a x, RT t T V -> RV t tt a x -> RT t (sset T i a) (set V i x).
Proof. unfold RT. intros t T V i a x R Q. revert i. induction R; intros [|i]; cbn; constructor; auto. Qed.
Lemma RV_add : forall t a b x y, RV t tt a x -> RV t tt b y -> RV t tt (ladd a b) (x + y).
Proof. intros t a b x y [H1 H2] [H3 H4]. split; [apply wfl_add; auto|]. rewrite lval_add. congruence. Qed.
Lemma RV_scale : forall t k a x, RV t tt a x -> RV t tt (lscale k a) (k * x).
Proof. intros t k a x [H1 H2]. split; [apply wfl_scale; auto|]. rewrite lval_scale. congruence. Qed.
Lemma RV_sub : forall t a b x y, RV t tt a x -> RV t tt b y -> RV t tt (lsub a b) (x - y).
Proof.
  intros t a b x y H1 H2. replace (x - y) with (x + -1 * y) by lia. apply RV_add; auto. apply RV_scale; auto.
Qed.
Lemma RV_neg : forall t a x, RV t tt a x -> RV t tt (lscale (-1) a) (- x).
Proof. intros. replace (- x) with (-1 * x) by lia. apply RV_scale; auto. Qed.
Lemma sshr_ok : forall t a x n t' v, wft t -> RV t tt a x -> sshr t a n = Ok (t', v) ->
  ext t t' /\ RV t' tt v (Z.shiftr x n).
Proof. intros. destruct (sshr_sound lo hi ins t a x n t' v) as (A & C & D); auto. split; auto. split; auto. Qed.
Lemma sround2_ok : forall t a x n t' v, wft t -> RV t tt a x -> sround2 t a n = Ok (t', v) ->
  ext t t' /\ RV t' tt v (round2 x n).
Proof.
  intros t a x n t' v W R E. unfold sround2, round2 in *. destruct (n =? 0).
  - injection E as <- <-. auto using ext_refl.
  - eapply sshr_ok; eauto. apply RV_add; auto. split; [constructor|reflexivity].
Qed.
Lemma sclip_ok : forall t a x t' v, wft t -> RV t tt a x -> sclip t a = Ok (t', v) ->
  ext t t' /\ RV t' tt v (iclip x lo hi).
Proof. intros. destruct (sclip_sound lo hi ins LH t a x t' v) as (A & C & D); auto. split; auto. split; auto. Qed.

Lemma sdo_H_ok : forall a b t T V t' T', wft t -> RT t T V -> sdo_H a b t T = Ok (t', T') ->
  ext t t' /\ RT t' T' (do_H sat a b V).
Proof.
  intros a b t T V t' T' W R E. unfold sdo_H in E.
  apply obind_inv in E as ([t1 u] & E1 & E). apply obind_inv in E as ([t2 v] & E2 & E). injection E as <- <-.
  pose proof (RT_get _ _ _ a R) as Ra. pose proof (RT_get _ _ _ b R) as Rb.
  destruct (sclip_ok _ _ _ _ _ W (RV_add _ _ _ _ _ Ra Rb) E1) as [X1 V1].
  destruct (sclip_ok _ _ _ _ _ (proj1 X1) (proj2 X1 _ _ (RV_sub _ _ _ _ _ Ra Rb)) E2) as [X2 V2].
  split; [eapply ext_trans; eauto|]. unfold do_H. apply RT_set; auto. apply RT_set.
  - eapply RT_ext; [|exact R]. eapply ext_trans; eauto.
  - apply X2. auto.
Qed.

Lemma sdo_step_ok : forall st t T V t' T', wft t -> RT t T V -> sdo_step st t T = Ok (t', T') ->
  ext t t' /\ RT t' T' (do_step sat st V).
Proof.
  intros st t T V t' T' W R E. destruct st as [a b angle flip|a b flip|idx|i|i num den| | ]; cbn [sdo_step do_step] in *.
  - cbv zeta in E. apply obind_inv in E as ([t1 u] & E1 & E). apply obind_inv in E as ([t2 v] & E2 & E).
    assert (E' : t2 = t' /\ (if flip then sset (sset T a v) b u else sset (sset T a u) b v) = T') by (split; congruence).
    destruct E' as [-> <-]. clear E.
    pose proof (RT_get _ _ _ a R) as Ra. pose proof (RT_get _ _ _ b R) as Rb.
    assert (Q1 : RV t tt (lsub (lscale (cos128 angle) (sget T a)) (lscale (sin128 angle) (sget T b)))
                       (get V a * cos128 angle - get V b * sin128 angle)).
    { rewrite (Z.mul_comm (get V a)), (Z.mul_comm (get V b)). apply RV_sub; apply RV_scale; auto. }
    assert (Q2 : RV t tt (ladd (lscale (sin128 angle) (sget T a)) (lscale (cos128 angle) (sget T b)))
                       (get V a * sin128 angle + get V b * cos128 angle)).
    { rewrite (Z.mul_comm (get V a)), (Z.mul_comm (get V b)). apply RV_add; apply RV_scale; auto. }
    destruct (sround2_ok _ _ _ _ _ _ W Q1 E1) as [X1 V1].
    destruct (sround2_ok _ _ _ _ _ _ (proj1 X1) (proj2 X1 _ _ Q2) E2) as [X2 V2].
    assert (R2 : RT t' T V) by (eapply RT_ext; [|exact R]; eapply ext_trans; eauto).
    pose proof (proj2 X2 _ _ V1) as V1'.
    split; [eapply ext_trans; eauto|]. cbv zeta. destruct flip; repeat apply RT_set; auto.
  - destruct flip; eapply sdo_H_ok; eauto.
  - injection E as <- <-. split; [apply ext_refl; auto|]. unfold RT. induction idx; constructor; auto.
    apply RT_get. auto.
  - injection E as <- <-. split; [apply ext_refl; auto|]. apply RT_set; auto. apply RV_neg. apply RT_get. auto.
  - apply obind_inv in E as ([t1 u] & E1 & E). injection E as <- <-.
    assert (Q : RV t tt (lscale num (sget T i)) (get V i * num))
      by (rewrite Z.mul_comm; apply RV_scale; apply RT_get; auto).
    destruct (sround2_ok _ _ _ _ _ _ W Q E1) as [X1 V1]. split; auto.
    apply RT_set; auto. eapply RT_ext; eauto.
  - cbv zeta in E |- *.
    apply obind_inv in E as ([t1 y0] & E1 & E). apply obind_inv in E as ([t2 y1] & E2 & E).
    apply obind_inv in E as ([t3 y2] & E3 & E). apply obind_inv in E as ([t4 y3] & E4 & E). injection E as <- <-.
    pose proof (RT_get _ _ _ 0%nat R) as R0. pose proof (RT_get _ _ _ 1%nat R) as R1.
    pose proof (RT_get _ _ _ 2%nat R) as R2. pose proof (RT_get _ _ _ 3%nat R) as R3.
    assert (Q0 := RV_add _ _ _ _ _ (RV_add _ _ _ _ _ (RV_scale _ SINPI_1_9 _ _ R0) (RV_scale _ SINPI_4_9 _ _ R2)) (RV_scale _ SINPI_2_9 _ _ R3)).
    assert (Q1 := RV_sub _ _ _ _ _ (RV_sub _ _ _ _ _ (RV_scale _ SINPI_2_9 _ _ R0) (RV_scale _ SINPI_1_9 _ _ R2)) (RV_scale _ SINPI_4_9 _ _ R3)).
    assert (Q3 := RV_scale _ SINPI_3_9 _ _ R1).
    assert (Q2 := RV_scale _ SINPI_3_9 _ _ (RV_add _ _ _ _ _ (RV_sub _ _ _ _ _ R0 R2) R3)).
    destruct (sround2_ok _ _ _ _ _ _ W (RV_add _ _ _ _ _ Q0 Q3) E1) as [X1 V1].
    destruct (sround2_ok _ _ _ _ _ _ (proj1 X1) (proj2 X1 _ _ (RV_add _ _ _ _ _ Q1 Q3)) E2) as [X2 V2].
    pose proof (ext_trans _ _ _ X1 X2) as X12.
    destruct (sround2_ok _ _ _ _ _ _ (proj1 X12) (proj2 X12 _ _ Q2) E3) as [X3 V3].
    pose proof (ext_trans _ _ _ X12 X3) as X13.
    destruct (sround2_ok _ _ _ _ _ _ (proj1 X13) (proj2 X13 _ _ (RV_sub _ _ _ _ _ (RV_add _ _ _ _ _ Q0 Q1) Q3)) E4) as [X4 V4].
    split; [eapply ext_trans; eauto|].
    apply (proj2 X2) in V1. apply (proj2 X3) in V1, V2. apply (proj2 X4) in V1, V2, V3.
    constructor; [exact V1|]. constructor; [exact V2|]. constructor; [exact V3|]. constructor; [exact V4|constructor].
  - cbv zeta in E |- *. apply obind_inv in E as ([t1 e] & E1 & E). injection E as <- <-.
    pose proof (RT_get _ _ _ 0%nat R) as R0. pose proof (RT_get _ _ _ 1%nat R) as R1.
    pose proof (RT_get _ _ _ 2%nat R) as R2. pose proof (RT_get _ _ _ 3%nat R) as R3.
    pose proof (RV_add _ _ _ _ _ R0 R1) as Ra. pose proof (RV_sub _ _ _ _ _ R2 R3) as Rd.
    destruct (sshr_ok _ _ _ _ _ _ W (RV_sub _ _ _ _ _ Ra Rd) E1) as [X1 V1]. split; auto.
    apply (proj2 X1) in Ra, Rd, R3, R1.
    pose proof (RV_sub _ _ _ _ _ V1 R3) as Rb. pose proof (RV_sub _ _ _ _ _ V1 R1) as Rc.
    constructor; [apply RV_sub; auto|]. constructor; [auto|]. constructor; [auto|].
    constructor; [apply RV_add; auto|]. constructor.
Qed.

Lemma sdo_steps_ok : forall l t T V t' T', wft t -> RT t T V -> sdo_steps l t T = Ok (t', T') ->
  ext t t' /\ RT t' T' (do_steps sat l V).
Proof.
  induction l as [|st l IH]; intros t T V t' T' W R E; cbn [sdo_steps] in E.
  - injection E as <- <-. split; auto using ext_refl.
  - apply obind_inv in E as ([t1 T1] & E1 & E).
    destruct (sdo_step_ok _ _ _ _ _ _ W R E1) as [X1 R1].
    destruct (IH _ _ _ _ _ (proj1 X1) R1 E) as [X2 R2]. split; [eapply ext_trans; eauto|]. exact R2.
Qed.
End Sound.

(** ** The check *)
Definition in_table (m : nat) : table := rev (map NIn (seq 0 m)).
Definition in_atoms (m : nat) : list lin := map (fun k => atom (N.of_nat k)) (seq 0 m).

Definition all_some {A} (l : list (option A)) : option (list A) :=
  fold_right (fun o a => match o, a with Some x, Some l => Some (x :: l) | _, _ => None end) (Some []) l.

(** [m] inputs followed by [n - m] elements that are zero for the
    specification and uninitialised for the code; [rv] tells whether the
    output is reversed. *)
Definition same (fn : list block) (steps : list step) (m n : nat) (rv : bool) : bool :=
  match run symdom fn (map Some (in_atoms m) ++ repeat None (n - m)) (in_table m) with
  | Ok (t1, a1) =>
      match sdo_steps steps t1 (in_atoms m ++ repeat lzero (n - m)), all_some a1 with
      | Ok (_, T2), Some l1 =>
          let l2 := if rv then rev T2 else T2 in
          (length l1 =? length l2)%nat && forallb (fun p => leqb (fst p) (snd p)) (combine l1 l2)
      | _, _ => false
      end
  | Undef => false
  end.

Lemma all_some_eq : forall A (l : list (option A)) r, all_some l = Some r -> l = map Some r.
Proof.
  induction l as [|[x|] l IH]; intros r H; cbn in H.
  - injection H as <-. reflexivity.
  - fold (all_some l) in H. destruct (all_some l) as [r'|]; [|discriminate]. injection H as <-. cbn. f_equal. auto.
  - discriminate.
Qed.

Lemma eq_lins : forall l1 l2, length l1 = length l2 ->
  forallb (fun p => leqb (fst p) (snd p)) (combine l1 l2) = true -> l1 = l2.
Proof.
  induction l1 as [|x l1 IH]; intros [|y l2] L H; cbn in *; try discriminate; auto.
  apply andb_true_iff in H as [H1 H2]. apply leqb_eq in H1. f_equal; auto.
Qed.

Section Ins.
Variables (lo hi : Z) (ins : list Z).

Lemma in_table_wf : forall l, wft (rev (map NIn l)).
Proof.
  intros l. rewrite <- map_rev. induction (rev l); cbn; auto.
Qed.
Lemma look_map : forall r i, (i < length r)%nat ->
  look (tval lo hi ins (map NIn r)) (N.of_nat i) = nth (nth i (rev r) 0%nat) ins 0.
Proof.
  induction r as [|k r IH]; intros i H; cbn in H; [lia|].
  cbn [map tval look nval rev]. rewrite tval_length, map_length.
  destruct (N.eqb_spec (N.of_nat (length r)) (N.of_nat i)) as [E|E].
  - assert (i = length r) by lia. subst i. rewrite app_nth2; rewrite rev_length; [|lia].
    rewrite Nat.sub_diag. reflexivity.
  - rewrite IH by lia. rewrite app_nth1 by (rewrite rev_length; lia). reflexivity.
Qed.
Lemma look_rev_map : forall l i, (i < length l)%nat ->
  look (tval lo hi ins (rev (map NIn l))) (N.of_nat i) = nth (nth i l 0%nat) ins 0.
Proof.
  intros l i H. rewrite <- map_rev, look_map by (rewrite rev_length; auto). rewrite rev_involutive. reflexivity.
Qed.
Lemma in_atoms_val : forall m, length ins = m ->
  Forall2 (RVs lo hi ins (in_table m) tt) (in_atoms m) ins.
Proof.
  intros m L. unfold in_atoms.
  assert (E : ins = map (fun k => nth k ins 0) (seq 0 m)).
  { apply nth_ext with (d := 0) (d' := 0).
    - rewrite map_length, seq_length. auto.
    - intros k Hk. symmetry.
      rewrite (nth_indep (map _ _) 0 (nth 0%nat ins 0)) by (rewrite map_length, seq_length; lia).
      rewrite (map_nth (fun k => nth k ins 0) (seq 0 m) 0%nat k). rewrite seq_nth by lia. reflexivity. }
  assert (G : forall l, (forall k, In k l -> (k < m)%nat) ->
     Forall2 (RVs lo hi ins (in_table m) tt) (map (fun k => atom (N.of_nat k)) l) (map (fun k => nth k ins 0) l)).
  { induction l as [|k l IH]; intros Hl; cbn [map]; constructor.
    - assert (k < m)%nat by (apply Hl; left; auto). split.
      + constructor; [|constructor]. cbn [fst]. unfold in_table. rewrite rev_length, map_length, seq_length. lia.
      + unfold lval, atom. cbn [fst snd tsum]. unfold in_table. rewrite look_rev_map by (rewrite seq_length; lia).
        rewrite seq_nth by lia. cbn [Nat.add]. lia.
    - apply IH. intros. apply Hl. right. auto. }
  specialize (G (seq 0 m)). rewrite <- E in G. apply G. intros k Hk. apply in_seq in Hk. lia.
Qed.
End Ins.

Lemma ro_map_some : forall D1 D2 RV s1 s2 l v, Forall2 (RV s1 s2) l v ->
  Forall2 (ro D1 D2 RV s1 s2) (map Some l) (map Some v).
Proof. intros D1 D2 RV s1 s2 l v F. induction F; constructor; auto. cbn. eauto. Qed.
Lemma Forall2_imp : forall A B (P Q : A -> B -> Prop) l v, (forall x y, P x y -> Q x y) ->
  Forall2 P l v -> Forall2 Q l v.
Proof. intros A B P Q l v I F. induction F; constructor; auto. Qed.

Lemma Forall2_rep : forall A B (P : A -> B -> Prop) a b n, P a b -> Forall2 P (repeat a n) (repeat b n).
Proof. induction n; intros; constructor; auto. Qed.

Theorem same_sound : forall fn steps m n rv lo hi ins a', same fn steps m n rv = true ->
  lo <= 0 <= hi -> length ins = m ->
  run_c lo hi fn (map Some ins ++ repeat None (n - m)) = Ok a' ->
  let T := do_steps (fun v => iclip v lo hi) steps (ins ++ repeat 0 (n - m)) in
  a' = map Some (if rv then rev T else T).
Proof.
  intros fn steps m n rv lo hi ins a' S LH L E T.
  apply cint_exact in E. unfold same in S.
  destruct (run symdom fn _ _) as [[t1 a1]|] eqn:R1; [|discriminate].
  destruct (sdo_steps _ _ _) as [[t2 T2]|] eqn:R2; [|discriminate].
  destruct (all_some a1) as [l1|] eqn:A1; [|discriminate]. apply all_some_eq in A1. subst a1.
  apply andb_true_iff in S as [S1 S2]. apply Nat.eqb_eq in S1. apply eq_lins in S2; auto. clear S1. subst l1.
  assert (W : wft (in_table m)) by apply in_table_wf.
  pose proof (in_atoms_val lo hi ins m L) as RI.
  assert (RI0 : Forall2 (ro symdom (zexact lo hi) (RVs lo hi ins) (in_table m) tt)
                  (map Some (in_atoms m) ++ repeat None (n - m)) (map Some ins ++ repeat None (n - m))).
  { apply Forall2_app.
    - exact (ro_map_some symdom (zexact lo hi) (RVs lo hi ins) _ _ _ _ RI).
    - apply Forall2_rep. reflexivity. }
  destruct (sym_sound lo hi ins LH fn _ _ (map Some ins ++ repeat None (n - m)) _ _ W RI0 R1)
    as (a2 & E2 & W1 & K & F).
  rewrite E in E2. injection E2 as <-.
  assert (RT1 : RT lo hi ins t1 (in_atoms m ++ repeat lzero (n - m)) (ins ++ repeat 0 (n - m))).
  { apply Forall2_app.
    - eapply Forall2_imp; [|exact RI]. exact K.
    - apply Forall2_rep. apply RV_zero. }
  destruct (sdo_steps_ok lo hi ins LH _ _ _ _ _ _ W1 RT1 R2) as [X RT2]. fold T in RT2.
  destruct X as [W2 X].
  assert (F2 : Forall2 (fun o z => o = Some z) a' (if rv then rev T else T)).
  { assert (RT3 : RT lo hi ins t2 (if rv then rev T2 else T2) (if rv then rev T else T)).
    { destruct rv; auto. clear - RT2. unfold RT in *. induction RT2; cbn; auto.
      apply Forall2_app; auto. }
    clear - F RT3 X. remember (if rv then rev T2 else T2) as l. remember (if rv then rev T else T) as v.
    clear Heql Heqv. revert a' F. induction RT3; intros a' F; cbn [map] in F; inversion F; subst; constructor; auto.
    cbn in H2. destruct H2 as (z & -> & Hz). apply X in Hz. destruct H, Hz. congruence. }
  clear - F2. induction F2; cbn; auto. congruence.
Qed.

(** ** The instances *)
Lemma same_dct4 : same inv_dct4 (dct_steps 2) 4 4 false = true.
Proof. vm_compute. reflexivity. Qed.
Lemma same_dct8 : same inv_dct8 (dct_steps 3) 8 8 false = true.
Proof. vm_compute. reflexivity. Qed.
Lemma same_dct16 : same inv_dct16 (dct_steps 4) 16 16 false = true.
Proof. vm_compute. reflexivity. Qed.
Lemma same_dct32 : same inv_dct32 (dct_steps 5) 32 32 false = true.
Proof. vm_compute. reflexivity. Qed.
Lemma same_dct64 : same inv_dct64 (dct_steps 6) 32 64 false = true.
Proof. vm_compute. reflexivity. Qed.
Lemma same_adst4 : forall rv : bool, same (if rv then inv_flipadst 4 adst4_body else inv_adst adst4_body) (adst_steps 2) 4 4 rv = true.
Proof. intros []; vm_compute; reflexivity. Qed.
Lemma same_adst8 : forall rv : bool, same (if rv then inv_flipadst 8 adst8_body else inv_adst adst8_body) (adst_steps 3) 8 8 rv = true.
Proof. intros []; vm_compute; reflexivity. Qed.
Lemma same_adst16 : forall rv : bool, same (if rv then inv_flipadst 16 adst16_body else inv_adst adst16_body) (adst_steps 4) 16 16 rv = true.
Proof. intros []; vm_compute; reflexivity. Qed.
Lemma same_identity4 : same inv_identity4 (identity_steps 2) 4 4 false = true.
Proof. vm_compute. reflexivity. Qed.
Lemma same_identity8 : same inv_identity8 (identity_steps 3) 8 8 false = true.
Proof. vm_compute. reflexivity. Qed.
Lemma same_identity16 : same inv_identity16 (identity_steps 4) 16 16 false = true.
Proof. vm_compute. reflexivity. Qed.
Lemma same_identity32 : same inv_identity32 (identity_steps 5) 32 32 false = true.
Proof. vm_compute. reflexivity. Qed.
Lemma same_wht4 : same inv_wht4 [Wht4] 4 4 false = true.
Proof. vm_compute. reflexivity. Qed.

(** Symbolic execution of the straight-line code: every value becomes a linear
    combination of the inputs and of numbered intermediate results, which are
    floors of a linear combination divided by 4096, or clipped linear
    combinations.  Equal values in this normal form are equal. *)
From Coq Require Import ZArith NArith List Bool Lia.
From Verif.Base Require Import CInt Lemmas.
From Verif.Itx Require Import Lang Sim.
Import ListNotations.
Open Scope Z_scope.
Open Scope outcome_scope.

Definition lin := (list (N * Z) * Z)%type.
Inductive node := NIn (k : nat) | NRnd (l : lin) | NClip (l : lin).
Definition table := list node.

(** ** Meaning *)
Fixpoint look (vs : list Z) (i : N) : Z :=
  match vs with
  | [] => 0
  | v :: r => if (N.of_nat (length r) =? i)%N then v else look r i
  end.
Fixpoint tsum (vs : list Z) (t : list (N * Z)) : Z :=
  match t with [] => 0 | p :: t => snd p * look vs (fst p) + tsum vs t end.
Definition lval (vs : list Z) (l : lin) : Z := tsum vs (fst l) + snd l.

Section Meaning.
Variables (lo hi : Z) (ins : list Z).
Definition nval (vs : list Z) (n : node) : Z :=
  match n with
  | NIn k => nth k ins 0
  | NRnd l => Z.shiftr (lval vs l) 12
  | NClip l => iclip (lval vs l) lo hi
  end.
Fixpoint tval (t : table) : list Z :=
  match t with [] => [] | n :: r => nval (tval r) n :: tval r end.
End Meaning.

(** ** Operations on linear combinations *)
Fixpoint tadd (a : list (N * Z)) : list (N * Z) -> list (N * Z) :=
  match a with
  | [] => fun b => b
  | (i, x) :: a' =>
      fix go b := match b with
        | [] => (i, x) :: a'
        | (j, y) :: b' =>
            match N.compare i j with
            | Lt => (i, x) :: tadd a' ((j, y) :: b')
            | Gt => (j, y) :: go b'
            | Eq => if x + y =? 0 then tadd a' b' else (i, x + y) :: tadd a' b'
            end
        end
  end.
Definition ladd (a b : lin) : lin := (tadd (fst a) (fst b), snd a + snd b).
Definition lscale (k : Z) (a : lin) : lin :=
  if k =? 0 then ([], 0) else (map (fun p => (fst p, k * snd p)) (fst a), k * snd a).
Definition lquot (a : lin) : lin :=
  (filter (fun p => negb (snd p =? 0)) (map (fun p => (fst p, snd p / 4096)) (fst a)), snd a / 4096).
Definition lrem (a : lin) : lin :=
  (filter (fun p => negb (snd p =? 0)) (map (fun p => (fst p, snd p mod 4096)) (fst a)), snd a mod 4096).

Fixpoint teqb (a b : list (N * Z)) : bool :=
  match a, b with
  | [], [] => true
  | (i, x) :: a, (j, y) :: b => (i =? j)%N && (x =? y) && teqb a b
  | _, _ => false
  end.
Definition leqb (a b : lin) : bool := teqb (fst a) (fst b) && (snd a =? snd b).
Definition neqb (a b : node) : bool :=
  match a, b with
  | NIn k, NIn j => Nat.eqb k j
  | NRnd a, NRnd b => leqb a b
  | NClip a, NClip b => leqb a b
  | _, _ => false
  end.

Fixpoint find_node (n : node) (t : table) : option N :=
  match t with
  | [] => None
  | m :: r => if neqb n m then Some (N.of_nat (length r)) else find_node n r
  end.
Definition intern (t : table) (n : node) : table * N :=
  match find_node n t with
  | Some i => (t, i)
  | None => (n :: t, N.of_nat (length t))
  end.
Fixpoint node_at (t : table) (i : N) : option node :=
  match t with
  | [] => None
  | n :: r => if (N.of_nat (length r) =? i)%N then Some n else node_at r i
  end.

Definition atom (i : N) : lin := ([(i, 1)], 0).

Definition sshr (t : table) (a : lin) (n : Z) : outcome (table * lin) :=
  if (0 <=? n) && (n <=? 12) then
    let l := lscale (2 ^ (12 - n)) a in
    let r := lrem l in
    match fst r with
    | [] => Ok (t, lquot l)
    | _ => let (t, i) := intern t (NRnd r) in Ok (t, ladd (lquot l) (atom i))
    end
  else Undef.

Definition sclip (t : table) (a : lin) : outcome (table * lin) :=
  match a with
  | ([], 0) => Ok (t, a)
  | ([(i, 1)], 0) =>
      match node_at t i with
      | Some (NClip _) => Ok (t, a)
      | _ => let (t, j) := intern t (NClip a) in Ok (t, atom j)
      end
  | _ => let (t, j) := intern t (NClip a) in Ok (t, atom j)
  end.

Definition smul (a b : lin) : outcome lin :=
  match fst a, fst b with
  | [], _ => Ok (lscale (snd a) b)
  | _, [] => Ok (lscale (snd b) a)
  | _, _ => Undef
  end.

Definition symdom : dom := {|
  dS := table; dV := lin;
  dK := fun t z => Ok (t, ([], z));
  dAdd := fun t a b => Ok (t, ladd a b);
  dSub := fun t a b => Ok (t, ladd a (lscale (-1) b));
  dMul := fun t a b => let! v := smul a b in Ok (t, v);
  dShr := fun t a n => sshr t a n;
  dNeg := fun t a => Ok (t, lscale (-1) a);
  dClip := fun t a => sclip t a |}.

(** Exact integer arithmetic. *)
Definition zexact (lo hi : Z) : dom := {|
  dS := unit; dV := Z;
  dK := fun _ z => Ok (tt, z);
  dAdd := fun _ a b => Ok (tt, a + b);
  dSub := fun _ a b => Ok (tt, a - b);
  dMul := fun _ a b => Ok (tt, a * b);
  dShr := fun _ a n => Ok (tt, Z.shiftr a n);
  dNeg := fun _ a => Ok (tt, - a);
  dClip := fun _ a => Ok (tt, iclip a lo hi) |}.

(** The C execution, when defined, computes the exact values. *)
Lemma cint_exact : forall lo hi fn a a', run_c lo hi fn a = Ok a' ->
  run (zexact lo hi) fn a tt = Ok (tt, a').
Proof.
  intros lo hi fn a a' H. unfold run_c in H. apply obind_inv in H as ([[] b] & H & E). injection E as <-.
  destruct (run_sim (cint lo hi) (zexact lo hi) (fun _ _ => True) (fun _ _ => eq)) with (fn := fn) (a1 := a) (a2 := a) (s1 := tt) (s2 := tt) (s1' := tt) (a1' := b) as ([] & b2 & E & _ & RR); auto.
  all: try (intros; intros [] v E; cbn in E; cbn; subst; unfold cint_op in E;
            match type of E with (if ?c then _ else _) = _ => destruct c; [|discriminate] | _ => idtac end;
            injection E as <-; repeat eexists; auto; fail).
  - clear H. unfold rarr. induction a as [|[v|] a IH]; constructor; cbn; auto. exists v. auto.
  - rewrite E. do 2 f_equal. clear - RR. unfold rarr in RR. induction RR; auto.
    f_equal; auto. destruct x; cbn in *; auto. destruct H as (v2 & -> & <-). reflexivity.
Qed.

(** ** Soundness of the symbolic execution *)
Definition wfl (n : nat) (l : lin) : Prop := Forall (fun p => (fst p < N.of_nat n)%N) (fst l).
Definition wfn (n : nat) (m : node) : Prop :=
  match m with NIn _ => True | NRnd l | NClip l => wfl n l end.
Fixpoint wft (t : table) : Prop :=
  match t with [] => True | m :: r => wfn (length r) m /\ wft r end.

Lemma wfl_mono : forall n m l, (n <= m)%nat -> wfl n l -> wfl m l.
Proof. unfold wfl. intros n m l H F. eapply Forall_impl; [|exact F]. cbn. intros. lia. Qed.

Lemma tsum_app_cons : forall vs v t, Forall (fun p => (fst p < N.of_nat (length vs))%N) t ->
  tsum (v :: vs) t = tsum vs t.
Proof.
  induction t as [|p t IH]; intros F; inversion F; subst; cbn; auto. fold (tsum (v :: vs) t).
  rewrite IH by auto. destruct (N.eqb_spec (N.of_nat (length vs)) (fst p)); [lia|]. reflexivity.
Qed.

Lemma tsum_tadd : forall vs a b, tsum vs (tadd a b) = tsum vs a + tsum vs b.
Proof.
  induction a as [|[i x] a IH]; intros b.
  - reflexivity.
  - induction b as [|[j y] b IHb].
    + cbn. lia.
    + cbn [tadd]. destruct (N.compare_spec i j) as [->|L|L].
      * destruct (Z.eqb_spec (x + y) 0); cbn -[tadd]; fold (tsum vs (tadd a b)); rewrite IH; fold (tsum vs a); fold (tsum vs b); nia.
      * cbn -[tadd]. fold (tsum vs (tadd a ((j, y) :: b))). rewrite IH. cbn. fold (tsum vs a). fold (tsum vs b). lia.
      * change (tsum vs ((j, y) :: tadd ((i, x) :: a) b) = tsum vs ((i, x) :: a) + tsum vs ((j, y) :: b)).
        change (y * look vs j + tsum vs (tadd ((i, x) :: a) b) = tsum vs ((i, x) :: a) + (y * look vs j + tsum vs b)).
        rewrite IHb. lia.
Qed.
Lemma lval_add : forall vs a b, lval vs (ladd a b) = lval vs a + lval vs b.
Proof. intros. unfold lval, ladd. cbn. rewrite tsum_tadd. lia. Qed.
Lemma tsum_map_scale : forall vs k t, tsum vs (map (fun p => (fst p, k * snd p)) t) = k * tsum vs t.
Proof. induction t; cbn; [lia|]. fold (tsum vs t). fold (tsum vs (map (fun p : N * Z => (fst p, k * snd p)) t)). rewrite IHt. nia. Qed.
Lemma lval_scale : forall vs k a, lval vs (lscale k a) = k * lval vs a.
Proof.
  intros. unfold lval, lscale. destruct (Z.eqb_spec k 0) as [->|]; [reflexivity|]. cbn. rewrite tsum_map_scale. lia.
Qed.
Lemma tsum_filter : forall vs t, tsum vs (filter (fun p => negb (snd p =? 0)) t) = tsum vs t.
Proof.
  induction t as [|p t IH]; cbn; auto. fold (tsum vs t).
  destruct (Z.eqb_spec (snd p) 0) as [E|E]; cbn; rewrite ?IH; [rewrite E; lia|reflexivity].
Qed.
Lemma lval_quot_rem : forall vs a, lval vs a = 4096 * lval vs (lquot a) + lval vs (lrem a).
Proof.
  intros vs [t k]. unfold lval, lquot, lrem. cbn [fst snd]. rewrite !tsum_filter.
  assert (E : tsum vs t = 4096 * tsum vs (map (fun p => (fst p, snd p / 4096)) t)
                         + tsum vs (map (fun p => (fst p, snd p mod 4096)) t)).
  { induction t as [|p t IH]; [reflexivity|].
    change (snd p * look vs (fst p) + tsum vs t =
            4096 * (snd p / 4096 * look vs (fst p) + tsum vs (map (fun p => (fst p, snd p / 4096)) t)) +
            (snd p mod 4096 * look vs (fst p) + tsum vs (map (fun p => (fst p, snd p mod 4096)) t))).
    rewrite IH. rewrite (Z.div_mod (snd p) 4096) at 1 by lia. ring. }
  rewrite E. rewrite (Z.div_mod k 4096) at 1 by lia. ring.
Qed.

Lemma teqb_eq : forall a b, teqb a b = true -> a = b.
Proof.
  induction a as [|[i x] a IH]; intros [|[j y] b] H; cbn in H; try discriminate; auto.
  apply andb_true_iff in H as [H H3]. apply andb_true_iff in H as [H1 H2].
  apply N.eqb_eq in H1. apply Z.eqb_eq in H2. subst. f_equal. auto.
Qed.
Lemma leqb_eq : forall a b, leqb a b = true -> a = b.
Proof.
  intros [a x] [b y] H. unfold leqb in H. cbn in H. apply andb_true_iff in H as [H1 H2].
  apply teqb_eq in H1. apply Z.eqb_eq in H2. congruence.
Qed.
Lemma neqb_eq : forall a b, neqb a b = true -> a = b.
Proof.
  intros [i|a|a] [j|b|b] H; cbn in H; try discriminate.
  - apply Nat.eqb_eq in H. congruence.
  - apply leqb_eq in H. congruence.
  - apply leqb_eq in H. congruence.
Qed.

Lemma wfl_add : forall n a b, wfl n a -> wfl n b -> wfl n (ladd a b).
Proof.
  unfold wfl, ladd. intros n [a x] [b y]. cbn [fst]. clear x y. revert b.
  induction a as [|[i x] a IH]; intros b Ha Hb; [exact Hb|].
  inversion Ha; subst. cbn [fst] in *.
  induction b as [|[j y] b IHb]; [constructor; auto|]. inversion Hb; subst. cbn [fst] in *.
  cbn [tadd]. destruct (N.compare i j).
  - destruct (x + y =? 0); [|constructor; auto]; apply IH; auto.
  - constructor; auto.
  - constructor; auto.
Qed.
Lemma wfl_scale : forall n k a, wfl n a -> wfl n (lscale k a).
Proof.
  unfold wfl, lscale. intros n k [a x] H. cbn in *. destruct (k =? 0); cbn; auto. induction H; constructor; auto.
Qed.
Lemma wfl_mapfilter : forall n f g a, Forall (fun p : N * Z => (fst p < N.of_nat n)%N) a ->
  Forall (fun p : N * Z => (fst p < N.of_nat n)%N) (filter g (map (fun p => (fst p, f p)) a)).
Proof. intros n f g a H. induction H; cbn; auto. destruct (g _); [constructor|]; auto. Qed.
Lemma wfl_quot : forall n a, wfl n a -> wfl n (lquot a).
Proof. unfold wfl, lquot. intros. cbn. apply wfl_mapfilter. auto. Qed.
Lemma wfl_rem : forall n a, wfl n a -> wfl n (lrem a).
Proof. unfold wfl, lrem. intros. cbn. apply wfl_mapfilter. auto. Qed.

Section Sound.
Variables (lo hi : Z) (ins : list Z).
Hypothesis LH : lo <= 0 <= hi.
Notation tv := (tval lo hi ins).
Notation nv := (nval lo hi ins).

Lemma tval_length : forall t, length (tv t) = length t.
Proof. induction t; cbn; auto. Qed.

Lemma lval_cons : forall t n l, wfl (length t) l -> lval (tv (n :: t)) l = lval (tv t) l.
Proof.
  intros. unfold lval. cbn [tval]. rewrite tsum_app_cons; auto. rewrite tval_length. auto.
Qed.
Lemma nval_cons : forall t n m, wfn (length t) m -> nv (tv (n :: t)) m = nv (tv t) m.
Proof. intros t n [k|l|l] H; cbn [nval]; auto; rewrite lval_cons; auto. Qed.

Definition RSs (t : table) (_ : unit) : Prop := wft t.
Definition RVs (t : table) (_ : unit) (l : lin) (z : Z) : Prop := wfl (length t) l /\ lval (tv t) l = z.

Lemma find_node_sound : forall t n i, wft t -> find_node n t = Some i ->
  (i < N.of_nat (length t))%N /\ look (tv t) i = nv (tv t) n.
Proof.
  induction t as [|m t IH]; intros n i W H; cbn [find_node] in H; [discriminate|].
  destruct W as [Wm W]. destruct (neqb n m) eqn:E.
  - injection H as <-. apply neqb_eq in E. subst m. split; [cbn [length]; lia|].
    rewrite nval_cons by auto. cbn [tval look]. rewrite tval_length, N.eqb_refl. reflexivity.
  - destruct (IH n i W H) as [L V]. split; [cbn [length]; lia|].
    cbn [tval look]. rewrite tval_length. destruct (N.eqb_spec (N.of_nat (length t)) i); [lia|].
    rewrite V. assert (Wn : wfn (length t) n).
    { clear - W H. revert H. induction t as [|m t IHt]; cbn [find_node]; [discriminate|].
      destruct W as [W1 W2]. destruct (neqb n m) eqn:E; intros H.
      - apply neqb_eq in E. subst m. destruct n; cbn [length wfn] in *; eauto using wfl_mono.
      - specialize (IHt W2 H). destruct n; cbn [length wfn] in *; eauto using wfl_mono. }
    symmetry. change (nv (tv t) m :: tv t) with (tv (m :: t)). apply nval_cons. auto.
Qed.

Lemma intern_sound : forall t n t' i, wft t -> wfn (length t) n -> intern t n = (t', i) ->
  wft t' /\ (forall x y, RVs t tt x y -> RVs t' tt x y) /\ RVs t' tt (atom i) (nv (tv t) n).
Proof.
  intros t n t' i W Wn H. unfold intern in H. destruct (find_node n t) as [j|] eqn:F.
  - injection H as <- <-. destruct (find_node_sound _ _ _ W F) as [L V]. split; auto. split; auto.
    split; [repeat constructor; auto|]. unfold lval, atom. cbn [fst snd tsum]. lia.
  - injection H as <- <-. split; [split; auto|]. split.
    + intros x y [H1 H2]. split; [eapply wfl_mono; [|exact H1]; cbn; lia|]. rewrite lval_cons; auto.
    + split; [repeat constructor; cbn; lia|]. unfold lval, atom. cbn [fst snd tsum tval look].
      rewrite tval_length, N.eqb_refl. lia.
Qed.

Lemma node_at_clip : forall t i l, node_at t i = Some (NClip l) -> exists z, look (tv t) i = iclip z lo hi.
Proof.
  induction t as [|n t IH]; intros i l H; cbn [node_at] in H; [discriminate|].
  cbn [tval look]. rewrite tval_length. destruct (N.of_nat (length t) =? i)%N.
  - injection H as ->. cbn [nval]. eauto.
  - eauto.
Qed.

Lemma iclip_idem : forall z, iclip (iclip z lo hi) lo hi = iclip z lo hi.
Proof.
  intros. unfold iclip. destruct (z <? lo) eqn:A; [|destruct (hi <? z) eqn:B].
  - rewrite Z.ltb_irrefl. destruct (Z.ltb_spec hi lo); lia.
  - rewrite Z.ltb_irrefl. destruct (Z.ltb_spec hi lo); lia.
  - rewrite A, B. reflexivity.
Qed.

Lemma sshr_sound : forall t a z n t' v, wft t -> RVs t tt a z -> sshr t a n = Ok (t', v) ->
  wft t' /\ (forall x y, RVs t tt x y -> RVs t' tt x y) /\ RVs t' tt v (Z.shiftr z n).
Proof.
  intros t a z n t' v W [Wa Va] H. unfold sshr in H.
  destruct ((0 <=? n) && (n <=? 12)) eqn:N; [|discriminate].
  apply andb_true_iff in N as [N1 N2]. apply Z.leb_le in N1, N2.
  set (l := lscale (2 ^ (12 - n)) a) in *. cbv zeta in H.
  assert (Wl : wfl (length t) l) by (apply wfl_scale; auto).
  assert (Vl : Z.shiftr z n = lval (tv t) (lquot l) + Z.shiftr (lval (tv t) (lrem l)) 12).
  { assert (E : 4096 * lval (tv t) (lquot l) + lval (tv t) (lrem l) = 2 ^ (12 - n) * z)
      by (rewrite <- lval_quot_rem; unfold l; rewrite lval_scale; congruence).
    rewrite !shiftr_div by lia. change (2 ^ 12) with 4096.
    rewrite <- (Z.div_mul_cancel_r z (2 ^ n) (2 ^ (12 - n))) by (pose proof (pow2_pos n N1); pose proof (pow2_pos (12 - n)); lia).
    rewrite <- Z.pow_add_r by lia. replace (n + (12 - n)) with 12 by lia. change (2 ^ 12) with 4096.
    rewrite (Z.mul_comm z), <- E, Z.mul_comm, Z.div_add_l by lia. reflexivity. }
  destruct (fst (lrem l)) as [|p r] eqn:R.
  - injection H as <- <-. split; auto. split; auto. split; [apply wfl_quot; auto|].
    rewrite Vl. unfold lval at 3. rewrite R. cbn [tsum].
    assert (0 <= snd (lrem l) < 4096) by (cbn; apply Z.mod_pos_bound; lia).
    rewrite shiftr_div by lia. change (2 ^ 12) with 4096. rewrite Z.div_small by lia. lia.
  - destruct (intern t (NRnd (lrem l))) as [u i] eqn:I. injection H as <- <-.
    assert (Wr : wfn (length t) (NRnd (lrem l))) by (cbn [wfn]; apply wfl_rem; auto).
    destruct (intern_sound _ _ _ _ W Wr I) as (W' & K & [Wi Vi]).
    split; auto. split; auto.
    destruct (K (lquot l) _ (conj (wfl_quot _ _ Wl) eq_refl)) as [Wq Vq].
    split; [apply wfl_add; auto|]. rewrite lval_add, Vq, Vi, Vl. reflexivity.
Qed.

Lemma sclip_sound : forall t a z t' v, wft t -> RVs t tt a z -> sclip t a = Ok (t', v) ->
  wft t' /\ (forall x y, RVs t tt x y -> RVs t' tt x y) /\ RVs t' tt v (iclip z lo hi).
Proof.
  intros t a z t' v W [Wa Va] H.
  assert (G : forall u j, intern t (NClip a) = (u, j) -> Ok (u, atom j) = Ok (t', v) ->
     wft t' /\ (forall x y, RVs t tt x y -> RVs t' tt x y) /\ RVs t' tt v (iclip z lo hi)).
  { intros u j I E. injection E as <- <-. destruct (intern_sound _ (NClip a) _ _ W Wa I) as (W' & K & Q).
    split; auto. split; auto. cbn [nval] in Q. rewrite Va in Q. exact Q. }
  unfold sclip in H.
  destruct a as [ts k].
  assert (D : (ts = [] /\ k = 0) \/ (exists i, ts = [(i, 1)] /\ k = 0) \/
              H = H /\ (let (t0, j) := intern t (NClip (ts, k)) in Ok (t0, atom j)) = Ok (t', v)).
  { destruct ts as [|[i c0] [|q ts]].
    - destruct k; auto.
    - destruct c0 as [|[]|]; auto; destruct k; auto. right. left. eauto.
    - destruct c0 as [|[]|]; auto. }
  destruct D as [[-> ->]|[(i & -> & ->)|[_ D]]].
  - injection H as <- <-. cbn in Va. subst z. split; auto. split; auto. split; auto. change (lval (tv t) ([], 0)) with 0. unfold iclip.
    destruct (Z.ltb_spec 0 lo) as [Q|Q]; [lia|]. destruct (Z.ltb_spec hi 0); [lia|reflexivity].
  - destruct (node_at t i) as [[k|l|l]|] eqn:NA;
    try (destruct (intern t (NClip ([(i, 1)], 0))) as [u j] eqn:I; eapply G; eauto; fail).
    injection H as <- <-. split; auto. split; auto. split; auto.
    destruct (node_at_clip _ _ _ NA) as (w & Ew). subst z. unfold lval. cbn [fst snd tsum].
    rewrite Ew. replace (1 * iclip w lo hi + 0 + 0) with (iclip w lo hi) by lia. symmetry. apply iclip_idem.
  - destruct (intern t (NClip (ts, k))) as [u j] eqn:I. eapply G; eauto.
Qed.

Theorem sym_sound : forall fn t a1 a2 t' a1', wft t ->
  Forall2 (ro symdom (zexact lo hi) RVs t tt) a1 a2 ->
  run symdom fn a1 t = Ok (t', a1') ->
  exists a2', run (zexact lo hi) fn a2 tt = Ok (tt, a2') /\ wft t' /\
              (forall x y, RVs t tt x y -> RVs t' tt x y) /\
              Forall2 (ro symdom (zexact lo hi) RVs t' tt) a1' a2'.
Proof.
  intros fn t a1 a2 t' a1' W R H.
  destruct (run_sim symdom (zexact lo hi) RSs RVs) with (fn := fn) (a1 := a1) (a2 := a2) (s1 := t) (s2 := tt) (s1' := t') (a1' := a1') as ([] & a2' & E & K & RR); auto.
  - intros s1 s2 z Hs s1' v E. cbn [dK dAdd dSub dMul dShr dNeg dClip symdom] in E. injection E as <- <-. exists tt, z. split; [reflexivity|]. split; [split; auto|].
    split; [constructor|reflexivity].
  - intros s1 [] x y a b Hs [W1 V1] [W2 V2] s1' v E. cbn [dK dAdd dSub dMul dShr dNeg dClip symdom] in E. injection E as <- <-. exists tt, (a + b). split; [reflexivity|]. split; [split; auto|].
    split; [apply wfl_add; auto|]. rewrite lval_add. congruence.
  - intros s1 [] x y a b Hs [W1 V1] [W2 V2] s1' v E. cbn [dK dAdd dSub dMul dShr dNeg dClip symdom] in E. injection E as <- <-. exists tt, (a - b). split; [reflexivity|]. split; [split; auto|].
    split; [apply wfl_add; auto using wfl_scale|]. rewrite lval_add, lval_scale, V1, V2. lia.
  - intros s1 [] x y a b Hs [W1 V1] [W2 V2] s1' v E. cbn [dK dAdd dSub dMul dShr dNeg dClip symdom] in E. apply obind_inv in E as (w & E & F). injection F as <- <-.
    exists tt, (a * b). split; [reflexivity|]. split; [split; auto|]. unfold smul in E.
    destruct x as [[|p tx] kx], y as [[|q ty] ky]; cbn [fst snd] in E; try discriminate; injection E as <-.
    + split; [apply wfl_scale; auto|]. rewrite lval_scale, V2. unfold lval in V1. cbn in V1. lia.
    + split; [apply wfl_scale; auto|]. rewrite lval_scale, V2. unfold lval in V1. cbn in V1. lia.
    + split; [apply wfl_scale; auto|]. rewrite lval_scale, V1. unfold lval in V2. cbn in V2. lia.
  - intros s1 [] x a n Hs Ha s1' v E. cbn [dK dAdd dSub dMul dShr dNeg dClip symdom] in E. destruct (sshr_sound _ _ _ _ _ _ Hs Ha E) as (W' & K & Q).
    exists tt, (Z.shiftr a n). split; [reflexivity|]. split; [split; auto|]; auto.
  - intros s1 [] x a Hs [W1 V1] s1' v E. cbn [dK dAdd dSub dMul dShr dNeg dClip symdom] in E. injection E as <- <-. exists tt, (- a). split; [reflexivity|]. split; [split; auto|].
    split; [apply wfl_scale; auto|]. rewrite lval_scale, V1. lia.
  - intros s1 [] x a Hs Ha s1' v E. cbn [dK dAdd dSub dMul dShr dNeg dClip symdom] in E. destruct (sclip_sound _ _ _ _ _ Hs Ha E) as (W' & K & Q).
    exists tt, (iclip a lo hi). split; [reflexivity|]. split; [split; auto|]; auto.
  - exists a2'. destruct K as [K1 K2]. split; [exact E|]. split; [exact K1|]. split; [exact K2|exact RR].
Qed.
End Sound.

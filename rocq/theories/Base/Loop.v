(** Counting loops, arrays with undefined cells, and rules for them. *)
From Coq Require Import ZArith List Bool Lia.
From Verif Require Import Base.CInt.
Import ListNotations.
Open Scope Z_scope.
Local Open Scope outcome_scope.

(** for (i = lo; i < hi; i++) *)
Fixpoint ofor {S} (n : nat) (i : Z) (f : Z -> S -> outcome S) (s : S) : outcome S :=
  match n with
  | O => Ok s
  | Datatypes.S n => let! s := f i s in ofor n (i + 1) f s
  end.
Definition for_ {S} (lo hi : Z) (f : Z -> S -> outcome S) (s : S) : outcome S := ofor (Z.to_nat (hi - lo)) lo f s.
(** The same without undefined behaviour, for specifications. *)
Fixpoint ziter {S} (n : nat) (i : Z) (f : Z -> S -> S) (s : S) : S :=
  match n with O => s | Datatypes.S n => ziter n (i + 1) f (f i s) end.
Definition zfor {S} (lo hi : Z) (f : Z -> S -> S) (s : S) : S := ziter (Z.to_nat (hi - lo)) lo f s.

(** An array of [n] cells, [None] where it is not initialised. *)
Definition arr : Type := Z -> option Z.
Definition arr0 : arr := fun _ => None.
Definition rd1 (n : Z) (a : arr) (i : Z) : outcome Z :=
  if (0 <=? i) && (i <? n) then match a i with Some v => Ok v | None => Undef end else Undef.
Definition set1 (a : arr) (i v : Z) : arr := fun j => if j =? i then Some v else a j.
Definition wr1 (n : Z) (a : arr) (i v : Z) : outcome arr :=
  if (0 <=? i) && (i <? n) then Ok (set1 a i v) else Undef.
Definition fill1 (a : arr) (i len v : Z) : arr := fun j => if (i <=? j) && (j <? i + len) then Some v else a j.
Definition memset1 (n : Z) (a : arr) (i v len : Z) : outcome arr :=
  if (0 <=? i) && (0 <=? len) && (i + len <=? n) then Ok (fill1 a i len v) else Undef.
(** ... of [h] rows of [w] cells. *)
Definition plane : Type := Z -> Z -> option Z.
Definition plane0 : plane := fun _ _ => None.
Definition rd2 (h w : Z) (b : plane) (y x : Z) : outcome Z :=
  if (0 <=? y) && (y <? h) && (0 <=? x) && (x <? w) then match b y x with Some v => Ok v | None => Undef end else Undef.
Definition set2 (b : plane) (y x v : Z) : plane := fun y' x' => if (y' =? y) && (x' =? x) then Some v else b y' x'.
Definition wr2 (h w : Z) (b : plane) (y x v : Z) : outcome plane :=
  if (0 <=? y) && (y <? h) && (0 <=? x) && (x <? w) then Ok (set2 b y x v) else Undef.
(** Results of int arithmetic. *)
Definition ck (v : Z) : outcome Z := if fits_int v then Ok v else Undef.

Lemma ofor_inv : forall S (P : Z -> S -> Prop) f n i s, P i s ->
  (forall j s, i <= j < i + Z.of_nat n -> P j s -> exists s', f j s = Ok s' /\ P (j + 1) s') ->
  exists s', ofor n i f s = Ok s' /\ P (i + Z.of_nat n) s'.
Proof.
  intros S P f n. induction n as [|n IH]; intros i s H0 H.
  - exists s. split; [reflexivity|]. replace (i + Z.of_nat 0) with i by lia. exact H0.
  - cbn [ofor]. destruct (H i s ltac:(lia) H0) as (s1 & E & H1). rewrite E. cbn [obind].
    destruct (IH (i + 1) s1 H1) as (s2 & E2 & H2).
    { intros j t Hj Ht. apply H; [lia|exact Ht]. }
    exists s2. split; [exact E2|]. replace (i + Z.of_nat (Datatypes.S n)) with (i + 1 + Z.of_nat n) by lia. exact H2.
Qed.
Lemma for_inv : forall S (P : Z -> S -> Prop) f lo hi s, lo <= hi -> P lo s ->
  (forall j s, lo <= j < hi -> P j s -> exists s', f j s = Ok s' /\ P (j + 1) s') ->
  exists s', for_ lo hi f s = Ok s' /\ P hi s'.
Proof.
  intros S P f lo hi s L H0 H. destruct (ofor_inv S P f (Z.to_nat (hi - lo)) lo s H0) as (s' & E & Q).
  { intros j t Hj. apply H. lia. }
  exists s'. split; [exact E|]. replace hi with (lo + Z.of_nat (Z.to_nat (hi - lo))) by lia. exact Q.
Qed.
Lemma ofor_sim : forall S T (R : Z -> S -> T -> Prop) f g n i s t, R i s t ->
  (forall j s t, i <= j < i + Z.of_nat n -> R j s t -> exists s', f j s = Ok s' /\ R (j + 1) s' (g j t)) ->
  exists s', ofor n i f s = Ok s' /\ R (i + Z.of_nat n) s' (ziter n i g t).
Proof.
  intros S T R f g n. induction n as [|n IH]; intros i s t H0 H.
  - exists s. split; [reflexivity|]. replace (i + Z.of_nat 0) with i by lia. exact H0.
  - cbn [ofor ziter]. destruct (H i s t ltac:(lia) H0) as (s1 & E & H1). rewrite E. cbn [obind].
    destruct (IH (i + 1) s1 _ H1) as (s2 & E2 & H2).
    { intros j a b Hj Ht. apply H; [lia|exact Ht]. }
    exists s2. split; [exact E2|]. replace (i + Z.of_nat (Datatypes.S n)) with (i + 1 + Z.of_nat n) by lia. exact H2.
Qed.
Lemma for_sim : forall S T (R : Z -> S -> T -> Prop) f g lo hi s t, lo <= hi -> R lo s t ->
  (forall j s t, lo <= j < hi -> R j s t -> exists s', f j s = Ok s' /\ R (j + 1) s' (g j t)) ->
  exists s', for_ lo hi f s = Ok s' /\ R hi s' (zfor lo hi g t).
Proof.
  intros S T R f g lo hi s t L H0 H. destruct (ofor_sim S T R f g (Z.to_nat (hi - lo)) lo s t H0) as (s' & E & Q).
  { intros j a b Hj. apply H. lia. }
  exists s'. split; [exact E|]. replace hi with (lo + Z.of_nat (Z.to_nat (hi - lo))) at 1 by lia. exact Q.
Qed.
Lemma ziter_inv : forall S (P : Z -> S -> Prop) f n i s, P i s ->
  (forall j s, i <= j < i + Z.of_nat n -> P j s -> P (j + 1) (f j s)) -> P (i + Z.of_nat n) (ziter n i f s).
Proof.
  intros S P f n. induction n as [|n IH]; intros i s H0 H.
  - replace (i + Z.of_nat 0) with i by lia. exact H0.
  - cbn [ziter]. replace (i + Z.of_nat (Datatypes.S n)) with (i + 1 + Z.of_nat n) by lia. apply IH.
    + apply H; [lia|exact H0].
    + intros j t Hj Ht. apply H; [lia|exact Ht].
Qed.
Lemma zfor_inv : forall S (P : Z -> S -> Prop) f lo hi s, lo <= hi -> P lo s ->
  (forall j s, lo <= j < hi -> P j s -> P (j + 1) (f j s)) -> P hi (zfor lo hi f s).
Proof.
  intros S P f lo hi s L H0 H. unfold zfor. replace hi with (lo + Z.of_nat (Z.to_nat (hi - lo))) at 1 by lia.
  apply ziter_inv; [exact H0|]. intros j t Hj. apply H. lia.
Qed.
Lemma zfor_last : forall S (f : Z -> S -> S) lo hi s, lo <= hi -> zfor lo (hi + 1) f s = f hi (zfor lo hi f s).
Proof.
  intros S f lo hi s L. unfold zfor. replace (Z.to_nat (hi + 1 - lo)) with (Datatypes.S (Z.to_nat (hi - lo))) by lia.
  assert (G : forall n i s, ziter (Datatypes.S n) i f s = f (i + Z.of_nat n) (ziter n i f s)).
  { induction n as [|n IH]; intros i t; [cbn [ziter]; replace (i + Z.of_nat 0) with i by lia; reflexivity|].
    change (ziter (Datatypes.S (Datatypes.S n)) i f t) with (ziter (Datatypes.S n) (i + 1) f (f i t)). rewrite IH.
    replace (i + Z.of_nat (Datatypes.S n)) with (i + 1 + Z.of_nat n) by lia. reflexivity. }
  rewrite G. replace (lo + Z.of_nat (Z.to_nat (hi - lo))) with hi by lia. reflexivity.
Qed.
Lemma zfor_nil : forall S (f : Z -> S -> S) lo hi s, hi <= lo -> zfor lo hi f s = s.
Proof. intros S f lo hi s L. unfold zfor. replace (Z.to_nat (hi - lo)) with O by lia. reflexivity. Qed.
Lemma for_nil : forall S (f : Z -> S -> outcome S) lo hi s, hi <= lo -> for_ lo hi f s = Ok s.
Proof. intros S f lo hi s L. unfold for_. replace (Z.to_nat (hi - lo)) with O by lia. reflexivity. Qed.

Lemma rd1_ok : forall n a i v, 0 <= i < n -> a i = Some v -> rd1 n a i = Ok v.
Proof. intros n a i v H E. unfold rd1. replace ((0 <=? i) && (i <? n)) with true by (symmetry; apply andb_true_intro; lia). rewrite E. reflexivity. Qed.
Lemma wr1_ok : forall n a i v, 0 <= i < n -> wr1 n a i v = Ok (set1 a i v).
Proof. intros n a i v H. unfold wr1. replace ((0 <=? i) && (i <? n)) with true by (symmetry; apply andb_true_intro; lia). reflexivity. Qed.
Lemma memset1_ok : forall n a i v len, 0 <= i -> 0 <= len -> i + len <= n -> memset1 n a i v len = Ok (fill1 a i len v).
Proof.
  intros n a i v len H1 H2 H3. unfold memset1. destruct (Z.leb_spec 0 i), (Z.leb_spec 0 len), (Z.leb_spec (i + len) n); try lia. reflexivity.
Qed.
Lemma rd2_ok : forall h w b y x v, 0 <= y < h -> 0 <= x < w -> b y x = Some v -> rd2 h w b y x = Ok v.
Proof.
  intros h w b y x v H1 H2 E. unfold rd2. destruct (Z.leb_spec 0 y), (Z.ltb_spec y h), (Z.leb_spec 0 x), (Z.ltb_spec x w); try lia.
  cbn [andb]. rewrite E. reflexivity.
Qed.
Lemma wr2_ok : forall h w b y x v, 0 <= y < h -> 0 <= x < w -> wr2 h w b y x v = Ok (set2 b y x v).
Proof.
  intros h w b y x v H1 H2. unfold wr2. destruct (Z.leb_spec 0 y), (Z.ltb_spec y h), (Z.leb_spec 0 x), (Z.ltb_spec x w); try lia. reflexivity.
Qed.
Lemma ck_ok : forall v, INT_MIN <= v <= INT_MAX -> ck v = Ok v.
Proof. intros v H. unfold ck, fits_int. destruct (Z.leb_spec INT_MIN v), (Z.leb_spec v INT_MAX); try lia. reflexivity. Qed.
Lemma set2_same : forall b y x v, set2 b y x v y x = Some v.
Proof. intros. unfold set2. rewrite !Z.eqb_refl. reflexivity. Qed.
Lemma set2_other : forall b y x v y' x', (y' <> y \/ x' <> x) -> set2 b y x v y' x' = b y' x'.
Proof. intros b y x v y' x' H. unfold set2. destruct (Z.eqb_spec y' y), (Z.eqb_spec x' x); try reflexivity. lia. Qed.

(** Filling a rectangle with values that do not depend on it. *)
Definition rect2 (b : plane) (y0 y1 x0 x1 : Z) (v : Z -> Z -> Z) : plane :=
  fun y x => if (y0 <=? y) && (y <? y1) && (x0 <=? x) && (x <? x1) then Some (v y x) else b y x.
Definition peq (a b : plane) : Prop := forall y x, a y x = b y x.

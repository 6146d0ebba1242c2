(** Moving the points that are kept to the front keeps exactly them. *)
From Coq Require Import ZArith List Bool Lia Permutation.
From Verif Require Import Base.CInt Base.Lemmas Warp.Model.
Import ListNotations.
Open Scope Z_scope.
Local Open Scope outcome_scope.

Definition omap {A B} (f : A -> B) (o : outcome A) : outcome B := match o with Ok a => Ok (f a) | Undef => Undef end.
Section Nat.
Variables (A B : Type) (F : A -> B) (bad : B -> bool).
Let badA (a : A) : bool := bad (F a).
Lemma rd_at_map : forall l i, rd_at (map F l) i = omap F (rd_at l i).
Proof. intros l i. unfold rd_at. destruct (i <? 0); [reflexivity|]. rewrite nth_error_map. destruct (nth_error l (Z.to_nat i)); reflexivity. Qed.
Lemma upd_nat_map : forall l i a, upd_nat (map F l) i (F a) = map F (upd_nat l i a).
Proof. induction l as [|b l IH]; intros [|i] a; cbn; try reflexivity. rewrite IH. reflexivity. Qed.
Lemma wr_at_map : forall l i a, wr_at (map F l) i (F a) = omap (map F) (wr_at l i a).
Proof. intros l i a. unfold wr_at. rewrite map_length, upd_nat_map. destruct ((0 <=? i) && (i <? Z.of_nat (length l))); reflexivity. Qed.
Lemma skip_good_map : forall fuel l i, skip_good B bad fuel (map F l) i = skip_good A badA fuel l i.
Proof. induction fuel as [|n IH]; intros l i; cbn [skip_good]; [reflexivity|]. rewrite rd_at_map. destruct (rd_at l i) as [a|]; cbn [omap obind]; [|reflexivity]. unfold badA at 1. rewrite IH. reflexivity. Qed.
Lemma skip_bad_map : forall fuel l i, skip_bad B bad fuel (map F l) i = skip_bad A badA fuel l i.
Proof. induction fuel as [|n IH]; intros l i; cbn [skip_bad]; [reflexivity|]. rewrite rd_at_map. destruct (rd_at l i) as [a|]; cbn [omap obind]; [|reflexivity]. unfold badA at 1. rewrite IH. reflexivity. Qed.
Lemma compact_map : forall n l i j, compact B bad n (map F l) i j = omap (map F) (compact A badA n l i j).
Proof.
  induction n as [|n IH]; intros l i j; [reflexivity|]. cbn [compact]. rewrite skip_good_map, skip_bad_map.
  destruct (skip_good A badA 9 l i) as [i'|]; [|reflexivity]. cbn [obind]. destruct (skip_bad A badA 9 l j) as [j'|]; [|reflexivity]. cbn [obind].
  destruct (negb (i' =? j')); [|reflexivity]. destruct (j' <? i'); [reflexivity|]. rewrite rd_at_map. destruct (rd_at l j') as [a|]; [|reflexivity]. cbn [omap obind].
  rewrite wr_at_map. destruct (wr_at l i' a) as [l'|]; [|reflexivity]. cbn [omap obind]. apply IH.
Qed.
Lemma filter_map_len : forall l, length (filter (fun a => negb (bad a)) (map F l)) = length (filter (fun a => negb (badA a)) l).
Proof. induction l as [|a l IH]; [reflexivity|]. cbn [map filter]. unfold badA at 1. destruct (negb (bad (F a))); cbn [length]; rewrite IH; reflexivity. Qed.
Lemma filter_map : forall l, filter (fun a => negb (bad a)) (map F l) = map F (filter (fun a => negb (badA a)) l).
Proof. induction l as [|a l IH]; [reflexivity|]. cbn [map filter]. unfold badA at 1. destruct (negb (bad (F a))); cbn [map]; rewrite IH; reflexivity. Qed.
Lemma select_map : forall l, select B bad (map F l) = omap (map F) (select A badA l).
Proof.
  intros l. unfold select, zlen. rewrite filter_map_len, map_length. destruct (length (filter (fun a => negb (badA a)) l)) as [|r].
  - destruct l; reflexivity.
  - rewrite compact_map. destruct (compact A badA _ l 0 _) as [l'|]; [|reflexivity]. cbn [omap obind]. rewrite firstn_map. reflexivity.
Qed.
End Nat.

(** All the cases of at most eight points: which are bad, and the order of the result *)
Definition pats : list (list bool) := flat_map (fun n => Nat.iter n (fun ls => flat_map (fun l => [true :: l; false :: l]) ls) [[]]) (seq 0 9).
Definition badp (p : bool * Z) : bool := fst p.
Definition zs : list Z := [0; 1; 2; 3; 4; 5; 6; 7].
Definition eqp (p q : bool * Z) : bool := Bool.eqb (fst p) (fst q) && (snd p =? snd q).
Fixpoint remove1 (p : bool * Z) (l : list (bool * Z)) : option (list (bool * Z)) :=
  match l with
  | [] => None
  | q :: l => if eqp p q then Some l else match remove1 p l with Some l => Some (q :: l) | None => None end
  end.
Fixpoint perm_b (l m : list (bool * Z)) : bool :=
  match l with
  | [] => match m with [] => true | _ => false end
  | p :: l => match remove1 p m with Some m => perm_b l m | None => false end
  end.
Lemma remove1_perm : forall p l m, remove1 p l = Some m -> Permutation l (p :: m).
Proof.
  intros p. induction l as [|q l IH]; intros m H; [discriminate|]. cbn [remove1] in H. destruct (eqp p q) eqn:E.
  - injection H as <-. unfold eqp in E. apply andb_prop in E. destruct E as (E1 & E2). apply eqb_prop in E1. apply Z.eqb_eq in E2.
    destruct p, q. cbn in E1, E2. subst. apply Permutation_refl.
  - destruct (remove1 p l) as [m'|]; [|discriminate]. injection H as <-. eapply perm_trans; [apply perm_skip, (IH _ eq_refl)|apply perm_swap].
Qed.
Lemma perm_b_perm : forall l m, perm_b l m = true -> Permutation l m.
Proof.
  induction l as [|p l IH]; intros m H; cbn [perm_b] in H.
  - destruct m; [constructor|discriminate].
  - destruct (remove1 p m) as [m'|] eqn:E; [|discriminate]. apply Permutation_sym. eapply perm_trans; [apply remove1_perm, E|apply perm_skip, Permutation_sym, IH, H].
Qed.
Definition sel_check (pat : list bool) : bool :=
  let l := combine pat zs in
  match select (bool * Z) badp l with
  | Ok r => match filter (fun p => negb (badp p)) l with [] => true | g => perm_b r g end
  | Undef => false
  end.
Lemma sel_all : forallb sel_check pats = true.
Proof. vm_compute. reflexivity. Qed.
Lemma pats_in : forall pat, (length pat <= 8)%nat -> In pat pats.
Proof.
  intros pat H. unfold pats. apply in_flat_map. exists (length pat). split; [apply in_seq; lia|]. clear H.
  induction pat as [|b pat IH]; [left; reflexivity|]. cbn [length Nat.iter]. apply in_flat_map. exists pat. split; [exact IH|]. destruct b; [left|right; left]; reflexivity.
Qed.

Lemma combine_nth : forall (A : Type) (d : A) (f : A -> bool) l, (length l <= 8)%nat ->
  l = map (fun p => nth (Z.to_nat (snd p)) l d) (combine (map f l) zs).
Proof.
  intros A d f l H. do 9 (destruct l as [|? l]; [reflexivity|]). cbn in H. lia.
Qed.
Lemma select_ok : forall (A : Type) (bad : A -> bool) (l : list A), (length l <= 8)%nat ->
  exists r, select A bad l = Ok r /\
    match filter (fun a => negb (bad a)) l with [] => r = firstn 1 l | g => Permutation r g end.
Proof.
  intros A bad l H. destruct l as [|a l]; [exists []; split; reflexivity|].
  set (L := a :: l) in *. set (F := fun p : bool * Z => nth (Z.to_nat (snd p)) L a).
  set (C := combine (map bad L) zs). assert (E : L = map F C) by apply (combine_nth A a bad L H).
  assert (EB : forall p, In p C -> bad (F p) = badp p).
  { unfold C, F, badp. clearbody L. clear E C F. intros p Hp.
    do 9 (destruct L as [|? L]; [cbn in Hp; repeat (destruct Hp as [<-|Hp]; [reflexivity|]); contradiction|]). cbn in H. lia. }
  pose proof (proj1 (forallb_forall _ _) sel_all (map bad L) (pats_in (map bad L) ltac:(rewrite map_length; exact H))) as S. unfold sel_check in S. fold C in S.
  assert (EX : forall (b1 b2 : bool * Z -> bool) c, (forall p, In p c -> b1 p = b2 p) -> select _ b1 c = select _ b2 c /\ filter (fun p => negb (b1 p)) c = filter (fun p => negb (b2 p)) c).
  { clear. intros b1 b2 c E.
    assert (FE : filter (fun p => negb (b1 p)) c = filter (fun p => negb (b2 p)) c) by (apply filter_ext_in; intros p Hp; rewrite (E p Hp); reflexivity).
    split; [|exact FE]. unfold select. rewrite FE. destruct (length (filter (fun p => negb (b2 p)) c)) as [|n]; [reflexivity|].
    assert (RD : forall (l : list (bool * Z)) i x, rd_at l i = Ok x -> In x l) by (clear; intros l i x R; unfold rd_at in R; destruct (i <? 0); [discriminate|]; destruct (nth_error l (Z.to_nat i)) eqn:N; [|discriminate]; injection R as ->; eapply nth_error_In; exact N).
    assert (UI : forall l i x y, In y (@upd_nat (bool * Z) l i x) -> y = x \/ In y l).
    { clear. induction l as [|b l IH]; intros [|i] x y Hy; cbn in *; try tauto.
      - destruct Hy as [<-|Hy]; tauto.
      - destruct Hy as [<-|Hy]; [tauto|]. destruct (IH _ _ _ Hy); tauto. }
    assert (G : forall n l i j, (forall p, In p l -> b1 p = b2 p) -> compact _ b1 n l i j = compact _ b2 n l i j).
    { clear - RD UI. induction n as [|n IH]; intros l i j E; [reflexivity|]. cbn [compact].
      assert (SG : forall f i, skip_good _ b1 f l i = skip_good _ b2 f l i) by (induction f as [|f IHf]; intros i0; cbn [skip_good]; [reflexivity|]; destruct (rd_at l i0) as [x|] eqn:R; [|reflexivity]; cbn [obind]; rewrite (E _ (RD _ _ _ R)), IHf; reflexivity).
      assert (SB : forall f i, skip_bad _ b1 f l i = skip_bad _ b2 f l i) by (induction f as [|f IHf]; intros i0; cbn [skip_bad]; [reflexivity|]; destruct (rd_at l i0) as [x|] eqn:R; [|reflexivity]; cbn [obind]; rewrite (E _ (RD _ _ _ R)), IHf; reflexivity).
      rewrite SG, SB. destruct (skip_good _ b2 9 l i) as [i'|]; [|reflexivity]. cbn [obind]. destruct (skip_bad _ b2 9 l j) as [j'|]; [|reflexivity]. cbn [obind].
      destruct (negb (i' =? j')); [|reflexivity]. destruct (j' <? i'); [reflexivity|]. destruct (rd_at l j') as [x|] eqn:R; [|reflexivity]. cbn [obind].
      unfold wr_at. destruct ((0 <=? i') && (i' <? Z.of_nat (length l))); [|reflexivity]. cbn [obind]. apply IH. intros p Hp. destruct (UI _ _ _ _ Hp) as [->|I]; [exact (E _ (RD _ _ _ R))|exact (E _ I)]. }
    rewrite (G _ c _ _ E). reflexivity. }
  destruct (EX (fun p => bad (F p)) badp C EB) as (E1 & E2).
  pose proof (select_map _ _ F bad C) as SM. rewrite <- E in SM. rewrite SM, E1.
  pose proof (filter_map _ _ F bad C) as FM. rewrite <- E in FM. rewrite FM, E2. clear SM FM EX E1 E2.
  destruct (select (bool * Z) badp C) as [r|] eqn:SR; [|discriminate]. cbn [omap]. eexists. split; [reflexivity|].
  destruct (filter (fun p => negb (badp p)) C) as [|g gs] eqn:FC.
  - cbn [map]. rewrite E. unfold select in SR. rewrite FC in SR. cbn [length] in SR. injection SR as <-. rewrite firstn_map. reflexivity.
  - cbn [map]. apply (Permutation_map F (perm_b_perm _ _ S)).
Qed.

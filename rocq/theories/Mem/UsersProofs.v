From Coq Require Import ZArith List Bool Lia.
From Verif Require Import Base.CInt Base.Lemmas Mem.Pool Mem.PoolProofs Mem.Ref Mem.RefProofs Mem.Users.
Import ListNotations.
Open Scope Z_scope.
Open Scope outcome_scope.

Definition wp {A} (m : W A) (own : list nat) (Q : A -> list nat -> Prop) : Prop :=
  exists a l, m = Ok (a, l) /\ disc own l = true /\ Q a (after own l).

Lemma disc_app : forall l1 l2 own, disc own (l1 ++ l2) = disc own l1 && disc (after own l1) l2.
Proof.
  induction l1 as [|a l1 IH]; intros l2 own; cbn [app disc]; [reflexivity|]. rewrite IH, andb_assoc. reflexivity.
Qed.
Lemma after_app : forall l1 l2 own, after own (l1 ++ l2) = after (after own l1) l2.
Proof. intros. unfold after. apply fold_left_app. Qed.

Lemma wp_ret : forall A (a : A) own (Q : A -> list nat -> Prop), Q a own -> wp (wret a) own Q.
Proof. intros. exists a, []. repeat split; auto. Qed.
Lemma wp_bind : forall A B (m : W A) (f : A -> W B) own Q,
  wp m own (fun a own' => wp (f a) own' Q) -> wp (wbind m f) own Q.
Proof.
  intros A B m f own Q (a & l & -> & D & b & l' & E & D' & H). unfold wbind. cbn [obind fst snd]. rewrite E. cbn [obind fst snd].
  exists b, (l ++ l'). split; [reflexivity|]. rewrite disc_app, D, D', after_app. auto.
Qed.
Lemma wp_conseq : forall A (m : W A) own (Q Q' : A -> list nat -> Prop), wp m own Q -> (forall a o, Q a o -> Q' a o) -> wp m own Q'.
Proof. intros A m own Q Q' (a & l & E & D & H) I. exists a, l. auto. Qed.

Definition oocc (x : nat) (r : rptr) : Z := occ x (olist r).
Lemma wp_inc : forall r own (Q : unit -> list nat -> Prop),
  (forall x, r = Some x -> 0 < occ x own) ->
  (forall own', (forall x, occ x own' = occ x own + oocc x r) -> Q tt own') -> wp (ref_inc r) own Q.
Proof.
  intros [r|] own Q I H.
  - exists tt, [AInc r]. split; [reflexivity|]. cbn [disc allowed]. rewrite (proj2 (has_in r own)).
    + split; [reflexivity|]. apply H. intros x. cbn [after fold_left after1]. unfold oocc, olist. rewrite !occ_cons, occ_nil. lia.
    + apply occ_in. now apply I.
  - apply wp_ret. apply H. intros x. unfold oocc, olist. rewrite occ_nil. lia.
Qed.
Lemma wp_dec : forall r own (Q : rptr -> list nat -> Prop),
  (forall x, r = Some x -> 0 < occ x own) ->
  (forall own', (forall x, occ x own' = occ x own - oocc x r) -> Q None own') -> wp (ref_dec r) own Q.
Proof.
  intros [r|] own Q I H.
  - exists None, [ADec r]. split; [reflexivity|]. cbn [disc allowed]. assert (IN : In r own) by (apply occ_in; now apply I).
    rewrite (proj2 (has_in r own) IN). split; [reflexivity|]. apply H. intros x. cbn [after fold_left after1].
    rewrite remove1_occ by exact IN. unfold oocc, olist. rewrite !occ_cons, occ_nil. lia.
  - apply wp_ret. apply H. intros x. unfold oocc, olist. rewrite occ_nil. lia.
Qed.
Lemma wp_new : forall a k fr wr own (Q : rptr -> list nat -> Prop), fr = is_user k ->
  (forall own', (forall x, occ x own' = occ x own + oocc x a) -> Q a own') -> wp (ref_new a k fr wr) own Q.
Proof.
  intros [r|] k fr wr own Q E H.
  - exists (Some r), [ANew r k fr wr]. split; [reflexivity|]. cbn [disc allowed]. subst fr. rewrite eqb_reflx.
    split; [reflexivity|]. apply H. intros x. cbn [after fold_left after1]. unfold oocc, olist. rewrite !occ_cons, occ_nil. lia.
  - apply wp_ret. apply H. intros x. unfold oocc, olist. rewrite occ_nil. lia.
Qed.
Lemma wp_read : forall r own (Q : unit -> list nat -> Prop), 0 < occ r own -> Q tt own -> wp (Ok (tt, [ARead r])) own Q.
Proof.
  intros r own Q I H. exists tt, [ARead r]. split; [reflexivity|]. cbn [disc allowed]. rewrite (proj2 (has_in r own)); [auto|].
  now apply occ_in.
Qed.
Lemma wp_assert : forall b own (Q : unit -> list nat -> Prop), b = true -> Q tt own -> wp (wassert b) own Q.
Proof. intros b own Q -> H. now apply wp_ret. Qed.

(** a function that turns the references [pre] of its arguments into [post] *)
Definition owns {A} (m : W A) (pre : list nat) (post : A -> list nat) : Prop :=
  forall rest, wp m (pre ++ rest) (fun a own' => forall x, occ x own' = occ x (post a) + occ x rest).

Lemma oocc_nonneg : forall x r, 0 <= oocc x r. Proof. intros. apply occ_nonneg. Qed.
Lemma oocc_some : forall x, oocc x (Some x) = 1.
Proof. intros. unfold oocc, olist. rewrite occ_cons, occ_nil, eqb_refl'. lia. Qed.
Lemma oocc_none : forall x, oocc x None = 0. Proof. reflexivity. Qed.
Lemma occ_pre : forall x pre rest, occ x (pre ++ rest) = occ x pre + occ x rest. Proof. intros. apply occ_app. Qed.
Lemma occ_data : forall x d, occ x (data_refs d) = oocc x (d_ref d) + oocc x (ud_ref (d_m d)).
Proof. intros. unfold data_refs, props_refs. now rewrite occ_app. Qed.
Lemma occ_props : forall x m, occ x (props_refs m) = oocc x (ud_ref m). Proof. reflexivity. Qed.
Lemma occ_pic : forall x p, occ x (pic_refs p) = oocc x (p_ref p) + oocc x (p_frame_hdr_ref p) + oocc x (p_seq_hdr_ref p)
  + oocc x (ud_ref (p_m p)) + oocc x (p_content_light_ref p) + oocc x (p_mastering_display_ref p) + oocc x (p_itut_t35_ref p).
Proof. intros. unfold pic_refs, props_refs. rewrite !occ_app. unfold oocc. lia. Qed.
Lemma occ_olist : forall x r, occ x (olist r) = oocc x r. Proof. reflexivity. Qed.

(** all the facts about one object *)
Ltac facts x :=
  repeat match goal with
  | H : forall y : nat, occ y ?o = _ |- _ => pose proof (H x); revert H
  end; intros;
  rewrite ?occ_app, ?occ_data, ?occ_pic, ?occ_props, ?occ_olist in *;
  repeat match goal with
  | |- context [oocc x ?r] => lazymatch goal with _ : 0 <= oocc x r |- _ => fail | _ => pose proof (oocc_nonneg x r) end
  | H : context [oocc x ?r] |- _ => lazymatch goal with _ : 0 <= oocc x r |- _ => fail | _ => pose proof (oocc_nonneg x r) end
  | |- context [occ x ?r] => lazymatch goal with _ : 0 <= occ x r |- _ => fail | _ => pose proof (occ_nonneg x r) end
  | H : context [occ x ?r] |- _ => lazymatch goal with _ : 0 <= occ x r |- _ => fail | _ => pose proof (occ_nonneg x r) end
  end.
Ltac live := let x := fresh "x" in let E := fresh "E" in
  intros x E;
  match type of E with ?r = Some x =>
    let Q := fresh "Q" in assert (Q : oocc x r = 1) by (rewrite E; apply oocc_some); facts x; lia end.
Ltac balance := let x := fresh "x" in intros x; facts x; cbn [d_ref d_m ud_ref p_ref p_frame_hdr_ref p_seq_hdr_ref p_m
  p_content_light_ref p_mastering_display_ref p_itut_t35_ref props_defaults props_of_size props_zero data_cleared pic_cleared pic_zero
  pic_of_props fst snd app] in *; rewrite ?oocc_none in *; lia.

(** ** data.c *)
Theorem data_create_owns : forall buf sz a p, data_refs buf = [] ->
  owns (data_create buf sz a p) [] (fun r => data_refs (fst r)).
Proof.
  intros buf sz a p B rest. cbn [app]. assert (OB : forall x, occ x (data_refs buf) = 0) by (rewrite B; reflexivity).
  unfold data_create. destruct (_ <? sz).
  - apply wp_ret. balance.
  - apply wp_bind, wp_new; [reflexivity|]. intros o1 H1. destruct a as [r|].
    + apply wp_bind, wp_read; [facts r; rewrite oocc_some in *; lia|].
      apply wp_bind, wp_read; [facts r; rewrite oocc_some in *; lia|]. apply wp_ret. balance.
    + apply wp_ret. balance.
Qed.
Theorem data_wrap_owns : forall buf p sz a, data_refs buf = [] ->
  owns (data_wrap buf p sz a) [] (fun r => data_refs (fst r)).
Proof.
  intros buf p sz a B rest. cbn [app]. assert (OB : forall x, occ x (data_refs buf) = 0) by (rewrite B; reflexivity).
  unfold data_wrap. destruct (_ <? sz).
  - apply wp_ret. balance.
  - apply wp_bind, wp_new; [reflexivity|]. intros o1 H1. destruct a as [r|]; apply wp_ret; balance.
Qed.
Theorem data_wrap_user_data_owns : forall buf ud a, ud_ref (d_m buf) = None ->
  owns (data_wrap_user_data buf ud a) (data_refs buf) (fun r => data_refs (fst r)).
Proof.
  intros buf ud a B rest. unfold data_wrap_user_data. apply wp_bind, wp_new; [reflexivity|]. intros o1 H1.
  destruct a as [r|]; apply wp_ret.
  - intros x. facts x. cbn [fst d_ref d_m ud_ref]. rewrite B in *. rewrite oocc_none in *. lia.
  - balance.
Qed.
Theorem data_ref_owns : forall dst src, data_refs dst = [] -> d_data dst = None -> (d_ref src <> None -> d_data src <> None) ->
  owns (data_ref dst src) (data_refs src) (fun d => data_refs d ++ data_refs src).
Proof.
  intros dst src B N V rest. unfold data_ref. rewrite N. apply wp_bind, wp_assert; [reflexivity|]. apply wp_bind.
  assert (K : forall (Q : unit -> list nat -> Prop), (forall own', (forall x, occ x own' = occ x (data_refs src ++ rest) + oocc x (d_ref src)) -> Q tt own') ->
    wp (if nonnull (d_ref src) then wassert (nonnull (d_data src));; ref_inc (d_ref src) else wret tt) (data_refs src ++ rest) Q).
  { intros Q H. destruct (d_ref src) as [r|] eqn:R; cbn [nonnull].
    - apply wp_bind, wp_assert; [destruct (d_data src); [reflexivity|exfalso; now apply V]|]. apply wp_inc; [|exact H].
      intros x E. injection E as <-. facts r. rewrite R in *. rewrite oocc_some in *. lia.
    - apply wp_ret. apply H. intros x. rewrite oocc_none. lia. }
  apply K. intros o1 H1. apply wp_bind, wp_inc; [live|]. intros o2 H2. apply wp_ret. balance.
Qed.
Theorem props_copy_owns : forall dst src,
  owns (props_copy dst src) (props_refs dst ++ props_refs src) (fun d => props_refs d ++ props_refs src).
Proof.
  intros dst src rest. unfold props_copy. apply wp_bind, wp_dec; [live|]. intros o1 H1. apply wp_bind, wp_inc; [live|]. intros o2 H2.
  apply wp_ret. balance.
Qed.
Theorem props_unref_owns : forall m, owns (props_unref m) (props_refs m) (fun _ => []).
Proof.
  intros m rest. unfold props_unref. apply wp_bind, wp_dec; [live|]. intros o1 H1. apply wp_ret.
  intros x. facts x. rewrite occ_nil. lia.
Qed.
Theorem data_unref_owns : forall buf, (d_ref buf <> None -> d_data buf <> None) -> owns (data_unref buf) (data_refs buf) (fun _ => []).
Proof.
  intros buf V rest. unfold data_unref. replace (_ && _) with false.
  - apply wp_bind, wp_dec; [live|]. intros o1 H1. apply wp_bind, wp_dec; [live|]. intros o2 H2. apply wp_ret.
    intros x. facts x. rewrite occ_nil. lia.
  - destruct (d_ref buf), (d_data buf); try reflexivity. exfalso. now apply V.
Qed.

(** ** picture.c *)
Theorem picture_ref_owns : forall dst src, pic_refs dst = [] -> p_data dst = None -> (p_ref src <> None -> p_data src <> None) ->
  owns (picture_ref dst src) (pic_refs src) (fun d => pic_refs d ++ pic_refs src).
Proof.
  intros dst src B N V rest. unfold picture_ref. rewrite N. apply wp_bind, wp_assert; [reflexivity|]. apply wp_bind.
  assert (K : forall (Q : unit -> list nat -> Prop), (forall own', (forall x, occ x own' = occ x (pic_refs src ++ rest) + oocc x (p_ref src)) -> Q tt own') ->
    wp (if nonnull (p_ref src) then wassert (nonnull (p_data src));; ref_inc (p_ref src) else wret tt) (pic_refs src ++ rest) Q).
  { intros Q H. destruct (p_ref src) as [r|] eqn:R; cbn [nonnull].
    - apply wp_bind, wp_assert; [destruct (p_data src); [reflexivity|exfalso; now apply V]|]. apply wp_inc; [|exact H].
      intros x E. injection E as <-. facts r. rewrite R in *. rewrite oocc_some in *. lia.
    - apply wp_ret. apply H. intros x. rewrite oocc_none. lia. }
  apply K. intros o1 H1. do 6 (apply wp_bind, wp_inc; [live|]; let o := fresh "o" in let H := fresh "H" in intros o H).
  apply wp_ret. balance.
Qed.
Theorem picture_move_ref_owns : forall dst src, pic_refs dst = [] -> p_data dst = None -> (p_ref src <> None -> p_data src <> None) ->
  owns (picture_move_ref dst src) (pic_refs src) (fun r => pic_refs (fst r) ++ pic_refs (snd r)).
Proof.
  intros dst src B N V rest. unfold picture_move_ref. rewrite N. apply wp_bind, wp_assert; [reflexivity|]. apply wp_bind.
  destruct (p_ref src) as [r|] eqn:R; cbn [nonnull].
  - apply wp_assert; [destruct (p_data src); [reflexivity|exfalso; now apply V]|]. apply wp_ret. balance.
  - apply wp_ret, wp_ret. balance.
Qed.
Theorem picture_unref_owns : forall p, (p_ref p <> None -> p_data p <> None) -> owns (picture_unref p) (pic_refs p) (fun _ => []).
Proof.
  intros p V rest. unfold picture_unref. replace (_ && _) with false.
  - do 7 (apply wp_bind, wp_dec; [live|]; let o := fresh "o" in let H := fresh "H" in intros o H).
    apply wp_ret. intros x. facts x. rewrite occ_nil. lia.
  - destruct (p_ref p), (p_data p); try reflexivity. exfalso. now apply V.
Qed.
Theorem picture_alloc_owns : forall p sh fh a data res, pic_refs p = [] ->
  owns (picture_alloc p sh fh a data res) (olist sh ++ olist fh) (fun r => pic_refs (fst r) ++ olist sh ++ olist fh).
Proof.
  intros p sh fh a data res B rest. assert (OB : forall x, occ x (pic_refs p) = 0) by (rewrite B; reflexivity).
  unfold picture_alloc. destruct (nonnull (p_data p)); [apply wp_ret; balance|].
  destruct a as [r|]; [|apply wp_ret; balance]. destruct (res <? 0).
  { apply wp_ret. balance. }
  apply wp_bind, wp_new; [reflexivity|]. intros o1 H1. apply wp_bind, wp_inc; [live|]. intros o2 H2. apply wp_bind, wp_inc; [live|]. intros o3 H3.
  apply wp_ret. balance.
Qed.
Theorem picture_copy_props_owns : forall p cl md it m,
  owns (picture_copy_props p cl md it m) (pic_refs p ++ olist cl ++ olist md ++ olist it ++ props_refs m)
    (fun r => pic_refs r ++ olist cl ++ olist md ++ olist it ++ props_refs m).
Proof.
  intros p cl md it m rest. unfold picture_copy_props, props_copy. apply wp_bind, wp_bind, wp_dec; [live|]. intros o1 H1.
  apply wp_bind, wp_inc; [live|]. intros o2 H2. apply wp_ret. apply wp_bind, wp_dec; [live|]. intros o3 H3.
  apply wp_bind, wp_inc; [live|]. intros o4 H4. apply wp_bind, wp_dec; [live|]. intros o5 H5. apply wp_bind, wp_inc; [live|]. intros o6 H6.
  apply wp_bind, wp_dec; [live|]. intros o7 H7. apply wp_bind, wp_inc; [live|]. intros o8 H8. apply wp_ret. balance.
Qed.

(** using a function inside another *)
Lemma owns_wp : forall A (m : W A) pre post own rest (Q : A -> list nat -> Prop), owns m pre post ->
  (forall x, occ x own = occ x pre + occ x rest) ->
  (forall a own', (forall x, occ x own' = occ x (post a) + occ x rest) -> Q a own') -> wp m own Q.
Proof.
  intros A m pre post own rest Q O H K. destruct (O rest) as (a & l & -> & D & P).
  assert (G : forall l o1 o2, (forall x, occ x o1 = occ x o2) -> disc o1 l = true ->
     disc o2 l = true /\ forall x, occ x (after o2 l) = occ x (after o1 l)).
  { clear. induction l as [|b l IH]; intros o1 o2 H D; cbn [disc] in *; [split; [reflexivity|intros; symmetry; apply H]|].
    apply andb_prop in D. destruct D as [D1 D2].
    assert (HI : forall r, has r o1 = true -> has r o2 = true).
    { intros r I. apply has_in, occ_in. rewrite <- H. now apply occ_in, has_in. }
    assert (A2 : allowed o2 b = true) by (destruct b; cbn [allowed] in *; auto).
    rewrite A2. cbn [andb]. apply IH; [|exact D2]. intros x. destruct b; cbn [after1 allowed] in *; rewrite ?occ_cons; try rewrite H; auto.
    rewrite !remove1_occ, H; auto; now apply has_in. }
  destruct (G l (pre ++ rest) own) as [D' P']; [intros x; rewrite H; apply occ_app|exact D|].
  exists a, l. split; [reflexivity|]. split; [exact D'|]. apply K. intros x. rewrite P'. apply P.
Qed.

Theorem picture_alloc_copy_owns : forall dst src a data res, pic_refs dst = [] -> p_ref src <> None ->
  owns (picture_alloc_copy dst src a data res) (pic_refs src) (fun r => pic_refs (fst r) ++ pic_refs src).
Proof.
  intros dst src a data res B V rest. unfold picture_alloc_copy. destruct (p_ref src) as [r|] eqn:R; [|congruence].
  apply wp_bind, wp_read; [facts r; rewrite R in *; rewrite oocc_some in *; lia|].
  apply wp_bind. eapply (owns_wp _ _ _ _ _ (olist (p_ref src) ++ props_refs (p_m src) ++ olist (p_content_light_ref src)
    ++ olist (p_mastering_display_ref src) ++ olist (p_itut_t35_ref src) ++ rest)); [apply picture_alloc_owns; exact B|balance|].
  cbn beta. intros [p rc] o1 H1. cbn [fst snd] in *. destruct (negb (rc =? 0)); [apply wp_ret; balance|].
  apply wp_bind. eapply (owns_wp _ _ _ _ _ (olist (p_ref src) ++ olist (p_seq_hdr_ref src) ++ olist (p_frame_hdr_ref src) ++ rest));
    [apply picture_copy_props_owns|balance|].
  cbn beta. intros q o2 H2. apply wp_ret. balance.
Qed.
Theorem thread_picture_alloc_owns : forall p sh fh cl md it m vis a data res, pic_refs p = [] ->
  owns (thread_picture_alloc p sh fh cl md it m vis a data res)
    (olist sh ++ olist fh ++ olist cl ++ olist md ++ olist it ++ props_refs m)
    (fun r => pic_refs (fst (fst r)) ++ olist (snd (fst r)) ++ olist sh ++ olist fh ++ olist cl ++ olist md ++ props_refs m).
Proof.
  intros p sh fh cl md it m vis a data res B rest. unfold thread_picture_alloc.
  apply wp_bind. eapply (owns_wp _ _ _ _ _ (olist cl ++ olist md ++ olist it ++ props_refs m ++ rest)); [apply picture_alloc_owns; exact B|balance|].
  cbn beta. intros [q rc] o1 H1. cbn [fst snd] in *. destruct (negb (rc =? 0)); [apply wp_ret; balance|]. destruct vis.
  - apply wp_bind. eapply (owns_wp _ _ _ _ _ (olist sh ++ olist fh ++ rest)); [apply picture_copy_props_owns|balance|].
    cbn beta. intros q2 o2 H2. apply wp_bind, wp_dec; [live|]. intros o3 H3. apply wp_ret. balance.
  - apply wp_bind. eapply (owns_wp _ _ _ _ _ (olist (p_ref q) ++ olist (p_frame_hdr_ref q) ++ olist (p_seq_hdr_ref q) ++ olist (p_content_light_ref q)
      ++ olist (p_mastering_display_ref q) ++ olist (p_itut_t35_ref q) ++ olist sh ++ olist fh ++ olist cl ++ olist md ++ olist it ++ rest)); [apply props_copy_owns|balance|].
    cbn beta. intros m' o2 H2. apply wp_ret. balance.
Qed.

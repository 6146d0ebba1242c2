From Coq Require Import ZArith List Bool Lia.
From Verif Require Import Base.CInt Base.Lemmas Mem.Pool.
Import ListNotations.
Open Scope Z_scope.
Open Scope outcome_scope.

Lemma zlen_app : forall A (a b : list A), zlen (a ++ b) = zlen a + zlen b.
Proof. intros. unfold zlen. rewrite app_length. lia. Qed.
Lemma zlen_nonneg : forall A (a : list A), 0 <= zlen a.
Proof. intros. unfold zlen. lia. Qed.
Lemma zlen_cons : forall A (a : A) l, zlen (a :: l) = 1 + zlen l.
Proof. intros. unfold zlen. cbn [length]. lia. Qed.
Lemma zlen_nil : forall A, zlen (@nil A) = 0.
Proof. reflexivity. Qed.

(** ** occurrences *)
Definition occ (x : nat) (l : list nat) : Z := Z.of_nat (count_occ Nat.eq_dec l x).
Lemma occ_nil : forall x, occ x [] = 0. Proof. reflexivity. Qed.
Lemma occ_cons : forall x y l, occ x (y :: l) = b2z (Nat.eqb y x) + occ x l.
Proof.
  intros. unfold occ. cbn [count_occ]. destruct (Nat.eq_dec y x) as [E|E].
  - rewrite (proj2 (Nat.eqb_eq y x) E). cbn [b2z]. lia.
  - rewrite (proj2 (Nat.eqb_neq y x) E). cbn [b2z]. lia.
Qed.
Lemma occ_app : forall x a b, occ x (a ++ b) = occ x a + occ x b.
Proof. intros. unfold occ. rewrite count_occ_app. lia. Qed.
Lemma occ_nonneg : forall x l, 0 <= occ x l. Proof. intros. unfold occ. lia. Qed.
Lemma occ_in : forall x l, In x l <-> 0 < occ x l.
Proof. intros. unfold occ. rewrite (count_occ_In Nat.eq_dec). lia. Qed.
Lemma b2z_range : forall b, 0 <= b2z b <= 1. Proof. intros []; cbn; lia. Qed.
Lemma eqb_refl' : forall x, b2z (Nat.eqb x x) = 1. Proof. intros. now rewrite Nat.eqb_refl. Qed.
Lemma eqb_neq' : forall x y, x <> y -> b2z (Nat.eqb x y) = 0.
Proof. intros x y H. now rewrite (proj2 (Nat.eqb_neq x y) H). Qed.

Lemma remove1_occ : forall b x l, In b l -> occ x (remove1 b l) = occ x l - b2z (Nat.eqb b x).
Proof.
  intros b x. induction l as [|y l IH]; intros I; [destruct I|].
  change (remove1 b (y :: l)) with (if Nat.eqb y b then l else y :: remove1 b l). rewrite occ_cons.
  destruct (Nat.eqb_spec y b) as [->|N]; [lia|]. destruct I as [I|I]; [congruence|]. rewrite occ_cons, IH by exact I. lia.
Qed.
Lemma remove1_len : forall b l, In b l -> zlen (remove1 b l) = zlen l - 1.
Proof.
  intros b. induction l as [|y l IH]; intros I; [destruct I|].
  change (remove1 b (y :: l)) with (if Nat.eqb y b then l else y :: remove1 b l). rewrite zlen_cons.
  destruct (Nat.eqb_spec y b) as [->|N]; [lia|]. destruct I as [I|I]; [congruence|]. rewrite zlen_cons, IH by exact I. lia.
Qed.

(** ** lists indexed alike *)
Fixpoint sumf {A} (f : A -> Z) (l : list A) : Z := match l with [] => 0 | p :: l => f p + sumf f l end.
Lemma sumf_upd : forall A (f : A -> Z) l w p q, nth_error l w = Some p -> sumf f (upd_nat l w q) = sumf f l - f p + f q.
Proof.
  intros A f. induction l as [|a l IH]; intros [|w] p q E; cbn in *; try discriminate.
  - injection E as ->. lia.
  - rewrite (IH _ _ q E). lia.
Qed.
Lemma sumf_drop : forall A (f : A -> Z) l w p, nth_error l w = Some p -> sumf f (drop_nth w l) = sumf f l - f p.
Proof.
  intros A f. unfold drop_nth. induction l as [|a l IH]; intros [|w] p E; cbn in *; try discriminate.
  - injection E as ->. lia.
  - rewrite (IH _ _ E). lia.
Qed.
Lemma sumf_nonneg : forall A (f : A -> Z) l, (forall p, 0 <= f p) -> 0 <= sumf f l.
Proof. intros A f l N. induction l as [|a l IH]; cbn; [lia|]. specialize (N a). lia. Qed.
Lemma sumf_ge : forall A (f : A -> Z) l w p, (forall p, 0 <= f p) -> nth_error l w = Some p -> f p <= sumf f l.
Proof.
  intros A f. induction l as [|a l IH]; intros [|w] p N E; cbn in *; try discriminate.
  - injection E as ->. pose proof (sumf_nonneg A f l N). lia.
  - specialize (IH _ _ N E). specialize (N a). lia.
Qed.
Lemma drop_len : forall A (l : list A) w p, nth_error l w = Some p -> zlen (drop_nth w l) = zlen l - 1.
Proof.
  intros A. unfold drop_nth. induction l as [|a l IH]; intros [|w] p E; cbn [nth_error firstn skipn app] in *; try discriminate.
  - rewrite zlen_cons. lia.
  - rewrite !zlen_cons, (IH _ _ E). lia.
Qed.
Lemma upd_len : forall A (l : list A) w v, zlen (upd_nat l w v) = zlen l.
Proof. intros A. induction l as [|a l IH]; intros [|w] v; cbn [upd_nat]; rewrite ?zlen_cons, ?IH; reflexivity. Qed.
Lemma concat_sum : forall x own, occ x (concat own) = sumf (occ x) own.
Proof. intros x. induction own as [|a own IH]; cbn [concat sumf]; [reflexivity|]. rewrite occ_app, IH. reflexivity. Qed.

Lemma f2_nth : forall A B (R : A -> B -> Prop) la lb w p, Forall2 R la lb -> nth_error la w = Some p ->
  exists q, nth_error lb w = Some q /\ R p q.
Proof.
  intros A B R la lb w p F. revert w. induction F as [|a b la lb H F IH]; intros [|w] E; cbn in *; try discriminate.
  - injection E as <-. eauto.
  - eauto.
Qed.
Lemma f2_upd : forall A B (R R' : A -> B -> Prop) la lb w p q, Forall2 R la lb ->
  (forall w' a b, nth_error la w' = Some a -> nth_error lb w' = Some b -> w' <> w -> R a b -> R' a b) -> R' p q ->
  Forall2 R' (upd_nat la w p) (upd_nat lb w q).
Proof.
  intros A B R R' la lb w p q F. revert w. induction F as [|a b la lb H F IH]; intros w K X; [destruct w; constructor|].
  destruct w as [|w]; cbn [upd_nat].
  - constructor; [exact X|]. clear IH. revert K. induction F as [|a' b' la lb H' F IH]; intros K; constructor.
    + apply (K 1%nat a' b'); cbn; auto.
    + apply IH. intros w' a0 b0 E1 E2 N R0. destruct w' as [|w']; [lia|].
      apply (K (S (S w')) a0 b0); cbn in *; auto.
  - constructor; [apply (K O a b); cbn; auto|]. apply IH; [|exact X].
    intros w' a0 b0 E1 E2 N R0. apply (K (S w') a0 b0); cbn; auto.
Qed.
Lemma f2_drop : forall A B (R R' : A -> B -> Prop) la lb w, Forall2 R la lb ->
  (forall w' a b, nth_error la w' = Some a -> nth_error lb w' = Some b -> w' <> w -> R a b -> R' a b) ->
  Forall2 R' (drop_nth w la) (drop_nth w lb).
Proof.
  intros A B R R' la lb w F. revert w. unfold drop_nth. induction F as [|a b la lb H F IH]; intros w K.
  { destruct w; constructor. }
  destruct w as [|w]; cbn [firstn skipn app].
  - clear IH. revert K. induction F as [|a' b' la lb H' F IH]; intros K; constructor.
    + apply (K 1%nat a' b'); cbn; auto.
    + apply IH. intros w' a0 b0 E1 E2 N R0. destruct w' as [|w']; [lia|].
      apply (K (S (S w')) a0 b0); cbn in *; auto.
  - constructor; [apply (K O a b); cbn; auto|]. apply (IH w).
    intros w' a0 b0 E1 E2 N R0. apply (K (S w') a0 b0); cbn; auto.
Qed.
Lemma f2_all : forall A B (R R' : A -> B -> Prop) la lb, Forall2 R la lb ->
  (forall a b, In b lb -> R a b -> R' a b) -> Forall2 R' la lb.
Proof.
  intros A B R R' la lb F. induction F as [|a b la lb H F IH]; intros K; constructor.
  - apply K; cbn; auto.
  - apply IH. intros. apply K; cbn; auto.
Qed.
Lemma nth_other : forall x (own : list (list nat)) w w' a b, nth_error own w = Some a -> nth_error own w' = Some b -> w' <> w ->
  occ x a + occ x b <= sumf (occ x) own.
Proof.
  intros x. induction own as [|l own IH]; intros [|w] [|w'] a b E1 E2 N; cbn in *; try discriminate; try congruence.
  - injection E1 as <-. pose proof (sumf_ge _ (occ x) own w' b (occ_nonneg x) E2). lia.
  - injection E2 as <-. pose proof (sumf_ge _ (occ x) own w a (occ_nonneg x) E1). lia.
  - specialize (IH w w' a b E1 E2 ltac:(congruence)). pose proof (occ_nonneg x l). lia.
Qed.

(** ** the free list *)
Inductive chain (h : heap) : option nat -> list nat -> Prop :=
| CH_nil : chain h None []
| CH_cons : forall a s n l, h a = Some (OBuf s n) -> chain h n l -> chain h (Some a) (a :: l).
Lemma chain_frame : forall h h' b l, chain h b l -> (forall x, In x l -> h' x = h x) -> chain h' b l.
Proof.
  intros h h' b l C. induction C as [|a s n l E C IH]; intros K; [constructor|].
  apply CH_cons with s n; [rewrite K; [exact E|cbn; auto]|]. apply IH. intros. apply K. cbn. auto.
Qed.

Definition pc_own (h : heap) (p : pc) (l : list nat) : Prop :=
  match p with
  | PopCheck b _ | PushFree b _ => l = [b]
  | EndFree b _ => chain h b l
  | _ => l = []
  end.
Lemma own_frame : forall h h' p l, pc_own h p l -> (forall x, In x l -> h' x = h x) -> pc_own h' p l.
Proof. intros h h' p l O K. destruct p; cbn in *; auto. eapply chain_frame; eauto. Qed.

Definition contrib (p : pc) : Z := match p with PopCheck _ _ | PopAlloc _ | PopFail => 1 | _ => 0 end.
Definition tok (p : pc) : Z :=
  match p with PushFree _ r | EndFree _ r | Last r => b2z (r =? 0) | _ => 0 end.
Definition base (p : pc) : Z :=
  match p with PopCheck _ _ | PopAlloc _ => 3 | PopFail | EndFree _ _ => 2 | PushFree _ _ | Last _ => 1 end.
Definition is_live (h : heap) (x : nat) : Z := match h x with Some _ => 1 | None => 0 end.

Lemma contrib_nonneg : forall p, 0 <= contrib p. Proof. intros []; cbn; lia. Qed.
Lemma tok_nonneg : forall p, 0 <= tok p. Proof. intros []; cbn; try lia; apply b2z_range. Qed.
Lemma contrib_le : forall l, sumf contrib l <= zlen l.
Proof. induction l as [|p l IH]; cbn [sumf]; rewrite ?zlen_nil, ?zlen_cons; [lia|]. destruct p; cbn [contrib]; lia. Qed.

Section POOL.
Variable pool : nat.

Definition alive (s : st) (fl : list nat) : Prop :=
  exists pb r, mem s pool = Some (OPool pb r (ended s)) /\ chain (mem s) pb fl /\ (ended s = true -> pb = None)
  /\ r = 1 - b2z (ended s) + zlen (held s) + sumf contrib (pcs s)
  /\ sumf tok (pcs s) = b2z (r =? 0).
Definition dead (s : st) (fl : list nat) : Prop :=
  mem s pool = None /\ ended s = true /\ fl = [] /\ held s = [] /\ sumf contrib (pcs s) = 0 /\ sumf tok (pcs s) = 0.

(** at most this many steps are left of the calls in progress *)
Definition meas (ps : list pc) (own : list (list nat)) : Z := sumf base ps + sumf zlen own.

Definition inv_m (s : st) (m : Z) : Prop :=
  exists fl own, meas (pcs s) own <= m
  /\ Forall2 (pc_own (mem s)) (pcs s) own
  /\ (forall x, x <> pool -> occ x fl + occ x (held s) + sumf (occ x) own = is_live (mem s) x)
  /\ occ pool fl + occ pool (held s) + sumf (occ pool) own = 0
  /\ (forall x, x <> pool -> forall o, mem s x = Some o -> exists sz n, o = OBuf sz n)
  /\ zlen (held s) + sumf contrib (pcs s) <= INT_MAX - 1
  /\ (alive s fl \/ dead s fl).

Definition inv (s : st) : Prop := exists m, inv_m s m.

Lemma hset_same : forall h a o, hset h a o a = o.
Proof. intros. unfold hset. now rewrite Nat.eqb_refl. Qed.
Lemma hset_other : forall h a o x, x <> a -> hset h a o x = h x.
Proof. intros. unfold hset. now rewrite (proj2 (Nat.eqb_neq x a) H). Qed.

Lemma init_inv : inv (init pool).
Proof.
  eexists. exists [], []. cbn [init mem held ended pcs]. repeat match goal with |- _ /\ _ => split end.
  - apply Z.le_refl.
  - constructor.
  - intros x N. unfold is_live. rewrite hset_other by exact N. reflexivity.
  - reflexivity.
  - intros x N o E. rewrite hset_other in E by exact N. discriminate E.
  - rewrite zlen_nil. cbn [sumf]. unfold INT_MAX. lia.
  - left. exists None, 1. cbn [init mem held ended pcs]. rewrite hset_same.
    repeat match goal with |- _ /\ _ => split end; auto. constructor.
Qed.

Lemma is_live_range : forall h x, 0 <= is_live h x <= 1.
Proof. intros. unfold is_live. destruct (h x); lia. Qed.

(** the pool cell changes, nothing else *)
Lemma own_pool : forall h o ps own, Forall2 (pc_own h) ps own -> sumf (occ pool) own = 0 ->
  Forall2 (pc_own (hset h pool o)) ps own.
Proof.
  intros h o ps own F Z0. eapply f2_all; [exact F|]. intros p l I O. eapply own_frame; [exact O|].
  intros x Ix. apply hset_other. intros ->. apply In_nth_error in I as (w & E).
  pose proof (sumf_ge _ (occ pool) own w l (occ_nonneg pool) E). apply occ_in in Ix. lia.
Qed.
Lemma chain_pool : forall h o b fl, chain h b fl -> occ pool fl = 0 -> chain (hset h pool o) b fl.
Proof.
  intros h o b fl C Z0. eapply chain_frame; [exact C|]. intros x I. apply hset_other. intros ->. apply occ_in in I. lia.
Qed.
Lemma live_pool : forall h o x, x <> pool -> is_live (hset h pool o) x = is_live h x.
Proof. intros. unfold is_live. now rewrite hset_other. Qed.

Lemma pop_ok : forall s size, inv s -> ended s = false -> zlen (held s) + zlen (pcs s) < INT_MAX - 1 ->
  exists h p, pop_enter pool (mem s) size = Ok (h, p)
  /\ inv {| mem := h; held := held s; ended := false; pcs := p :: pcs s |}.
Proof.
  intros s size (m & fl & own & MM & F & L & P0 & B & LM & A) E LIM. destruct A as [(pb & r & M & C & _ & R & T)|(_ & X & _)]; [|congruence].
  rewrite E in *. cbn [b2z] in R.
  pose proof (sumf_nonneg _ contrib (pcs s) contrib_nonneg) as N1. pose proof (contrib_le (pcs s)) as N2.
  pose proof (zlen_nonneg _ (held s)). pose proof (zlen_nonneg _ (pcs s)).
  pose proof (occ_nonneg pool fl). pose proof (occ_nonneg pool (held s)). pose proof (sumf_nonneg _ (occ pool) own (occ_nonneg pool)).
  unfold pop_enter, get_pool. rewrite M. cbn [obind].
  replace (fits_int (r + 1)) with true by (symmetry; unfold fits_int, INT_MIN, INT_MAX in *; lia).
  replace (r =? 0) with false in T by lia. cbn [b2z] in T.
  destruct C as [|a sz n fl EA C].
  - eexists. eexists. split; [reflexivity|]. eexists. exists [], ([] :: own). cbn [mem held ended pcs].
    repeat match goal with |- _ /\ _ => split end.
    + apply Z.le_refl.
    + constructor; [reflexivity|]. apply own_pool; [exact F|lia].
    + intros x N. cbn [sumf]. rewrite occ_nil, live_pool by exact N. rewrite <- L by exact N. rewrite occ_nil. lia.
    + cbn [sumf]. rewrite occ_nil in *. lia.
    + intros x N o EO. rewrite hset_other in EO by exact N. eauto.
    + cbn [sumf contrib]. lia.
    + left. exists None, (r + 1). cbn [mem held ended pcs sumf contrib tok b2z]. rewrite hset_same.
      repeat match goal with |- _ /\ _ => split end; auto; try lia. constructor.
      replace (r + 1 =? 0) with false by lia. cbn [b2z]. lia.
  - unfold get_buf. rewrite EA. cbn [obind]. rewrite occ_cons in *.
    pose proof (b2z_range (Nat.eqb a pool)). pose proof (occ_nonneg pool fl).
    eexists. eexists. split; [reflexivity|]. eexists. exists fl, ([a] :: own). cbn [mem held ended pcs].
    repeat match goal with |- _ /\ _ => split end.
    + apply Z.le_refl.
    + constructor; [reflexivity|]. apply own_pool; [exact F|lia].
    + intros x N. cbn [sumf]. rewrite live_pool by exact N. rewrite <- L by exact N. rewrite !occ_cons, occ_nil. lia.
    + cbn [sumf]. rewrite occ_cons, occ_nil. lia.
    + intros x N o EO. rewrite hset_other in EO by exact N. eauto.
    + cbn [sumf contrib]. lia.
    + left. exists n, (r + 1). cbn [mem held ended pcs sumf contrib tok b2z]. rewrite hset_same.
      repeat match goal with |- _ /\ _ => split end; auto; try lia; try discriminate.
      apply chain_pool; [exact C|lia].
      replace (r + 1 =? 0) with false by lia. cbn [b2z]. lia.
Qed.

Lemma buf_held : forall s fl own b,
  (forall x, x <> pool -> occ x fl + occ x (held s) + sumf (occ x) own = is_live (mem s) x) ->
  occ pool fl + occ pool (held s) + sumf (occ pool) own = 0 ->
  (forall x, x <> pool -> forall o, mem s x = Some o -> exists sz n, o = OBuf sz n) ->
  0 < occ b fl + occ b (held s) + sumf (occ b) own ->
  b <> pool /\ occ b fl + occ b (held s) + sumf (occ b) own = 1 /\ exists sz n, mem s b = Some (OBuf sz n).
Proof.
  intros s fl own b L P0 B H.
  assert (N : b <> pool) by (intros ->; lia). split; [exact N|].
  pose proof (L b N) as LB. pose proof (is_live_range (mem s) b). split; [lia|].
  unfold is_live in LB. destruct (mem s b) as [o|] eqn:E; [|lia].
  destruct (B b N o E) as (sz & n & ->). eauto.
Qed.

Lemma push_ok : forall s b, inv s -> In b (held s) ->
  exists h op, push_enter pool (mem s) b = Ok (h, op)
  /\ inv {| mem := h; held := remove1 b (held s); ended := ended s;
            pcs := match op with Some p => p :: pcs s | None => pcs s end |}.
Proof.
  intros s b (m & fl & own & MM & F & L & P0 & B & LM & A) I.
  destruct A as [(pb & r & M & C & EN & R & T)|(_ & _ & _ & X & _)]; [|rewrite X in I; destruct I].
  pose proof (sumf_nonneg _ contrib (pcs s) contrib_nonneg) as N1.
  pose proof (occ_nonneg pool fl). pose proof (occ_nonneg pool (held s)). pose proof (sumf_nonneg _ (occ pool) own (occ_nonneg pool)).
  pose proof (proj1 (occ_in _ _) I) as OB.
  pose proof (occ_nonneg b fl). pose proof (sumf_nonneg _ (occ b) own (occ_nonneg b)).
  destruct (buf_held s fl own b L P0 B ltac:(lia)) as (NP & OC & sz & n & EB).
  assert (HL : 1 <= zlen (held s)).
  { destruct (held s); [destruct I|]. rewrite zlen_cons. pose proof (zlen_nonneg _ l). lia. }
  pose proof (b2z_range (ended s)).
  assert (NI : forall w l, nth_error own w = Some l -> ~ In b l /\ ~ In pool l).
  { intros w l E. pose proof (sumf_ge _ (occ b) own w l (occ_nonneg b) E).
    pose proof (sumf_ge _ (occ pool) own w l (occ_nonneg pool) E).
    split; intros X; apply occ_in in X; lia. }
  unfold push_enter, get_pool. rewrite M. cbn [obind].
  replace (fits_int (r - 1)) with true by (symmetry; unfold fits_int, INT_MIN, INT_MAX in *; lia).
  replace (r =? 0) with false in T by lia. cbn [b2z] in T.
  destruct (ended s) eqn:E; cbn [negb b2z] in *.
  - specialize (EN eq_refl). subst pb. inversion C; subst fl.
    eexists. eexists. split; [reflexivity|]. eexists. exists [], ([b] :: own). cbn [mem held ended pcs].
    repeat match goal with |- _ /\ _ => split end.
    + apply Z.le_refl.
    + constructor; [reflexivity|]. apply own_pool; [exact F|lia].
    + intros x N. cbn [sumf]. rewrite live_pool, <- L by exact N. rewrite remove1_occ, occ_cons, occ_nil by exact I. lia.
    + cbn [sumf]. rewrite remove1_occ, occ_cons, occ_nil by exact I. lia.
    + intros x N o EO. rewrite hset_other in EO by exact N. eauto.
    + cbn [sumf contrib]. rewrite remove1_len by exact I. lia.
    + left. exists None, (r - 1). cbn [mem held ended pcs sumf contrib tok b2z]. rewrite hset_same, remove1_len by exact I.
      repeat match goal with |- _ /\ _ => split end; auto; try lia. constructor.
  - unfold get_buf. rewrite EB. cbn [obind fst]. replace (0 <? r - 1) with true by lia.
    eexists. eexists. split; [reflexivity|]. eexists. exists (b :: fl), own. cbn [mem held ended pcs].
    repeat match goal with |- _ /\ _ => split end.
    + apply Z.le_refl.
    + apply own_pool; [|lia]. eapply f2_all; [exact F|]. intros p l Il O. eapply own_frame; [exact O|].
      intros x Ix. apply hset_other. intros ->. apply In_nth_error in Il as (w & Ew). destruct (NI w l Ew). contradiction.
    + intros x N. rewrite live_pool by exact N. rewrite occ_cons, remove1_occ by exact I.
      replace (is_live (hset (mem s) b (Some (OBuf sz pb))) x) with (is_live (mem s) x); [rewrite <- L by exact N; lia|].
      unfold is_live, hset. destruct (Nat.eqb_spec x b) as [->|]; [now rewrite EB|reflexivity].
    + rewrite occ_cons, remove1_occ by exact I. lia.
    + intros x N o EO. rewrite hset_other in EO by exact N. unfold hset in EO.
      destruct (Nat.eqb_spec x b); [injection EO as <-; eauto|eauto].
    + rewrite remove1_len by exact I. lia.
    + left. exists (Some b), (r - 1). cbn [mem held ended pcs sumf contrib tok b2z]. rewrite hset_same, remove1_len by exact I.
      repeat match goal with |- _ /\ _ => split end; auto; try lia; try discriminate.
      * apply chain_pool; [|rewrite occ_cons, (eqb_neq' b pool NP); lia].
        apply CH_cons with sz pb; [apply hset_same|]. eapply chain_frame; [exact C|].
        intros x Ix. apply hset_other. intros ->. apply occ_in in Ix. lia.
      * replace (r - 1 =? 0) with false by lia. cbn [b2z]. lia.
Qed.

Lemma end_ok : forall s, inv s -> ended s = false ->
  exists h p, end_enter pool (mem s) = Ok (h, p)
  /\ inv {| mem := h; held := held s; ended := true; pcs := p :: pcs s |}.
Proof.
  intros s (m & fl & own & MM & F & L & P0 & B & LM & A) E. destruct A as [(pb & r & M & C & _ & R & T)|(_ & X & _)]; [|congruence].
  rewrite E in *. cbn [b2z] in R.
  pose proof (sumf_nonneg _ contrib (pcs s) contrib_nonneg) as N1. pose proof (zlen_nonneg _ (held s)).
  pose proof (occ_nonneg pool fl). pose proof (occ_nonneg pool (held s)). pose proof (sumf_nonneg _ (occ pool) own (occ_nonneg pool)).
  unfold end_enter, get_pool. rewrite M. cbn [obind].
  replace (fits_int (r - 1)) with true by (symmetry; unfold fits_int, INT_MIN, INT_MAX in *; lia).
  replace (r =? 0) with false in T by lia. cbn [b2z] in T.
  eexists. eexists. split; [reflexivity|]. eexists. exists [], (fl :: own). cbn [mem held ended pcs].
  repeat match goal with |- _ /\ _ => split end.
  - apply Z.le_refl.
  - constructor; [apply chain_pool; [exact C|lia]|]. apply own_pool; [exact F|lia].
  - intros x N. cbn [sumf]. rewrite live_pool, <- L by exact N. rewrite occ_nil. lia.
  - cbn [sumf]. rewrite occ_nil. lia.
  - intros x N o EO. rewrite hset_other in EO by exact N. eauto.
  - cbn [sumf contrib]. lia.
  - left. exists None, (r - 1). cbn [mem held ended pcs sumf contrib tok b2z]. rewrite hset_same.
    repeat match goal with |- _ /\ _ => split end; auto; try lia. constructor.
Qed.

(** *** steps of running calls *)
Lemma free_frame : forall s fl own i li a pcs', Forall2 (pc_own (mem s)) pcs' own ->
  (forall x, x <> pool -> occ x fl + occ x (held s) + sumf (occ x) own = is_live (mem s) x) ->
  a <> pool -> nth_error own i = Some li -> In a li ->
  (forall w p l, nth_error pcs' w = Some p -> nth_error own w = Some l -> w <> i ->
     pc_own (mem s) p l -> pc_own (hset (mem s) a None) p l)
  /\ (forall pb, chain (mem s) pb fl -> chain (hset (mem s) a None) pb fl)
  /\ (forall x, is_live (hset (mem s) a None) x = is_live (mem s) x - b2z (Nat.eqb a x)).
Proof.
  intros s fl own i li a pcs' F L NP EI I. apply occ_in in I.
  pose proof (L a NP) as LA. pose proof (is_live_range (mem s) a).
  pose proof (occ_nonneg a fl). pose proof (occ_nonneg a (held s)).
  pose proof (sumf_ge _ (occ a) own i li (occ_nonneg a) EI).
  repeat match goal with |- _ /\ _ => split end.
  - intros w p l E1 E2 N O. eapply own_frame; [exact O|]. intros x Ix. apply hset_other. intros ->.
    pose proof (nth_other a own i w li l EI E2 N). apply occ_in in Ix. lia.
  - intros pb C. eapply chain_frame; [exact C|]. intros x Ix. apply hset_other. intros ->. apply occ_in in Ix. lia.
  - intros x. unfold is_live, hset. destruct (Nat.eqb_spec x a) as [->|N].
    + rewrite eqb_refl'. unfold is_live in LA. destruct (mem s a); lia.
    + rewrite (eqb_neq' a x) by congruence. lia.
Qed.

Definition next (s : st) (i : nat) (h : heap) (r : res) : st :=
  match r with
  | Goto p => {| mem := h; held := held s; ended := ended s; pcs := upd_nat (pcs s) i p |}
  | Return b => {| mem := h; held := b :: held s; ended := ended s; pcs := drop_nth i (pcs s) |}
  | Done => {| mem := h; held := held s; ended := ended s; pcs := drop_nth i (pcs s) |}
  end.

(** going on elsewhere with the same claims on the pool *)
Lemma status_goto : forall s fl h i p q, alive s fl \/ dead s fl -> nth_error (pcs s) i = Some p ->
  h pool = mem s pool -> (forall pb, chain (mem s) pb fl -> chain h pb fl) -> contrib q = contrib p -> tok q = tok p ->
  alive (next s i h (Goto q)) fl \/ dead (next s i h (Goto q)) fl.
Proof.
  intros s fl h i p q A E HP HC CQ TQ. destruct A as [(pb & r & M & C & EN & R & T)|(D & X)].
  - left. exists pb, r. cbn [next mem held ended pcs]. rewrite !(sumf_upd _ _ _ _ _ _ E), HP, CQ, TQ.
    repeat match goal with |- _ /\ _ => split end; auto; lia.
  - right. unfold dead. cbn [next mem held ended pcs]. rewrite !(sumf_upd _ _ _ _ _ _ E), HP, CQ, TQ.
    destruct X as (X1 & X2 & X3 & X4 & X5). repeat match goal with |- _ /\ _ => split end; auto; lia.
Qed.

Ltac ms E EI :=
  unfold meas in *; rewrite ?(sumf_upd _ _ _ _ _ _ E), ?(sumf_drop _ _ _ _ _ E), ?(sumf_upd _ _ _ _ _ _ EI), ?(sumf_drop _ _ _ _ _ EI);
  cbn [base]; rewrite ?zlen_cons, ?zlen_nil; lia.
Lemma run_ok : forall s i p a o m, inv_m s m -> nth_error (pcs s) i = Some p -> run pool (mem s) p a = Some o ->
  exists h r, o = Ok (h, r) /\ inv_m (next s i h r) (m - 1).
Proof.
  intros s i p a o m (fl & own & MM & F & L & P0 & B & LM & A) E R.
  destruct (f2_nth _ _ _ _ _ _ _ F E) as (li & EI & O).
  pose proof (occ_nonneg pool fl). pose proof (occ_nonneg pool (held s)). pose proof (sumf_nonneg _ (occ pool) own (occ_nonneg pool)).
  pose proof (sumf_nonneg _ contrib (pcs s) contrib_nonneg) as N1. pose proof (zlen_nonneg _ (held s)).
  assert (OWN : forall b, In b li -> b <> pool /\ exists sz n, mem s b = Some (OBuf sz n)).
  { intros b Ib. apply occ_in in Ib. pose proof (sumf_ge _ (occ b) own i li (occ_nonneg b) EI).
    pose proof (occ_nonneg b fl). pose proof (occ_nonneg b (held s)).
    destruct (buf_held s fl own b L P0 B ltac:(lia)) as (X & _ & Y). auto. }
  destruct p as [b size|size| |b rc|b rc|rc]; cbn [run] in R; cbn [pc_own] in O.
  - (* PopCheck *)
    subst li. destruct (OWN b) as (NP & sz & n & EB); [cbn; auto|]. unfold free_buf, get_buf in R. rewrite EB in R. cbn [obind fst] in R.
    destruct (Z.eqb_spec sz size) as [->|NE]; cbn [negb] in R; injection R as <-.
    + eexists. eexists. split; [reflexivity|]. cbn [next].
      exists fl, (drop_nth i own). cbn [mem held ended pcs].
      repeat match goal with |- _ /\ _ => split end.
      * ms E EI.
      * eapply f2_drop; [exact F|]. auto.
      * intros x N. rewrite (sumf_drop _ _ _ _ _ EI), !occ_cons, occ_nil, <- L by exact N. lia.
      * rewrite (sumf_drop _ _ _ _ _ EI), !occ_cons, occ_nil. lia.
      * exact B.
      * rewrite (sumf_drop _ _ _ _ _ E), zlen_cons. cbn [contrib]. lia.
      * destruct A as [(pb & r & M & C & EN & RR & T)|(D & X1 & X2 & X3 & X4 & X5)].
        -- left. exists pb, r. cbn [mem held ended pcs]. rewrite !(sumf_drop _ _ _ _ _ E), zlen_cons. cbn [contrib tok].
           repeat match goal with |- _ /\ _ => split end; auto; lia.
        -- pose proof (sumf_ge _ contrib _ _ _ contrib_nonneg E). cbn [contrib] in *. lia.
    + eexists. eexists. split; [reflexivity|].
      destruct (free_frame s fl own i [b] b (pcs s) F L NP EI ltac:(cbn; auto)) as (FO & FC & FL).
      exists fl, (upd_nat own i []). cbn [next mem held ended pcs].
      repeat match goal with |- _ /\ _ => split end.
      * ms E EI.
      * eapply f2_upd; [exact F|exact FO|reflexivity].
      * intros x N. rewrite (sumf_upd _ _ _ _ _ _ EI), FL, <- L by exact N. rewrite occ_cons, occ_nil. lia.
      * rewrite (sumf_upd _ _ _ _ _ _ EI), occ_cons, occ_nil. rewrite (eqb_neq' b pool NP). lia.
      * intros x N o EO. unfold hset in EO. destruct (Nat.eqb x b); [discriminate EO|eauto].
      * rewrite (sumf_upd _ _ _ _ _ _ E). cbn [contrib]. lia.
      * apply (status_goto s fl (hset (mem s) b None) i _ (PopAlloc size) A E); auto; try reflexivity.
        apply hset_other. congruence.
  - (* PopAlloc *)
    subst li. destruct a as [x|].
    + destruct (mem s x) as [ox|] eqn:EX; [discriminate R|]. injection R as <-.
      eexists. eexists. split; [reflexivity|].
      destruct A as [(pb & r & M & C & EN & RR & T)|(D & X1 & X2 & X3 & X4 & X5)];
        [|pose proof (sumf_ge _ contrib _ _ _ contrib_nonneg E); cbn [contrib] in *; lia].
      assert (NP : x <> pool) by congruence.
      pose proof (L x NP) as LX. unfold is_live in LX. rewrite EX in LX.
      pose proof (occ_nonneg x fl). pose proof (occ_nonneg x (held s)). pose proof (sumf_nonneg _ (occ x) own (occ_nonneg x)).
      exists fl, (drop_nth i own). cbn [next mem held ended pcs].
      repeat match goal with |- _ /\ _ => split end.
      * ms E EI.
      * eapply f2_drop; [exact F|]. intros w p l E1 E2 N O. eapply own_frame; [exact O|].
        intros y Iy. apply hset_other. intros ->. pose proof (sumf_ge _ (occ x) own w l (occ_nonneg x) E2). apply occ_in in Iy. lia.
      * intros y N. rewrite (sumf_drop _ _ _ _ _ EI), occ_cons, occ_nil.
        unfold is_live, hset. destruct (Nat.eqb_spec y x) as [->|NY].
        -- rewrite eqb_refl'. lia.
        -- rewrite (eqb_neq' x y) by congruence. specialize (L y N). unfold is_live in L. lia.
      * rewrite (sumf_drop _ _ _ _ _ EI), occ_cons, occ_nil, (eqb_neq' x pool NP). lia.
      * intros y N oy EO. unfold hset in EO. destruct (Nat.eqb y x); [injection EO as <-; eauto|eauto].
      * rewrite (sumf_drop _ _ _ _ _ E), zlen_cons. cbn [contrib]. lia.
      * left. exists pb, r. cbn [mem held ended pcs]. rewrite !(sumf_drop _ _ _ _ _ E), zlen_cons. cbn [contrib tok].
        rewrite hset_other by congruence.
        repeat match goal with |- _ /\ _ => split end; auto; try lia.
        eapply chain_frame; [exact C|]. intros y Iy. apply hset_other. intros ->. apply occ_in in Iy. lia.
    + injection R as <-. eexists. eexists. split; [reflexivity|].
      exists fl, (upd_nat own i []). cbn [next mem held ended pcs].
      repeat match goal with |- _ /\ _ => split end.
      * ms E EI.
      * eapply f2_upd; [exact F|auto|reflexivity].
      * intros x N. rewrite (sumf_upd _ _ _ _ _ _ EI), <- L by exact N. lia.
      * rewrite (sumf_upd _ _ _ _ _ _ EI). lia.
      * exact B.
      * rewrite (sumf_upd _ _ _ _ _ _ E). cbn [contrib]. lia.
      * apply (status_goto s fl (mem s) i _ PopFail A E); auto; reflexivity.
  - (* PopFail *)
    subst li.
    destruct A as [(pb & r & M & C & EN & RR & T)|(D & X1 & X2 & X3 & X4 & X5)];
      [|pose proof (sumf_ge _ contrib _ _ _ contrib_nonneg E); cbn [contrib] in *; lia].
    pose proof (sumf_ge _ contrib _ _ _ contrib_nonneg E) as CG. cbn [contrib] in CG. pose proof (b2z_range (ended s)).
    unfold get_pool in R. rewrite M in R. cbn [obind] in R.
    replace (fits_int (r - 1)) with true in R by (symmetry; unfold fits_int, INT_MIN, INT_MAX in *; lia).
    injection R as <-. eexists. eexists. split; [reflexivity|].
    replace (r =? 0) with false in T by lia. cbn [b2z] in T.
    exists fl, (upd_nat own i []). cbn [next mem held ended pcs].
    repeat match goal with |- _ /\ _ => split end.
    + ms E EI.
    + eapply f2_upd; [eapply own_pool; [exact F|lia]|intros ? ? ? _ _ _ X; exact X|reflexivity].
    + intros x N. rewrite (sumf_upd _ _ _ _ _ _ EI), live_pool, <- L by exact N. lia.
    + rewrite (sumf_upd _ _ _ _ _ _ EI). lia.
    + intros x N o EO. rewrite hset_other in EO by exact N. eauto.
    + rewrite (sumf_upd _ _ _ _ _ _ E). cbn [contrib]. lia.
    + left. exists pb, (r - 1). cbn [mem held ended pcs]. rewrite !(sumf_upd _ _ _ _ _ _ E), hset_same. cbn [contrib tok].
      repeat match goal with |- _ /\ _ => split end; auto; try lia. apply chain_pool; [exact C|lia].
  - (* PushFree *)
    subst li. destruct (OWN b) as (NP & sz & n & EB); [cbn; auto|]. unfold free_buf, get_buf in R. rewrite EB in R. cbn [obind] in R.
    injection R as <-. eexists. eexists. split; [reflexivity|].
    destruct (free_frame s fl own i [b] b (pcs s) F L NP EI ltac:(cbn; auto)) as (FO & FC & FL).
    exists fl, (upd_nat own i []). cbn [next mem held ended pcs].
    repeat match goal with |- _ /\ _ => split end.
    + ms E EI.
    + eapply f2_upd; [exact F|exact FO|reflexivity].
    + intros x N. rewrite (sumf_upd _ _ _ _ _ _ EI), FL, <- L by exact N. rewrite occ_cons, occ_nil. lia.
    + rewrite (sumf_upd _ _ _ _ _ _ EI), occ_cons, occ_nil. rewrite (eqb_neq' b pool NP). lia.
    + intros x N o EO. unfold hset in EO. destruct (Nat.eqb x b); [discriminate EO|eauto].
    + rewrite (sumf_upd _ _ _ _ _ _ E). cbn [contrib]. lia.
    + apply (status_goto s fl (hset (mem s) b None) i _ (Last rc) A E); auto; try reflexivity.
      apply hset_other. congruence.
  - (* EndFree *)
    destruct b as [b|].
    + inversion O as [|? sz n l EB C]; subst. destruct (OWN b) as (NP & _); [cbn; auto|].
      unfold free_buf, get_buf in R. rewrite EB in R. cbn [obind snd] in R.
      injection R as <-. eexists. eexists. split; [reflexivity|].
      destruct (free_frame s fl own i (b :: l) b (pcs s) F L NP EI ltac:(cbn; auto)) as (FO & FC & FL).
      assert (NB : ~ In b l).
      { intros Ib. apply occ_in in Ib. pose proof (sumf_ge _ (occ b) own i _ (occ_nonneg b) EI) as G. rewrite occ_cons, eqb_refl' in G.
        specialize (L b NP). pose proof (is_live_range (mem s) b). pose proof (occ_nonneg b fl). pose proof (occ_nonneg b (held s)). lia. }
      exists fl, (upd_nat own i l). cbn [next mem held ended pcs].
      repeat match goal with |- _ /\ _ => split end.
      * ms E EI.
      * eapply f2_upd; [exact F|exact FO|]. cbn [pc_own]. eapply chain_frame; [exact C|].
        intros x Ix. apply hset_other. intros ->. contradiction.
      * intros x N. rewrite (sumf_upd _ _ _ _ _ _ EI), FL, <- L by exact N. rewrite occ_cons. lia.
      * rewrite (sumf_upd _ _ _ _ _ _ EI), occ_cons. rewrite (eqb_neq' b pool NP). lia.
      * intros x N o EO. unfold hset in EO. destruct (Nat.eqb x b); [discriminate EO|eauto].
      * rewrite (sumf_upd _ _ _ _ _ _ E). cbn [contrib]. lia.
      * apply (status_goto s fl (hset (mem s) b None) i _ (EndFree n rc) A E); auto; try reflexivity.
        apply hset_other. congruence.
    + inversion O; subst. injection R as <-. eexists. eexists. split; [reflexivity|].
      exists fl, (upd_nat own i []). cbn [next mem held ended pcs].
      repeat match goal with |- _ /\ _ => split end.
      * ms E EI.
      * eapply f2_upd; [exact F|auto|reflexivity].
      * intros x N. rewrite (sumf_upd _ _ _ _ _ _ EI), <- L by exact N. lia.
      * rewrite (sumf_upd _ _ _ _ _ _ EI). lia.
      * exact B.
      * rewrite (sumf_upd _ _ _ _ _ _ E). cbn [contrib]. lia.
      * apply (status_goto s fl (mem s) i _ (Last rc) A E); auto; reflexivity.
  - (* Last *)
    subst li. pose proof (sumf_ge _ tok _ _ _ tok_nonneg E) as TG. cbn [tok] in TG.
    destruct (Z.eqb_spec rc 0) as [->|NZ].
    + cbn [b2z] in TG.
      destruct A as [(pb & r & M & C & EN & RR & T)|(D & X1 & X2 & X3 & X4 & X5)]; [|lia].
      unfold get_pool in R. rewrite M in R. cbn [obind] in R. injection R as <-.
      eexists. eexists. split; [reflexivity|].
      destruct (Z.eqb_spec r 0) as [->|]; cbn [b2z] in T; [|lia].
      assert (EE : ended s = true) by (destruct (ended s); [reflexivity|]; cbn [b2z] in RR; lia).
      rewrite EE in *. cbn [b2z] in RR. specialize (EN eq_refl). subst pb. inversion C; subst fl.
      exists [], (drop_nth i own). cbn [next mem held ended pcs].
      repeat match goal with |- _ /\ _ => split end.
      * ms E EI.
      * eapply f2_drop; [eapply own_pool; [exact F|lia]|intros ? ? ? _ _ _ X; exact X].
      * intros x N. rewrite (sumf_drop _ _ _ _ _ EI), live_pool, <- L by exact N. rewrite occ_nil. lia.
      * rewrite (sumf_drop _ _ _ _ _ EI), occ_nil. lia.
      * intros x N o EO. rewrite hset_other in EO by exact N. eauto.
      * rewrite (sumf_drop _ _ _ _ _ E). cbn [contrib]. lia.
      * right. unfold dead. cbn [mem held ended pcs]. rewrite !(sumf_drop _ _ _ _ _ E), hset_same. cbn [contrib tok].
        change (0 =? 0) with true. cbn [b2z].
        repeat match goal with |- _ /\ _ => split end; auto; try lia.
        destruct (held s); [reflexivity|]. rewrite zlen_cons in RR. pose proof (zlen_nonneg _ l). lia.
    + injection R as <-. eexists. eexists. split; [reflexivity|].
      exists fl, (drop_nth i own). cbn [next mem held ended pcs].
      repeat match goal with |- _ /\ _ => split end.
      * ms E EI.
      * eapply f2_drop; [exact F|auto].
      * intros x N. rewrite (sumf_drop _ _ _ _ _ EI), <- L by exact N. rewrite occ_nil. lia.
      * rewrite (sumf_drop _ _ _ _ _ EI), occ_nil. lia.
      * exact B.
      * rewrite (sumf_drop _ _ _ _ _ E). cbn [contrib]. lia.
      * assert (TZ : tok (Last rc) = 0) by (cbn [tok]; now replace (rc =? 0) with false by lia).
        destruct A as [(pb & r & M & C & EN & RR & T)|(D & X1 & X2 & X3 & X4 & X5)].
        -- left. exists pb, r. cbn [mem held ended pcs]. rewrite !(sumf_drop _ _ _ _ _ E), TZ. cbn [contrib].
           repeat match goal with |- _ /\ _ => split end; auto; lia.
        -- right. unfold dead. cbn [mem held ended pcs]. rewrite !(sumf_drop _ _ _ _ _ E), TZ. cbn [contrib].
           repeat match goal with |- _ /\ _ => split end; auto; lia.
Qed.

Lemma exec_ok : forall s l o, inv s -> exec pool s l = Some o -> exists s', o = Ok s' /\ inv s'.
Proof.
  intros s l o I E. destruct l as [size|b| |i a]; cbn [exec] in E.
  - destruct (ended s) eqn:EE; [discriminate E|]. cbn [orb] in E.
    destruct (Z.ltb_spec (zlen (held s) + zlen (pcs s)) (INT_MAX - 1)); [|discriminate E]. cbn [negb] in E.
    destruct (pop_ok s size I EE H) as (h & p & X & V). rewrite X in E. injection E as <-. eauto.
  - destruct (existsb (Nat.eqb b) (held s)) eqn:EX; [|discriminate E].
    apply existsb_exists in EX as (y & IY & EY). apply Nat.eqb_eq in EY. subst y.
    destruct (push_ok s b I IY) as (h & op & X & V). rewrite X in E. injection E as <-. eauto.
  - destruct (ended s) eqn:EE; [discriminate E|].
    destruct (end_ok s I EE) as (h & p & X & V). rewrite X in E. injection E as <-. eauto.
  - destruct (nth_error (pcs s) i) as [p|] eqn:EP; [|discriminate E].
    destruct (run pool (mem s) p a) as [o'|] eqn:ER; [|discriminate E].
    destruct I as (m & I). destruct (run_ok s i p a o' m I EP ER) as (h & r & -> & V). injection E as <-. cbn [obind].
    eexists. split; [reflexivity|]. exists (m - 1). destruct r; exact V.
Qed.

Lemma runs_ok : forall s ls o, runs pool s ls o -> inv s -> exists s', o = Ok s' /\ inv s'.
Proof.
  induction 1 as [s|s l ls E|s l ls s' r E R IH]; intros I.
  - eauto.
  - destruct (exec_ok s l _ I E) as (s' & X & _). discriminate X.
  - destruct (exec_ok s l _ I E) as (s'' & X & V). injection X as <-. auto.
Qed.

(** ** consequences *)
Lemma held_facts : forall s, inv s -> NoDup (held s) /\ forall b, In b (held s) -> b <> pool /\ exists sz n, mem s b = Some (OBuf sz n).
Proof.
  intros s (m & fl & own & MM & F & L & P0 & B & LM & A). split.
  - apply (NoDup_count_occ Nat.eq_dec). intros x.
    pose proof (occ_nonneg x fl). pose proof (occ_nonneg x (held s)). pose proof (sumf_nonneg _ (occ x) own (occ_nonneg x)).
    assert (occ x (held s) <= 1); [|unfold occ in *; lia].
    destruct (Nat.eq_dec x pool) as [->|N]; [lia|]. specialize (L x N). pose proof (is_live_range (mem s) x). lia.
  - intros b I. apply occ_in in I. pose proof (occ_nonneg b fl). pose proof (sumf_nonneg _ (occ b) own (occ_nonneg b)).
    destruct (buf_held s fl own b L P0 B ltac:(lia)) as (X & _ & Y). auto.
Qed.

Lemma held_stable : forall s l s' b, inv s -> exec pool s l = Some (Ok s') -> In b (held s) -> l <> LPush b ->
  In b (held s') /\ mem s' b = mem s b.
Proof.
  intros s l s' b I E Ib NL. destruct (held_facts s I) as (ND & HF). destruct (HF b Ib) as (NP & sz & n & EB).
  destruct l as [size|b'| |i a]; cbn [exec] in E.
  - destruct (ended s); [discriminate E|]. cbn [orb] in E. destruct (negb (zlen (held s) + zlen (pcs s) <? INT_MAX - 1)); [discriminate E|].
    unfold pop_enter in E. destruct (get_pool pool (mem s)) as [[[buf rc] e]|]; cbn [obind] in E; [|discriminate E].
    destruct (fits_int (rc + 1)); [|discriminate E]. destruct buf as [b0|].
    + destruct (get_buf (mem s) b0) as [[z0 n0]|]; cbn [obind] in E; [|discriminate E]. injection E as <-. cbn. now rewrite hset_other.
    + injection E as <-. cbn. now rewrite hset_other.
  - destruct (existsb (Nat.eqb b') (held s)); [|discriminate E].
    assert (NB : b <> b') by congruence.
    assert (IR : In b (remove1 b' (held s))).
    { clear -Ib NB. induction (held s) as [|y l IH]; [destruct Ib|].
      change (remove1 b' (y :: l)) with (if Nat.eqb y b' then l else y :: remove1 b' l).
      destruct (Nat.eqb_spec y b') as [->|]; destruct Ib as [->|Ib]; cbn; auto; congruence. }
    unfold push_enter in E. destruct (get_pool pool (mem s)) as [[[buf rc] e]|]; cbn [obind] in E; [|discriminate E].
    destruct (fits_int (rc - 1)); [|discriminate E]. destruct (negb e).
    + destruct (get_buf (mem s) b') as [[z0 n0]|]; cbn [obind] in E; [|discriminate E].
      destruct (0 <? rc - 1); [|discriminate E]. injection E as <-. cbn. rewrite !hset_other by congruence. auto.
    + injection E as <-. cbn. rewrite !hset_other by congruence. auto.
  - destruct (ended s); [discriminate E|].
    unfold end_enter in E. destruct (get_pool pool (mem s)) as [[[buf rc] e]|]; cbn [obind] in E; [|discriminate E].
    destruct (fits_int (rc - 1)); [|discriminate E]. injection E as <-. cbn. now rewrite hset_other.
  - destruct (nth_error (pcs s) i) as [p|] eqn:EP; [|discriminate E].
    destruct I as (m & fl & own & MM & F & L & P0 & B & LM & A). destruct (f2_nth _ _ _ _ _ _ _ F EP) as (li & EI & O).
    assert (NO : forall x, In x li -> b <> x).
    { intros x Ix <-. apply occ_in in Ix, Ib. pose proof (sumf_ge _ (occ b) own i li (occ_nonneg b) EI).
      specialize (L b NP). pose proof (is_live_range (mem s) b). pose proof (occ_nonneg b fl). lia. }
    destruct p as [b0 size|size| |b0 rc|b0 rc|rc]; cbn [run] in E; cbn [pc_own] in O; unfold free_buf, get_buf, get_pool in E.
    + subst li. pose proof (NO b0 ltac:(cbn; auto)). destruct (mem s b0) as [[|z0 n0]|]; cbn [obind fst] in E; try discriminate E.
      destruct (negb (z0 =? size)); injection E as <-; cbn; rewrite ?hset_other by congruence; auto.
    + destruct a as [x|]; [destruct (mem s x) eqn:EX; [discriminate E|]|]; injection E as <-; cbn; auto.
      rewrite hset_other by congruence. auto.
    + destruct (mem s pool) as [[buf r e|]|]; cbn [obind] in E; try discriminate E. destruct (fits_int (r - 1)); [|discriminate E].
      injection E as <-. cbn. rewrite hset_other by congruence. auto.
    + subst li. pose proof (NO b0 ltac:(cbn; auto)). destruct (mem s b0) as [[|z0 n0]|]; cbn [obind fst] in E; try discriminate E.
      injection E as <-; cbn; rewrite ?hset_other by congruence; auto.
    + destruct b0 as [b0|]; [|injection E as <-; cbn; auto]. inversion O as [|? z1 n1 l1 EB1 C1]; subst.
      pose proof (NO b0 ltac:(cbn; auto)). rewrite EB1 in E. cbn [obind snd] in E. injection E as <-. cbn.
      rewrite hset_other by congruence. auto.
    + destruct (rc =? 0); [|injection E as <-; cbn; auto].
      destruct (mem s pool) as [[buf r e|]|]; cbn [obind] in E; try discriminate E.
      injection E as <-. cbn. rewrite hset_other by congruence. auto.
Qed.

(** what a call of dav1d_mem_pool_pop gives *)
Definition wants (p : pc) : option Z := match p with PopCheck _ z | PopAlloc z => Some z | _ => None end.
Lemma pop_result : forall s i a s' p, inv s -> exec pool s (LRun i a) = Some (Ok s') -> nth_error (pcs s) i = Some p ->
  held s' = held s \/
  exists b z n, held s' = b :: held s /\ ~ In b (held s) /\ wants p = Some z /\ mem s' b = Some (OBuf z n)
    /\ pcs s' = drop_nth i (pcs s).
Proof.
  intros s i a s' p I E EP. destruct (exec_ok s _ _ I E) as (s2 & X & I'). injection X as <-.
  destruct (held_facts s' I') as (ND & _).
  cbn [exec] in E. rewrite EP in E.
  destruct p as [b0 size|size| |b0 rc|b0 rc|rc]; cbn [run] in E; unfold free_buf, get_buf, get_pool in E.
  - destruct (mem s b0) as [[|z0 n0]|] eqn:EB; cbn [obind fst] in E; try discriminate E.
    destruct (Z.eqb_spec z0 size) as [->|]; cbn [negb] in E; injection E as <-; [|left; reflexivity].
    right. exists b0, size, n0. cbn in *. inversion ND; subst. auto.
  - destruct a as [x|]; [|injection E as <-; left; reflexivity]. destruct (mem s x); [discriminate E|]. injection E as <-.
    right. exists x, size, None. cbn in *. inversion ND; subst. rewrite hset_same. auto.
  - destruct (mem s pool) as [[buf r e|]|]; cbn [obind] in E; try discriminate E. destruct (fits_int (r - 1)); [|discriminate E].
    injection E as <-. left. reflexivity.
  - destruct (mem s b0) as [[|z0 n0]|] eqn:EB; cbn [obind fst] in E; try discriminate E. injection E as <-. left. reflexivity.
  - destruct b0 as [b0|]; [|injection E as <-; left; reflexivity].
    destruct (mem s b0) as [[|z0 n0]|] eqn:EB; cbn [obind fst] in E; try discriminate E. injection E as <-. left. reflexivity.
  - destruct (rc =? 0); [|injection E as <-; left; reflexivity].
    destruct (mem s pool) as [[buf r e|]|]; cbn [obind] in E; try discriminate E. injection E as <-. left. reflexivity.
Qed.

Lemma no_leak : forall s, inv s -> ended s = true -> held s = [] -> pcs s = [] -> forall x, mem s x = None.
Proof.
  intros s (m & fl & own & MM & F & L & P0 & B & LM & A) E H P x. rewrite P in F. inversion F; subst own.
  destruct A as [(pb & r & M & C & EN & R & T)|(D & _ & X & _)].
  - rewrite P, E, H in *. rewrite zlen_nil in R. cbn in R, T. subst r. discriminate T.
  - subst fl. destruct (Nat.eq_dec x pool) as [->|N]; [exact D|]. specialize (L x N). rewrite H in L. cbn in L.
    unfold is_live in L. destruct (mem s x); [lia|reflexivity].
Qed.
Definition popping (p : pc) : bool := match p with PopCheck _ _ | PopAlloc _ | PopFail => true | _ => false end.
Lemma pool_alive : forall s, inv s -> ended s = false \/ held s <> [] \/ existsb popping (pcs s) = true ->
  exists b r, mem s pool = Some (OPool b r (ended s)).
Proof.
  intros s (m & fl & own & MM & F & L & P0 & B & LM & A) H.
  destruct A as [(pb & r & M & _)|(D & E & _ & X & C0 & _)]; [eauto|].
  destruct H as [H|[H|H]]; try congruence. apply existsb_exists in H as (p & Ip & Hp).
  apply In_nth_error in Ip as (w & Ew). pose proof (sumf_ge _ contrib _ _ _ contrib_nonneg Ew).
  destruct p; cbn in *; try discriminate; lia.
Qed.
Lemma stays_dead : forall s l s', inv s -> exec pool s l = Some (Ok s') -> mem s pool = None -> mem s' pool = None.
Proof.
  intros s l s' I E D. destruct I as (m & fl & own & MM & F & L & P0 & B & LM & A).
  destruct A as [(pb & r & M & _)|(_ & EE & _ & X & C0 & T0)]; [congruence|].
  destruct l as [size|b| |i a]; cbn [exec] in E; rewrite ?EE, ?X in E; cbn in E; try discriminate E.
  destruct (nth_error (pcs s) i) as [p|] eqn:EP; [|discriminate E].
  pose proof (sumf_ge _ contrib _ _ _ contrib_nonneg EP). pose proof (sumf_ge _ tok _ _ _ tok_nonneg EP).
  destruct (f2_nth _ _ _ _ _ _ _ F EP) as (li & EI & O).
  destruct p as [b0 size|size| |b0 rc|b0 rc|rc]; cbn [run contrib tok] in *; try lia; unfold free_buf, get_buf, get_pool in E.
  - destruct (mem s b0) as [[|z0 n0]|] eqn:EB; cbn [obind fst] in E; try discriminate E. injection E as <-. cbn.
    unfold hset. destruct (Nat.eqb pool b0); auto.
  - destruct b0 as [b0|]; [|injection E as <-; cbn; auto].
    destruct (mem s b0) as [[|z0 n0]|] eqn:EB; cbn [obind fst] in E; try discriminate E. injection E as <-. cbn.
    unfold hset. destruct (Nat.eqb pool b0); auto.
  - destruct (Z.eqb_spec rc 0); [cbn [b2z] in *; lia|]. injection E as <-. cbn. auto.
Qed.

(** calls come to an end *)
Lemma base_pos : forall p, 1 <= base p. Proof. intros []; cbn; lia. Qed.
Lemma meas_len : forall ps own, zlen ps <= meas ps own.
Proof.
  intros ps own. unfold meas. assert (0 <= sumf zlen own) by (apply sumf_nonneg; intros; apply zlen_nonneg).
  induction ps as [|p ps IH]; cbn [sumf]; rewrite ?zlen_nil, ?zlen_cons; [lia|]. pose proof (base_pos p). lia.
Qed.
Lemma bounded : forall ls s m s', inv_m s m -> runs pool s ls (Ok s') -> Forall (fun l => exists i a, l = LRun i a) ls ->
  zlen ls <= m.
Proof.
  induction ls as [|l ls IH]; intros s m s' I R F.
  - rewrite zlen_nil. destruct I as (fl & own & MM & _). pose proof (meas_len (pcs s) own). pose proof (zlen_nonneg _ (pcs s)). lia.
  - inversion F as [|? ? (i & a & ->) F']; subst. rewrite zlen_cons. inversion R as [| |? ? ? s1 r E R1]; subst.
    cbn [exec] in E. destruct (nth_error (pcs s) i) as [p|] eqn:EP; [|discriminate E].
    destruct (run pool (mem s) p a) as [o'|] eqn:ER; [|discriminate E].
    destruct (run_ok s i p a o' m I EP ER) as (h & r & -> & V). cbn [obind] in E. injection E as <-.
    assert (V' : inv_m (next s i h r) (m - 1)) by exact V.
    specialize (IH (next s i h r) (m - 1) s'). destruct r; cbn [next] in *; specialize (IH V' R1 F'); lia.
Qed.
End POOL.

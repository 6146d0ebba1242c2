(** Interval analysis of the straight-line code: if it succeeds, the C
    execution is defined and ends within the computed bounds. *)
From Coq Require Import ZArith List Bool Lia.
From Verif.Base Require Import CInt Lemmas.
From Verif.Itx Require Import Lang Sim.
Import ListNotations.
Open Scope Z_scope.
Open Scope outcome_scope.

Definition ivl := (Z * Z)%type.
Definition ivl_op (v : ivl) : outcome (unit * ivl) :=
  if fits_int (fst v) && fits_int (snd v) then Ok (tt, v) else Undef.
Definition ivl_mul (a b : ivl) : ivl :=
  let p1 := fst a * fst b in let p2 := fst a * snd b in
  let p3 := snd a * fst b in let p4 := snd a * snd b in
  (Z.min (Z.min p1 p2) (Z.min p3 p4), Z.max (Z.max p1 p2) (Z.max p3 p4)).

Definition idom (lo hi : Z) : dom := {|
  dS := unit; dV := ivl;
  dK := fun _ z => ivl_op (z, z);
  dAdd := fun _ a b => ivl_op (fst a + fst b, snd a + snd b);
  dSub := fun _ a b => ivl_op (fst a - snd b, snd a - fst b);
  dMul := fun _ a b => ivl_op (ivl_mul a b);
  dShr := fun _ a n => if (0 <=? n) && (n <? 32) then Ok (tt, (Z.shiftr (fst a) n, Z.shiftr (snd a) n)) else Undef;
  dNeg := fun _ a => ivl_op (- snd a, - fst a);
  dClip := fun _ a => Ok (tt, (iclip (fst a) lo hi, iclip (snd a) lo hi)) |}.

Definition inI (i : ivl) (z : Z) : Prop := fst i <= z <= snd i.

Lemma fits_int_iff : forall x, fits_int x = true <-> INT_MIN <= x <= INT_MAX.
Proof. intros. unfold fits_int. rewrite andb_true_iff, !Z.leb_le. tauto. Qed.

Lemma ivl_op_sound : forall i z s1' v1, ivl_op i = Ok (s1', v1) -> inI i z ->
  cint_op z = Ok (tt, z) /\ inI v1 z.
Proof.
  intros i z s1' v1 H [H1 H2]. unfold ivl_op in H. destruct (_ && _) eqn:E; [|discriminate]. injection H as <- <-.
  apply andb_true_iff in E as [E1 E2]. apply fits_int_iff in E1, E2. split; [|split; auto].
  unfold cint_op. rewrite (proj2 (fits_int_iff z)) by lia. reflexivity.
Qed.

Lemma mul_range : forall a b c d x y, a <= x <= b -> c <= y <= d ->
  Z.min (Z.min (a * c) (a * d)) (Z.min (b * c) (b * d)) <= x * y <=
  Z.max (Z.max (a * c) (a * d)) (Z.max (b * c) (b * d)).
Proof.
  intros a b c d x y Hx Hy.
  assert (L : forall u v w t, u <= w <= v -> Z.min (u * t) (v * t) <= w * t <= Z.max (u * t) (v * t)).
  { intros u v w t H. destruct (Z.le_gt_cases 0 t); [split; [apply Z.min_le_iff; left|apply Z.max_le_iff; right]|
     split; [apply Z.min_le_iff; right|apply Z.max_le_iff; left]]; nia. }
  pose proof (L a b x y Hx) as Q.
  pose proof (L c d y a Hy) as Q1. pose proof (L c d y b Hy) as Q2.
  rewrite (Z.mul_comm c a), (Z.mul_comm d a), (Z.mul_comm y a) in Q1.
  rewrite (Z.mul_comm c b), (Z.mul_comm d b), (Z.mul_comm y b) in Q2. lia.
Qed.

Lemma shiftr_mono : forall a b n, 0 <= n -> a <= b -> Z.shiftr a n <= Z.shiftr b n.
Proof. intros. rewrite !shiftr_div by lia. apply Z.div_le_mono; auto using pow2_pos. Qed.

Lemma iclip_mono : forall a b lo hi, lo <= hi -> a <= b -> iclip a lo hi <= iclip b lo hi.
Proof.
  intros. unfold iclip. destruct (a <? lo) eqn:E1, (hi <? a) eqn:E2, (b <? lo) eqn:E3, (hi <? b) eqn:E4;
  rewrite ?Z.ltb_lt, ?Z.ltb_ge in *; lia.
Qed.

Section Sound.
Variables lo hi : Z.
Hypothesis LH : lo <= hi.

Theorem interval_sound : forall fn a1 a2 a1',
  Forall2 (ro (idom lo hi) (cint lo hi) (fun _ _ => inI) tt tt) a1 a2 ->
  run (idom lo hi) fn a1 tt = Ok (tt, a1') ->
  exists a2', run_c lo hi fn a2 = Ok a2' /\
              Forall2 (ro (idom lo hi) (cint lo hi) (fun _ _ => inI) tt tt) a1' a2'.
Proof.
  intros fn a1 a2 a1' R H.
  assert (KT : forall a b c d, keeps (idom lo hi) (cint lo hi) (fun _ _ => True) (fun _ _ => inI) a b c d)
    by (intros; split; auto).
  destruct (run_sim (idom lo hi) (cint lo hi) (fun _ _ => True) (fun _ _ => inI)) with (fn := fn) (a1 := a1) (a2 := a2) (s1 := tt) (s2 := tt) (s1' := tt) (a1' := a1') as ([] & a2' & E & _ & RR); auto.
  - intros s1 s2 z _ s1' v1 E. destruct (ivl_op_sound _ z _ _ E) as [Q1 Q2]; [split; cbn; lia|].
    exists tt, z. cbn. rewrite Q1. auto.
  - intros s1 s2 a b x y _ Ha Hb s1' v1 E. destruct (ivl_op_sound _ (x + y) _ _ E) as [Q1 Q2]; [unfold inI in *; cbn; lia|].
    exists tt, (x + y). cbn. rewrite Q1. auto.
  - intros s1 s2 a b x y _ Ha Hb s1' v1 E. destruct (ivl_op_sound _ (x - y) _ _ E) as [Q1 Q2]; [unfold inI in *; cbn; lia|].
    exists tt, (x - y). cbn. rewrite Q1. auto.
  - intros s1 s2 a b x y _ Ha Hb s1' v1 E. destruct (ivl_op_sound _ (x * y) _ _ E) as [Q1 Q2].
    + unfold inI in *. cbn. apply mul_range; auto.
    + exists tt, (x * y). cbn. rewrite Q1. auto.
  - intros s1 s2 a x n _ Ha s1' v1 E. cbn in E. cbn. destruct (_ && _) eqn:N; [|discriminate]. injection E as <- <-.
    exists tt, (Z.shiftr x n). apply andb_true_iff in N as [N _]. apply Z.leb_le in N.
    split; auto. split; auto. destruct Ha. split; cbn; apply shiftr_mono; auto.
  - intros s1 s2 a x _ Ha s1' v1 E. destruct (ivl_op_sound _ (- x) _ _ E) as [Q1 Q2]; [unfold inI in *; cbn; lia|].
    exists tt, (- x). cbn. rewrite Q1. auto.
  - intros s1 s2 a x _ [H1 H2] s1' v1 E. cbn in E. injection E as <- <-. exists tt, (iclip x lo hi). cbn.
    split; auto. split; auto. split; cbn; apply iclip_mono; auto.
  - exists a2'. split; auto. unfold run_c. cbn in E. rewrite E. reflexivity.
Qed.
End Sound.

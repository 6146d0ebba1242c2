(** The neighbours used by overlapped motion compensation do not reach beyond the block: blocks are at multiples of
    their sizes and do not overlap. *)
From Coq Require Import ZArith List Bool Lia.
From Verif Require Import Base.CInt Mc.ObmcModel Mc.Obmc.
From Verif Require Mc.ObmcSpec.
Import ListNotations.
Open Scope Z_scope.

(** [size c] is the size of the block at c, of the blocks along one side of ours at [lo, hi) *)
Definition tiled (size : Z -> Z) (lo hi : Z) : Prop :=
  (forall c, lo <= c < hi -> size c = 1 \/ obmc_size (size c)) /\
  (forall c c', lo <= c < hi -> lo <= c' < hi -> c' / size c = c / size c -> size c' = size c).

Fixpoint scan (lim end_ : Z) (inter : Z -> bool) (size : Z -> Z) (fuel : nat) (n x : Z) : list Z :=
  match fuel with
  | O => []
  | S fuel => if (n <? lim) && (x <? end_) then
      if inter (Z.lor x 1) then x :: scan lim end_ inter size fuel (n + 1) (x + ObmcSpec.step4 (size (Z.lor x 1)))
      else scan lim end_ inter size fuel n (x + ObmcSpec.step4 (size (Z.lor x 1)))
    else []
  end.
Section Fit.
Variables (size : Z -> Z) (inter : Z -> bool) (lim lo n4 hi : Z).
Hypothesis N4 : obmc_size n4.
Hypothesis LO : 0 <= lo /\ lo mod n4 = 0.
Hypothesis HI : hi mod 2 = 0.
Let end_ := Z.min hi (lo + n4).
Hypothesis T : tiled size lo end_.
Definition at_start (x : Z) : Prop := let s := ObmcSpec.step4 (size (x + 1)) in x mod s = 0 \/ (x = lo /\ n4 <= s).
Lemma step_cases : forall n, n = 1 \/ obmc_size n -> ObmcSpec.step4 n = (if n =? 1 then 2 else if n =? 32 then 16 else n).
Proof. intros n H. destruct H as [->|[->|[->|[->|[->| ->]]]]]; reflexivity. Qed.
Lemma pow_dvd : forall a b x, obmc_size a -> obmc_size b -> a <= b -> x mod b = 0 -> x mod a = 0.
Proof. intros a b x [->|[->|[->|[->| ->]]]] [->|[->|[->|[->| ->]]]] L H; lia. Qed.
Lemma size_step : forall n, n = 1 \/ obmc_size n -> obmc_size (ObmcSpec.step4 n) /\ ObmcSpec.step4 n <= 16.
Proof. intros n H. unfold obmc_size. destruct H as [->|[->|[->|[->|[->| ->]]]]]; vm_compute; (split; [tauto|intro; discriminate]). Qed.
Lemma fit_here : forall x, at_start x -> lo <= x < end_ -> x mod 2 = 0 -> x - lo + Z.min (ObmcSpec.step4 (size (x + 1))) n4 <= n4.
Proof.
  intros x A Hx E. destruct A as [A|(-> & A)]; [|lia]. unfold end_ in *.
  assert (EN : x + 1 < Z.min hi (lo + n4)) by (destruct LO as (_ & L); pose proof (pow_dvd 2 n4 lo (or_introl eq_refl) N4 ltac:(destruct N4 as [->|[->|[->|[->| ->]]]]; lia) L); pose proof (pow_dvd 2 n4 n4 (or_introl eq_refl) N4 ltac:(destruct N4 as [->|[->|[->|[->| ->]]]]; lia) ltac:(destruct N4 as [->|[->|[->|[->| ->]]]]; reflexivity)); lia).
  destruct (size_step _ (proj1 T (x + 1) ltac:(unfold end_; lia))) as (S1 & S2). generalize dependent (ObmcSpec.step4 (size (x + 1))). intros s A S1 S2. destruct LO as (L0 & L). clear T EN HI.
  assert (Hx' : lo <= x < lo + n4) by lia. clear Hx end_.
  destruct N4 as [->|[->|[->|[->| ->]]]]; destruct S1 as [->|[->|[->|[->| ->]]]]; lia.
Qed.
Lemma end_even : end_ mod 2 = 0.
Proof.
  unfold end_. assert ((lo + n4) mod 2 = 0) by (destruct LO as (_ & L); destruct N4 as [->|[->|[->|[->| ->]]]]; lia).
  destruct (Z.min_spec hi (lo + n4)) as [(_ & ->)|(_ & ->)]; assumption.
Qed.
Lemma next_start : forall x, at_start x -> lo <= x < end_ -> x mod 2 = 0 -> x + ObmcSpec.step4 (size (x + 1)) < end_ -> at_start (x + ObmcSpec.step4 (size (x + 1))).
Proof.
  intros x A Hx E Hn. pose proof end_even as EE.
  assert (X1 : lo <= x + 1 < end_) by lia. destruct (size_step _ (proj1 T _ X1)) as (S1 & S2).
  set (s := ObmcSpec.step4 (size (x + 1))) in *.
  assert (Es : s mod 2 = 0) by (clear - S1; destruct S1 as [->|[->|[->|[->| ->]]]]; reflexivity).
  assert (A' : x mod s = 0).
  { destruct A as [A|(-> & A)]; [exact A|]. exfalso. fold s in A. unfold end_ in Hn. lia. }
  assert (P2 : 2 <= s) by (clear - S1; destruct S1 as [->|[->|[->|[->| ->]]]]; lia).
  set (y := x + s) in *. assert (Y1 : lo <= y + 1 < end_) by (subst y; lia). assert (Y2 : lo <= y - 1 < end_) by (subst y; lia).
  left. pose proof (proj1 T _ X1) as CW. pose proof (proj1 T _ Y1) as CV.
  pose proof (step_cases _ CW) as ES. fold s in ES. rewrite (step_cases _ CV).
  pose proof (proj2 T (x + 1) (y - 1) X1 Y2) as Q1. pose proof (proj2 T (y + 1) (y - 1) Y1 Y2) as Q2.
  set (W := size (x + 1)) in *. set (V := size (y + 1)) in *. set (U := size (y - 1)) in *. clearbody W V U s. subst y. clear - CW CV ES Q1 Q2 A' E.
  destruct CW as [->|[->|[->|[->|[->| ->]]]]]; destruct CV as [->|[->|[->|[->|[->| ->]]]]]; cbn [Z.eqb Pos.eqb] in *; subst s; lia.
Qed.
Lemma scan_fits : forall fuel n x, at_start x \/ end_ <= x -> lo <= x -> x mod 2 = 0 ->
  Forall (fun x => x - lo + Z.min (ObmcSpec.step4 (size (Z.lor x 1))) n4 <= n4) (scan lim end_ inter size fuel n x).
Proof.
  induction fuel as [|fuel IH]; intros n x A Hx E; cbn [scan]; [constructor|]. destruct (n <? lim); [|constructor]. destruct (Z.ltb_spec x end_) as [L|L]; cbn [andb]; [|constructor].
  destruct A as [A|A]; [|lia]. assert (EX : Z.lor x 1 = x + 1) by (destruct LO; apply lor_1; [lia|apply Z.even_spec; rewrite Zeven_mod, E; reflexivity]). rewrite EX.
  assert (X1 : lo <= x + 1 < end_) by (pose proof end_even; lia). destruct (size_step _ (proj1 T _ X1)) as (S1 & S2).
  assert (NX : at_start (x + ObmcSpec.step4 (size (x + 1))) \/ end_ <= x + ObmcSpec.step4 (size (x + 1))).
  { destruct (Z.lt_ge_cases (x + ObmcSpec.step4 (size (x + 1))) end_) as [C|C]; [left; apply next_start; try assumption; lia|right; exact C]. }
  assert (N2 : lo <= x + ObmcSpec.step4 (size (x + 1)) /\ (x + ObmcSpec.step4 (size (x + 1))) mod 2 = 0) by (clear - S1 Hx E; destruct S1 as [->|[->|[->|[->| ->]]]]; lia).
  destruct (inter (x + 1)); [constructor; [rewrite EX; apply fit_here; try assumption; lia|]|]; apply IH; tauto.
Qed.
Lemma all_fit : lo < hi -> forall fuel, Forall (fun x => x - lo + Z.min (ObmcSpec.step4 (size (Z.lor x 1))) n4 <= n4) (scan lim end_ inter size fuel 0 lo).
Proof.
  intros L fuel. apply scan_fits; [|lia|destruct LO as (_ & Q); apply (pow_dvd 2 n4); [left; reflexivity|exact N4|pose proof (size_1 _ N4); destruct N4; lia|exact Q]].
  left. assert (X1 : lo <= lo + 1 < end_).
  { pose proof end_even. assert (lo mod 2 = 0) by (destruct LO as (_ & Q); apply (pow_dvd 2 n4); [left; reflexivity|exact N4|destruct N4; lia|exact Q]). assert (lo < end_) by (pose proof (size_1 _ N4); unfold end_; lia). lia. }
  destruct (size_step _ (proj1 T _ X1)) as (S1 & S2). unfold at_start. destruct (Z.le_gt_cases n4 (ObmcSpec.step4 (size (lo + 1)))) as [C|C]; [right; split; [reflexivity|exact C]|left].
  apply (pow_dvd _ n4); [exact S1|exact N4|lia|apply LO].
Qed.
End Fit.
Lemma above_scan : forall MiCols MiRow MiCol bw4 l R W fuel n x, ObmcSpec.above MiCols MiRow MiCol bw4 l R W fuel n x =
  scan (Z.min 4 l) (Z.min MiCols (MiCol + bw4)) (fun c => 0 <? R (MiRow - 1) c) (fun c => W (MiRow - 1) c) fuel n x.
Proof. intros MiCols MiRow MiCol bw4 l R W. induction fuel as [|fuel IH]; intros n x; cbn [ObmcSpec.above scan]; [reflexivity|]. rewrite !IH. reflexivity. Qed.
Lemma left_scan : forall MiRows MiRow MiCol bh4 l R H fuel n y, ObmcSpec.left MiRows MiRow MiCol bh4 l R H fuel n y =
  scan (Z.min 4 l) (Z.min MiRows (MiRow + bh4)) (fun r => 0 <? R r (MiCol - 1)) (fun r => H r (MiCol - 1)) fuel n y.
Proof. intros MiRows MiRow MiCol bh4 l R H. induction fuel as [|fuel IH]; intros n x; cbn [ObmcSpec.left scan]; [reflexivity|]. rewrite !IH. reflexivity. Qed.

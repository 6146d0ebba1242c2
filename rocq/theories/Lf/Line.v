(** One line of samples across an edge is filtered as in the specification. *)
From Coq Require Import ZArith List Bool Lia Btauto.
From Verif Require Import Base.CInt Base.Lemmas Base.Loop Mc.Kernel Lf.Model.
From Verif Require Lf.Spec.
Import ListNotations.
Open Scope Z_scope.
Local Open Scope outcome_scope.

Lemma bd_cases : forall bd, depth bd -> (bd = 8 /\ 2 ^ bd = 256 /\ 2 ^ (bd - 8) = 1 /\ 2 ^ (bd - 1) = 128) \/ (bd = 10 /\ 2 ^ bd = 1024 /\ 2 ^ (bd - 8) = 4 /\ 2 ^ (bd - 1) = 512) \/ (bd = 12 /\ 2 ^ bd = 4096 /\ 2 ^ (bd - 8) = 16 /\ 2 ^ (bd - 1) = 2048).
Proof. intros bd [->|[->| ->]]; cbn; lia. Qed.
Lemma px_id : forall bd v, depth bd -> pixel bd v -> px bd v = v.
Proof.
  intros bd v H P. unfold px, pixel, u8, u16 in *. destruct (bd_cases bd H) as [(-> & E & _)|[(-> & E & _)|(-> & E & _)]]; rewrite E in P; cbn [Z.eqb Pos.eqb]; apply Z.mod_small;
    [change (2 ^ 8) with 256|change (2 ^ 16) with 65536|change (2 ^ 16) with 65536]; lia.
Qed.
Lemma pixel_max : forall bd v, depth bd -> pixel bd v -> 0 <= v <= 4095.
Proof. intros bd v H P. unfold pixel in P. destruct (bd_cases bd H) as [(_ & E & _)|[(_ & E & _)|(_ & E & _)]]; rewrite E in P; lia. Qed.

(** The planes seen along lines across the edges *)
Definition lk (hor : bool) (d : plane) (a b : Z) : option Z := if hor then d a b else d b a.
Definition setl (hor : bool) (d : plane) (a b v : Z) : plane := if hor then set2 d a b v else set2 d b a v.
Definition yof (hor : bool) (a b : Z) : Z := if hor then a else b.
Definition xof (hor : bool) (a b : Z) : Z := if hor then b else a.
Definition repr (hor : bool) (A B : Z) (d : plane) (v : Z -> Z -> Z) : Prop :=
  forall a b, 0 <= a < A -> 0 <= b < B -> lk hor d a b = Some (v a b).
Lemma lk_setl : forall hor d a b v a' b', lk hor (setl hor d a b v) a' b' = if (a' =? a) && (b' =? b) then Some v else lk hor d a' b'.
Proof. intros [|] d a b v a' b'; unfold lk, setl, set2; [reflexivity|]. rewrite andb_comm. reflexivity. Qed.

(** ** The specification on explicit samples *)
Ltac norm_args F := repeat match goal with |- context [F ?e] => let v := eval vm_compute in e in progress change (F e) with (F v) end.
Ltac norm_taps := repeat match goal with |- context [if Z.abs ?e <=? ?n then 2 else 1] => let v := eval vm_compute in (if Z.abs e <=? n then 2 else 1) in change (if Z.abs e <=? n then 2 else 1) with v end.
Ltac norm_wide F := unfold Spec.wide, Spec.Round2; cbn [Z.eqb Pos.eqb andb Z.opp Z.leb Z.ltb Z.compare Pos.compare Pos.compare_cont CompOpp];
  match goal with |- context [zfor ?a ?b ?f 0] => let n := eval vm_compute in (Z.to_nat (b - a)) in change (zfor a b f 0) with (ziter n a f 0) end; cbn [ziter]; norm_args F; norm_taps.

Section Wide.
Variable F : Z -> Z.
Notation p6 := (F (-7)). Notation p5 := (F (-6)). Notation p4 := (F (-5)). Notation p3 := (F (-4)). Notation p2 := (F (-3)). Notation p1 := (F (-2)). Notation p0 := (F (-1)).
Notation q0 := (F 0). Notation q1 := (F 1). Notation q2 := (F 2). Notation q3 := (F 3). Notation q4 := (F 4). Notation q5 := (F 5). Notation q6 := (F 6).
Lemma wide4 : 
  Spec.wide 0 F 4 (-6) = Z.shiftr (p6 + p6 + p6 + p6 + p6 + p6 * 2 + p5 * 2 + p4 * 2 + p3 + p2 + p1 + p0 + q0 + 8) 4 /\
  Spec.wide 0 F 4 (-5) = Z.shiftr (p6 + p6 + p6 + p6 + p6 + p5 * 2 + p4 * 2 + p3 * 2 + p2 + p1 + p0 + q0 + q1 + 8) 4 /\
  Spec.wide 0 F 4 (-4) = Z.shiftr (p6 + p6 + p6 + p6 + p5 + p4 * 2 + p3 * 2 + p2 * 2 + p1 + p0 + q0 + q1 + q2 + 8) 4 /\
  Spec.wide 0 F 4 (-3) = Z.shiftr (p6 + p6 + p6 + p5 + p4 + p3 * 2 + p2 * 2 + p1 * 2 + p0 + q0 + q1 + q2 + q3 + 8) 4 /\
  Spec.wide 0 F 4 (-2) = Z.shiftr (p6 + p6 + p5 + p4 + p3 + p2 * 2 + p1 * 2 + p0 * 2 + q0 + q1 + q2 + q3 + q4 + 8) 4 /\
  Spec.wide 0 F 4 (-1) = Z.shiftr (p6 + p5 + p4 + p3 + p2 + p1 * 2 + p0 * 2 + q0 * 2 + q1 + q2 + q3 + q4 + q5 + 8) 4 /\
  Spec.wide 0 F 4 0 = Z.shiftr (p5 + p4 + p3 + p2 + p1 + p0 * 2 + q0 * 2 + q1 * 2 + q2 + q3 + q4 + q5 + q6 + 8) 4 /\
  Spec.wide 0 F 4 1 = Z.shiftr (p4 + p3 + p2 + p1 + p0 + q0 * 2 + q1 * 2 + q2 * 2 + q3 + q4 + q5 + q6 + q6 + 8) 4 /\
  Spec.wide 0 F 4 2 = Z.shiftr (p3 + p2 + p1 + p0 + q0 + q1 * 2 + q2 * 2 + q3 * 2 + q4 + q5 + q6 + q6 + q6 + 8) 4 /\
  Spec.wide 0 F 4 3 = Z.shiftr (p2 + p1 + p0 + q0 + q1 + q2 * 2 + q3 * 2 + q4 * 2 + q5 + q6 + q6 + q6 + q6 + 8) 4 /\
  Spec.wide 0 F 4 4 = Z.shiftr (p1 + p0 + q0 + q1 + q2 + q3 * 2 + q4 * 2 + q5 * 2 + q6 + q6 + q6 + q6 + q6 + 8) 4 /\
  Spec.wide 0 F 4 5 = Z.shiftr (p0 + q0 + q1 + q2 + q3 + q4 * 2 + q5 * 2 + q6 * 2 + q6 + q6 + q6 + q6 + q6 + 8) 4.
Proof. repeat split; norm_wide F; rewrite Z.shiftr_div_pow2 by lia; change (2 ^ 4) with 16; change (16 / 2) with 8; f_equal; ring. Qed.
Lemma wide3 :
  Spec.wide 0 F 3 (-3) = Z.shiftr (p3 + p3 + p3 + 2 * p2 + p1 + p0 + q0 + 4) 3 /\
  Spec.wide 0 F 3 (-2) = Z.shiftr (p3 + p3 + p2 + 2 * p1 + p0 + q0 + q1 + 4) 3 /\
  Spec.wide 0 F 3 (-1) = Z.shiftr (p3 + p2 + p1 + 2 * p0 + q0 + q1 + q2 + 4) 3 /\
  Spec.wide 0 F 3 0 = Z.shiftr (p2 + p1 + p0 + 2 * q0 + q1 + q2 + q3 + 4) 3 /\
  Spec.wide 0 F 3 1 = Z.shiftr (p1 + p0 + q0 + 2 * q1 + q2 + q3 + q3 + 4) 3 /\
  Spec.wide 0 F 3 2 = Z.shiftr (p0 + q0 + q1 + 2 * q2 + q3 + q3 + q3 + 4) 3.
Proof. repeat split; norm_wide F; rewrite Z.shiftr_div_pow2 by lia; change (2 ^ 3) with 8; change (8 / 2) with 4; f_equal; ring. Qed.
Lemma wide3c : forall pl, pl <> 0 ->
  Spec.wide pl F 3 (-2) = Z.shiftr (p2 + 2 * p2 + 2 * p1 + 2 * p0 + q0 + 4) 3 /\
  Spec.wide pl F 3 (-1) = Z.shiftr (p2 + 2 * p1 + 2 * p0 + 2 * q0 + q1 + 4) 3 /\
  Spec.wide pl F 3 0 = Z.shiftr (p1 + 2 * p0 + 2 * q0 + 2 * q1 + q2 + 4) 3 /\
  Spec.wide pl F 3 1 = Z.shiftr (p0 + 2 * q0 + 2 * q1 + 2 * q2 + q2 + 4) 3.
Proof.
  intros pl N. unfold Spec.wide. destruct (Z.eqb_spec pl 0); [contradiction|]. change (Z.eqb 3 4) with false. change (3 =? 3) with true. cbn [andb]. cbv iota zeta.
  repeat split; norm_wide F; rewrite Z.shiftr_div_pow2 by lia; change (2 ^ 3) with 8; change (8 / 2) with 4; f_equal; ring.
Qed.
Lemma wide_out4 : forall i, i < -6 \/ 6 <= i -> Spec.wide 0 F 4 i = F i.
Proof. intros i H. unfold Spec.wide. cbn [Z.eqb Pos.eqb]. destruct (Z.leb_spec (- (6)) i), (Z.ltb_spec i 6); try reflexivity; lia. Qed.
Lemma wide_out3 : forall i, i < -3 \/ 3 <= i -> Spec.wide 0 F 3 i = F i.
Proof. intros i H. unfold Spec.wide. cbn [Z.eqb Pos.eqb]. destruct (Z.leb_spec (- (3)) i), (Z.ltb_spec i 3); try reflexivity; lia. Qed.
Lemma wide_out3c : forall pl i, pl <> 0 -> i < -2 \/ 2 <= i -> Spec.wide pl F 3 i = F i.
Proof.
  intros pl i N H. unfold Spec.wide. destruct (Z.eqb_spec pl 0); [contradiction|]. change (Z.eqb 3 4) with false. cbn [Z.eqb Pos.eqb].
  destruct (Z.leb_spec (- (2)) i), (Z.ltb_spec i 2); try reflexivity; lia.
Qed.
End Wide.

(** ** The narrow filter *)
Section Narrow.
Variables (bd lvl : Z) (F : Z -> Z).
Hypothesis Hd : depth bd.
Hypothesis HF : forall i, -2 <= i <= 1 -> pixel bd (F i).
Notation p1 := (F (-2)). Notation p0 := (F (-1)). Notation q0 := (F 0). Notation q1 := (F 1).
Notation hi := (128 * 2 ^ (bd - 8) - 1).
Notation clampd v := (iclip v (-128 * 2 ^ (bd - 8)) hi).
Definition nf (hev : bool) : Z := clampd (3 * (q0 - p0) + if hev then clampd (p1 - q1) else 0).
Definition nf1 (hev : bool) : Z := Z.shiftr (Z.min (nf hev + 4) hi) 3.
Definition nf2 (hev : bool) : Z := Z.shiftr (Z.min (nf hev + 3) hi) 3.
Lemma clampd_eq : forall v, clampd v = Spec.filter4_clamp bd v.
Proof.
  intros v. unfold iclip, Spec.filter4_clamp, Spec.Clip3. rewrite Z.gtb_ltb. destruct (bd_cases bd Hd) as [(_ & _ & E1 & E2)|[(_ & _ & E1 & E2)|(_ & _ & E1 & E2)]]; rewrite E1, E2; reflexivity.
Qed.
Lemma nf_range : forall h, - 2 ^ (bd - 1) <= nf h <= 2 ^ (bd - 1) - 1.
Proof.
  intros h. unfold nf. generalize (3 * (q0 - p0) + if h then clampd (p1 - q1) else 0). intros v. unfold iclip.
  destruct (bd_cases bd Hd) as [(_ & _ & E1 & E2)|[(_ & _ & E1 & E2)|(_ & _ & E1 & E2)]]; rewrite E1, E2; repeat match goal with |- context [?a <? ?b] => destruct (Z.ltb_spec a b) end; lia.
Qed.
Lemma min_clamp : forall h k, 0 <= k -> Z.min (nf h + k) hi = Spec.filter4_clamp bd (nf h + k).
Proof.
  intros h k K. pose proof (nf_range h) as R. unfold Spec.filter4_clamp, Spec.Clip3. rewrite Z.gtb_ltb.
  destruct (bd_cases bd Hd) as [(_ & _ & E1 & E2)|[(_ & _ & E1 & E2)|(_ & _ & E1 & E2)]]; rewrite E2 in *; rewrite E1; repeat match goal with |- context [?a <? ?b] => destruct (Z.ltb_spec a b) end; lia.
Qed.
Lemma clip_eq : forall x v, x = v + 128 * 2 ^ (bd - 8) -> Spec.filter4_clamp bd v + 128 * 2 ^ (bd - 8) = clip_pixel bd x.
Proof.
  intros x v ->. unfold clip_pixel, iclip, Spec.filter4_clamp, Spec.Clip3. rewrite Z.gtb_ltb.
  destruct (bd_cases bd Hd) as [(_ & E0 & E1 & E2)|[(_ & E0 & E1 & E2)|(_ & E0 & E1 & E2)]]; rewrite E0, E1, E2; repeat match goal with |- context [?a <? ?b] => destruct (Z.ltb_spec a b) end; lia.
Qed.
Lemma clip_px : forall v, pixel bd (clip_pixel bd v).
Proof.
  intros v. unfold clip_pixel, iclip, pixel. destruct (bd_cases bd Hd) as [(_ & E0 & _)|[(_ & E0 & _)|(_ & E0 & _)]]; rewrite E0; repeat match goal with |- context [?a <? ?b] => destruct (Z.ltb_spec a b) end; lia.
Qed.
Notation hev := (Spec.hevMask bd lvl F).
Lemma narrow_eq : forall i, Spec.narrow bd lvl F i =
  if i =? 0 then clip_pixel bd (q0 - nf1 hev) else if i =? -1 then clip_pixel bd (p0 + nf2 hev)
  else if hev then F i else if i =? 1 then clip_pixel bd (q1 - Z.shiftr (nf1 hev + 1) 1) else if i =? -2 then clip_pixel bd (p1 + Z.shiftr (nf1 hev + 1) 1) else F i.
Proof.
  intros i. unfold Spec.narrow. cbv zeta. unfold Spec.p, Spec.q. change (-1 - 1) with (-2). change (-1 - 0) with (-1).
  set (mid := 128 * 2 ^ (bd - 8)) in *.
  assert (N : Spec.filter4_clamp bd ((if hev then Spec.filter4_clamp bd (p1 - mid - (q1 - mid)) else 0) + 3 * (q0 - mid - (p0 - mid))) = nf hev).
  { unfold nf. rewrite !clampd_eq. f_equal. replace (p1 - mid - (q1 - mid)) with (p1 - q1) by lia. replace (q0 - mid - (p0 - mid)) with (q0 - p0) by lia. apply Z.add_comm. }
  rewrite N.
  assert (N1 : Spec.filter4_clamp bd (nf hev + 4) / 8 = nf1 hev) by (unfold nf1; rewrite min_clamp by lia; rewrite Z.shiftr_div_pow2 by lia; reflexivity).
  assert (N2 : Spec.filter4_clamp bd (nf hev + 3) / 8 = nf2 hev) by (unfold nf2; rewrite min_clamp by lia; rewrite Z.shiftr_div_pow2 by lia; reflexivity).
  rewrite N1, N2. unfold Spec.Round2. change (2 ^ 1) with 2. change (2 / 2) with 1. rewrite Z.shiftr_div_pow2 by lia. change (2 ^ 1) with 2.
  repeat rewrite (clip_eq (q0 - nf1 hev)) by (unfold mid; lia). rewrite (clip_eq (p0 + nf2 hev)) by (unfold mid; lia).
  rewrite (clip_eq (q1 - (nf1 hev + 1) / 2)) by (unfold mid; lia). rewrite (clip_eq (p1 + (nf1 hev + 1) / 2)) by (unfold mid; lia). reflexivity.
Qed.
End Narrow.

(** ** One line *)
(** The size of the filter in dav1d and the number of samples that are read on each side *)
Definition width (plane fs : Z) : Z := if fs =? 4 then 4 else if plane =? 0 then fs else 6.
Definition reach (plane fs : Z) : Z := if fs =? 4 then 2 else if negb (plane =? 0) then 3 else if fs =? 8 then 4 else 7.
Definition fsize (plane fs : Z) : Prop := fs = 4 \/ fs = 8 \/ fs = 16 /\ plane = 0.

Lemma above_leb : forall t a b, Spec.above t a b = negb (Z.abs (a - b) <=? t).
Proof. intros t a b. unfold Spec.above. rewrite Z.gtb_ltb, Z.leb_antisym, negb_involutive. reflexivity. Qed.
Lemma gtb_leb : forall a b, (a >? b) = negb (a <=? b).
Proof. intros a b. rewrite Z.gtb_ltb, Z.leb_antisym, negb_involutive. reflexivity. Qed.

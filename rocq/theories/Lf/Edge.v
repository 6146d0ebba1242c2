(** Lines across an edge: lf_line and loop_filter. *)
From Coq Require Import ZArith List Bool Lia Btauto.
From Verif Require Import Base.CInt Base.Lemmas Base.Loop Mc.Kernel Lf.Model Lf.Line.
From Verif Require Lf.Spec.
Import ListNotations.
Open Scope Z_scope.
Local Open Scope outcome_scope.

Lemma mean_px : forall bd s n, depth bd -> (n = 3 \/ n = 4) -> 0 <= s -> s <= 2 ^ n * (2 ^ bd - 1) + 2 ^ (n - 1) -> pixel bd (Z.shiftr s n) /\ INT_MIN <= s <= INT_MAX.
Proof.
  intros bd s n Hd Hn H0 H1. unfold pixel, INT_MIN, INT_MAX. destruct (bd_cases bd Hd) as [(_ & E & _)|[(_ & E & _)|(_ & E & _)]]; rewrite E in *;
  (destruct Hn as [-> | ->]; rewrite Z.shiftr_div_pow2 by lia; [change (2 ^ 3) with 8 in *; change (2 ^ (3 - 1)) with 4 in *|change (2 ^ 4) with 16 in *; change (2 ^ (4 - 1)) with 8 in *]);
  (split; [split; [apply Z.div_pos; lia|apply Z.lt_succ_r; apply Z.div_lt_upper_bound; lia]|lia]).
Qed.
Lemma clip_pix : forall bd v, depth bd -> pixel bd (clip_pixel bd v).
Proof.
  intros bd v Hd. unfold clip_pixel, iclip, pixel. destruct (bd_cases bd Hd) as [(_ & E0 & _)|[(_ & E0 & _)|(_ & E0 & _)]]; rewrite E0; repeat match goal with |- context [?a <? ?b] => destruct (Z.ltb_spec a b) end; lia.
Qed.
Lemma eqb_shift : forall b i k, (b + i =? b + k) = (i =? k).
Proof. intros b i k. destruct (Z.eqb_spec (b + i) (b + k)), (Z.eqb_spec i k); try reflexivity; lia. Qed.

Section Line.
Variables (bd rows cols : Z) (hor : bool) (v : Z -> Z -> Z) (d : plane) (a b : Z).
Notation A := (if hor then rows else cols). Notation B := (if hor then cols else rows).
Hypothesis Hd : depth bd.
Hypothesis HR : repr hor A B d v.
Hypothesis Hp : forall a b, 0 <= a < A -> 0 <= b < B -> pixel bd (v a b).
Hypothesis Ha : 0 <= a < A.
Notation F := (fun i => v a (b + i)).
Notation Y := (yof hor a b). Notation X := (xof hor a b).

Lemma rdk_ok : forall k, 0 <= b + k < B -> rdk rows cols hor d Y X k = Ok (v a (b + k)).
Proof. intros k Hk. pose proof (HR a (b + k) Ha Hk) as E. unfold rdk, yof, xof, lk in *. destruct hor; apply rd2_ok; try assumption; lia. Qed.
Lemma wrk_ok : forall k w d', 0 <= b + k < B -> pixel bd w -> wrk bd rows cols hor Y X k w d' = Ok (setl hor d' a (b + k) w).
Proof. intros k w d' Hk P. unfold wrk, yof, xof, setl in *. rewrite px_id by assumption. destruct hor; apply wr2_ok; lia. Qed.
Lemma avg_ok : forall k s n d', 0 <= b + k < B -> (n = 3 \/ n = 4) -> 0 <= s -> s <= 2 ^ n * (2 ^ bd - 1) + 2 ^ (n - 1) ->
  avg bd rows cols hor Y X k s n d' = Ok (setl hor d' a (b + k) (Z.shiftr s n)).
Proof.
  intros k s n d' Hk Hn H0 H1. destruct (mean_px bd s n Hd Hn H0 H1) as [P I]. unfold avg. rewrite ck_ok by exact I. cbn [obind]. apply wrk_ok; assumption.
Qed.
Lemma pix : forall k, 0 <= b + k < B -> 0 <= v a (b + k) <= 2 ^ bd - 1.
Proof. intros k Hk. exact (Hp a (b + k) Ha Hk). Qed.

Variables (pl fs sharp lvl : Z).
Notation sf := (Spec.sample_filter bd pl fs sharp lvl F).
Notation out := (fun a' b' => if a' =? a then sf (b' - b) else v a' b').
Hypothesis Hlo : reach pl fs <= b.
Hypothesis Hhi : b + reach pl fs <= B.
Notation run := (lf_line bd rows cols hor (Spec.scaled bd (Spec.blimit sharp lvl)) (Spec.scaled bd (Spec.limit sharp lvl)) (Spec.scaled bd (Spec.thresh lvl)) (width pl fs) Y X d).

Lemma repr_id : (forall i, sf i = F i) -> repr hor A B d out.
Proof.
  intros E a' b' H1 H2. cbv beta. destruct (Z.eqb_spec a' a) as [->|]; [|apply HR; assumption]. rewrite E. replace (b + (b' - b)) with b' by lia. apply HR; assumption.
Qed.
(** Samples that were written one by one *)
Lemma repr_set : forall d', (forall i, 0 <= b + i < B -> lk hor d' a (b + i) = Some (sf i)) -> (forall a' b', a' <> a -> lk hor d' a' b' = lk hor d a' b') -> repr hor A B d' out.
Proof.
  intros d' E1 E2 a' b' H1 H2. cbv beta. destruct (Z.eqb_spec a' a) as [->|N].
  - replace b' with (b + (b' - b)) at 1 by lia. apply E1. lia.
  - rewrite E2 by exact N. apply HR; assumption.
Qed.
Ltac chain := match goal with |- forall a' b', a' <> a -> _ => let a' := fresh in let b' := fresh in let NE := fresh in intros a' b' NE; repeat rewrite lk_setl; destruct (Z.eqb_spec a' a); [contradiction|]; cbn [andb]; reflexivity end.
Ltac outside i Q := repeat match goal with |- context [i =? ?c] => let e := fresh in destruct (Z.eqb_spec i c) as [e|_]; [exfalso; clear - Q e; lia|] end.

Lemma narrow_out : (forall i, -2 <= i <= 1 -> 0 <= b + i < B) -> (forall i, sf i = Spec.narrow bd lvl F i) ->
  let p1 := F (-2) in let p0 := F (-1) in let q0 := F 0 in let q1 := F 1 in
  let H := Spec.scaled bd (Spec.thresh lvl) in
  exists d', (let hev := (Z.abs (p1 - p0) >? H) || (Z.abs (q1 - q0) >? H) in
  let iclip_diff v := iclip v (-128 * 2 ^ (bd - 8)) (128 * 2 ^ (bd - 8) - 1) in
  if hev then
    let f := iclip_diff (p1 - q1) in
    let f := iclip_diff (3 * (q0 - p0) + f) in
    let f1 := Z.shiftr (Z.min (f + 4) (128 * 2 ^ (bd - 8) - 1)) 3 in
    let f2 := Z.shiftr (Z.min (f + 3) (128 * 2 ^ (bd - 8) - 1)) 3 in
    let! d := wrk bd rows cols hor Y X (-1) (clip_pixel bd (p0 + f2)) d in
    wrk bd rows cols hor Y X 0 (clip_pixel bd (q0 - f1)) d
  else
    let f := iclip_diff (3 * (q0 - p0)) in
    let f1 := Z.shiftr (Z.min (f + 4) (128 * 2 ^ (bd - 8) - 1)) 3 in
    let f2 := Z.shiftr (Z.min (f + 3) (128 * 2 ^ (bd - 8) - 1)) 3 in
    let! d := wrk bd rows cols hor Y X (-1) (clip_pixel bd (p0 + f2)) d in
    let! d := wrk bd rows cols hor Y X 0 (clip_pixel bd (q0 - f1)) d in
    let f := Z.shiftr (f1 + 1) 1 in
    let! d := wrk bd rows cols hor Y X (-2) (clip_pixel bd (p1 + f)) d in
    wrk bd rows cols hor Y X 1 (clip_pixel bd (q1 - f)) d) = Ok d' /\ repr hor A B d' out.
Proof.
  intros HB HS p1 p0 q0 q1 H. cbv zeta.
  assert (HP : forall i, -2 <= i <= 1 -> pixel bd (F i)) by (intros i Hi; apply Hp; [exact Ha|apply HB; exact Hi]).
  pose proof (fun i => eq_trans (HS i) (narrow_eq bd lvl F Hd HP i)) as HN. clear HS HP. cbv beta in HN.
  change ((Z.abs (p1 - p0) >? H) || (Z.abs (q1 - q0) >? H)) with (Spec.hevMask bd lvl F).
  pose proof (fun v => clip_pix bd v Hd) as CP. set (hv := Spec.hevMask bd lvl F) in *. destruct hv.
  - rewrite (wrk_ok (-1)) by (try apply HB; try apply CP; lia). cbn [obind]. rewrite (wrk_ok 0) by (try apply HB; try apply CP; lia).
    eexists. split; [reflexivity|]. apply repr_set; [|chain]. intros i Hi. rewrite HN. repeat rewrite lk_setl. rewrite !Z.eqb_refl, !eqb_shift. cbn [andb].
    destruct (Z.eqb_spec i 0); [reflexivity|]. destruct (Z.eqb_spec i (-1)); [reflexivity|]. apply HR; assumption.
  - rewrite (wrk_ok (-1)) by (try apply HB; try apply CP; lia). cbn [obind]. rewrite (wrk_ok 0) by (try apply HB; try apply CP; lia). cbn [obind].
    rewrite (wrk_ok (-2)) by (try apply HB; try apply CP; lia). cbn [obind]. rewrite (wrk_ok 1) by (try apply HB; try apply CP; lia).
    eexists. split; [reflexivity|]. apply repr_set; [|chain]. intros i Hi. rewrite HN. repeat rewrite lk_setl. rewrite !Z.eqb_refl, !eqb_shift. cbn [andb].
    unfold nf2, nf1, nf. rewrite (Z.add_0_r (3 * (v a (b + 0) - v a (b + -1)))). unfold p1, p0, q0, q1.
    destruct (Z.eqb_spec i 0) as [->|]; [reflexivity|]. destruct (Z.eqb_spec i (-1)) as [->|]; [reflexivity|]. destruct (Z.eqb_spec i 1) as [->|]; [reflexivity|]. destruct (Z.eqb_spec i (-2)) as [->|]; [reflexivity|]. apply HR; assumption.
Qed.

Ltac reads l := match l with ?k :: ?t => rewrite ?(rdk_ok k) by lia; reads t | _ => cbn [obind] end.
Ltac pixs l := match l with ?k :: ?t => let P := fresh "P" in pose proof (pix k ltac:(lia)) as P; pixs t | _ => idtac end.
Ltac splitneg := rewrite ?above_leb, ?gtb_leb, ?negb_orb, ?negb_involutive.
Lemma line4 : fs = 4 -> exists d', run = Ok d' /\ repr hor A B d' out.
Proof.
  intros E. assert (HB : forall i, -2 <= i <= 1 -> 0 <= b + i < B) by (unfold reach in *; rewrite E in *; cbn [Z.eqb Pos.eqb] in *; lia).
  assert (W : width pl fs = 4) by (unfold width; rewrite E; reflexivity). rewrite W. unfold lf_line. cbv zeta.
  change (4 <? 4) with false. change (16 <=? 4) with false. change (8 <=? 4) with false. change (6 <=? 4) with false. change (4 =? 6) with false. cbn [andb]. cbv iota.
  pose proof (HB (-2) ltac:(lia)). pose proof (HB (-1) ltac:(lia)). pose proof (HB 0 ltac:(lia)). pose proof (HB 1 ltac:(lia)).
  reads [-2; -1; 0; 1].
  assert (FM : (Z.abs (v a (b + -2) - v a (b + -1)) <=? Spec.scaled bd (Spec.limit sharp lvl)) && (Z.abs (v a (b + 1) - v a (b + 0)) <=? Spec.scaled bd (Spec.limit sharp lvl)) &&
    (Z.abs (v a (b + -1) - v a (b + 0)) * 2 + Z.shiftr (Z.abs (v a (b + -2) - v a (b + 1))) 1 <=? Spec.scaled bd (Spec.blimit sharp lvl)) = Spec.filterMask bd pl fs sharp lvl F).
  { rewrite Z.shiftr_div_pow2 by lia. change (2 ^ 1) with 2. unfold Spec.filterMask, Spec.filterLen. rewrite E. change (4 =? 4) with true. cbv iota zeta. change (4 >=? 6) with false. change (4 >=? 8) with false. cbn [andb].
    unfold Spec.p, Spec.q. change (-1 - 1) with (-2). change (-1 - 0) with (-1). splitneg. cbn [negb]. btauto. }
  rewrite FM. destruct (Spec.filterMask bd pl fs sharp lvl F) eqn:G; cbn [negb].
  - apply narrow_out; [exact HB|]. intros i. unfold Spec.sample_filter. rewrite G, E. reflexivity.
  - exists d. split; [reflexivity|]. apply repr_id. intros i. unfold Spec.sample_filter. rewrite G. reflexivity.
Qed.

Ltac wr k := rewrite (avg_ok k) by (change (2 ^ 3) with 8 in *; change (2 ^ 4) with 16 in *; change (2 ^ (3 - 1)) with 4 in *; change (2 ^ (4 - 1)) with 8 in *; lia); cbn [obind].
Ltac same := repeat rewrite lk_setl; rewrite !Z.eqb_refl, !eqb_shift; cbn [andb Z.eqb Pos.eqb].
Lemma line6 : pl <> 0 -> fs = 8 -> exists d', run = Ok d' /\ repr hor A B d' out.
Proof.
  intros N E. assert (HB : forall i, -3 <= i <= 2 -> 0 <= b + i < B) by (unfold reach in *; rewrite E in *; destruct (Z.eqb_spec pl 0); [contradiction|]; cbn [Z.eqb Pos.eqb negb] in *; lia).
  assert (W : width pl fs = 6) by (unfold width; rewrite E; destruct (Z.eqb_spec pl 0); [contradiction|reflexivity]). rewrite W. unfold lf_line. cbv zeta.
  change (4 <? 6) with true. change (6 <? 6) with false. change (16 <=? 6) with false. change (8 <=? 6) with false. change (6 <=? 6) with true. change (6 =? 6) with true. cbn [andb]. cbv iota.
  pose proof (HB (-3) ltac:(lia)). pose proof (HB (-2) ltac:(lia)). pose proof (HB (-1) ltac:(lia)). pose proof (HB 0 ltac:(lia)). pose proof (HB 1 ltac:(lia)). pose proof (HB 2 ltac:(lia)).
  reads [-3; -2; -1; 0; 1; 2].
  match goal with |- context [if negb ?c then _ else _] => assert (FM : c = Spec.filterMask bd pl fs sharp lvl F) end.
  { rewrite Z.shiftr_div_pow2 by lia. change (2 ^ 1) with 2. unfold Spec.filterMask, Spec.filterLen. rewrite E. destruct (Z.eqb_spec pl 0); [contradiction|]. change (8 =? 4) with false. cbn [negb]. cbv iota zeta. change (6 >=? 6) with true. change (6 >=? 8) with false. cbn [andb].
    unfold Spec.p, Spec.q. change (-1 - 1) with (-2). change (-1 - 0) with (-1). change (-1 - 2) with (-3). splitneg. cbn [negb]. btauto. }
  rewrite FM. destruct (Spec.filterMask bd pl fs sharp lvl F) eqn:G; cbn [negb].
  2: { exists d. split; [reflexivity|]. apply repr_id. intros i. unfold Spec.sample_filter. rewrite G. reflexivity. }
  match goal with |- context [if ?c then obind _ _ else _] => assert (FL : c = Spec.flatMask bd pl fs F) end.
  { unfold Spec.flatMask, Spec.filterLen. rewrite E. destruct (Z.eqb_spec pl 0); [contradiction|]. change (8 =? 4) with false. cbn [negb]. cbv iota zeta. change (8 >=? 8) with true. change (6 >=? 8) with false. cbn [andb].
    unfold Spec.p, Spec.q. change (-1 - 1) with (-2). change (-1 - 0) with (-1). change (-1 - 2) with (-3). splitneg. cbn [negb]. unfold Spec.scaled. rewrite Z.mul_1_l. btauto. }
  rewrite FL. destruct (Spec.flatMask bd pl fs F) eqn:GF.
  - assert (SF : forall i, sf i = Spec.wide pl F 3 i) by (intros i; unfold Spec.sample_filter; rewrite G, GF, E; reflexivity).
    clear FM FL G GF. pixs [-3; -2; -1; 0; 1; 2]. 
    wr (-2). wr (-1). wr 0. wr 1. destruct (wide3c F pl N) as (E1 & E2 & E3 & E4). cbv beta in *. eexists. split; [reflexivity|]. apply repr_set; [|chain]. intros i Hi. rewrite SF.
    assert (Q : i = -2 \/ i = -1 \/ i = 0 \/ i = 1 \/ (i < -2 \/ 2 <= i)) by lia. destruct Q as [-> |[-> |[-> |[-> |Q]]]]; [same; rewrite ?E1, ?E2, ?E3, ?E4; reflexivity..|].
    rewrite (wide_out3c F pl i N Q). repeat rewrite lk_setl; rewrite !Z.eqb_refl, !eqb_shift; cbn [andb]. outside i Q. apply HR; assumption.
  - apply narrow_out; [intros i Hi; apply HB; lia|]. intros i. unfold Spec.sample_filter. rewrite G, GF. cbn [negb orb]. rewrite orb_true_r. reflexivity.
Qed.

Lemma line8 : pl = 0 -> fs = 8 -> exists d', run = Ok d' /\ repr hor A B d' out.
Proof.
  intros N E. assert (HB : forall i, -4 <= i <= 3 -> 0 <= b + i < B) by (unfold reach in *; rewrite E, N in *; cbn [Z.eqb Pos.eqb negb] in *; lia).
  assert (W : width pl fs = 8) by (unfold width; rewrite E, N; reflexivity). rewrite W. unfold lf_line. cbv zeta.
  change (4 <? 8) with true. change (6 <? 8) with true. change (16 <=? 8) with false. change (8 <=? 8) with true. change (6 <=? 8) with true. change (8 =? 6) with false. cbn [andb]. cbv iota.
  pose proof (HB (-4) ltac:(lia)). pose proof (HB (-3) ltac:(lia)). pose proof (HB (-2) ltac:(lia)). pose proof (HB (-1) ltac:(lia)). pose proof (HB 0 ltac:(lia)). pose proof (HB 1 ltac:(lia)). pose proof (HB 2 ltac:(lia)). pose proof (HB 3 ltac:(lia)).
  reads [-4; -3; -2; -1; 0; 1; 2; 3].
  match goal with |- context [if negb ?c then _ else _] => assert (FM : c = Spec.filterMask bd pl fs sharp lvl F) end.
  { rewrite Z.shiftr_div_pow2 by lia. change (2 ^ 1) with 2. unfold Spec.filterMask, Spec.filterLen. rewrite E, N. change (8 =? 4) with false. change (0 =? 0) with true. change (8 =? 8) with true. cbn [negb]. cbv iota zeta. change (8 >=? 6) with true. change (8 >=? 8) with true. cbn [andb].
    unfold Spec.p, Spec.q. change (-1 - 1) with (-2). change (-1 - 0) with (-1). change (-1 - 2) with (-3). change (-1 - 3) with (-4). splitneg. btauto. }
  rewrite FM. destruct (Spec.filterMask bd pl fs sharp lvl F) eqn:G; cbn [negb].
  2: { exists d. split; [reflexivity|]. apply repr_id. intros i. unfold Spec.sample_filter. rewrite G. reflexivity. }
  match goal with |- context [if ?c then obind _ _ else _] => assert (FL : c = Spec.flatMask bd pl fs F) end.
  { unfold Spec.flatMask, Spec.filterLen. rewrite E, N. change (8 =? 4) with false. change (0 =? 0) with true. change (8 =? 8) with true. cbn [negb]. cbv iota zeta. change (8 >=? 8) with true. cbn [andb].
    unfold Spec.p, Spec.q. change (-1 - 1) with (-2). change (-1 - 0) with (-1). change (-1 - 2) with (-3). change (-1 - 3) with (-4). splitneg. unfold Spec.scaled. rewrite Z.mul_1_l. btauto. }
  rewrite FL. destruct (Spec.flatMask bd pl fs F) eqn:GF.
  - assert (SF : forall i, sf i = Spec.wide 0 F 3 i) by (intros i; unfold Spec.sample_filter; rewrite G, GF, E, N; reflexivity).
    clear FM FL G GF. pixs [-4; -3; -2; -1; 0; 1; 2; 3].
    wr (-3). wr (-2). wr (-1). wr 0. wr 1. wr 2. destruct (wide3 F) as (E1 & E2 & E3 & E4 & E5 & E6). cbv beta in *. eexists. split; [reflexivity|]. apply repr_set; [|chain]. intros i Hi. rewrite SF.
    assert (Q : i = -3 \/ i = -2 \/ i = -1 \/ i = 0 \/ i = 1 \/ i = 2 \/ (i < -3 \/ 3 <= i)) by lia. destruct Q as [-> |[-> |[-> |[-> |[-> |[-> |Q]]]]]]; [same; rewrite ?E1, ?E2, ?E3, ?E4, ?E5, ?E6; reflexivity..|].
    rewrite (wide_out3 F i Q). repeat rewrite lk_setl; rewrite !Z.eqb_refl, !eqb_shift; cbn [andb]. outside i Q. apply HR; assumption.
  - cbn [obind]. apply narrow_out; [intros i Hi; apply HB; lia|]. intros i. unfold Spec.sample_filter. rewrite G, GF. cbn [negb orb]. rewrite orb_true_r. reflexivity.
Qed.

Lemma line16 : pl = 0 -> fs = 16 -> exists d', run = Ok d' /\ repr hor A B d' out.
Proof.
  intros N E. assert (HB : forall i, -7 <= i <= 6 -> 0 <= b + i < B) by (unfold reach in *; rewrite E, N in *; cbn [Z.eqb Pos.eqb negb] in *; lia).
  assert (W : width pl fs = 16) by (unfold width; rewrite E, N; reflexivity). rewrite W. unfold lf_line. cbv zeta.
  change (4 <? 16) with true. change (6 <? 16) with true. change (16 <=? 16) with true. change (8 <=? 16) with true. change (6 <=? 16) with true. change (16 =? 6) with false. cbn [andb]. cbv iota.
  pose proof (HB (-7) ltac:(lia)). pose proof (HB (-6) ltac:(lia)). pose proof (HB (-5) ltac:(lia)). pose proof (HB (-4) ltac:(lia)). pose proof (HB (-3) ltac:(lia)). pose proof (HB (-2) ltac:(lia)). pose proof (HB (-1) ltac:(lia)).
  pose proof (HB 0 ltac:(lia)). pose proof (HB 1 ltac:(lia)). pose proof (HB 2 ltac:(lia)). pose proof (HB 3 ltac:(lia)). pose proof (HB 4 ltac:(lia)). pose proof (HB 5 ltac:(lia)). pose proof (HB 6 ltac:(lia)).
  reads [-7; -6; -5; -4; -3; -2; -1; 0; 1; 2; 3; 4; 5; 6].
  match goal with |- context [if negb ?c then _ else _] => assert (FM : c = Spec.filterMask bd pl fs sharp lvl F) end.
  { rewrite Z.shiftr_div_pow2 by lia. change (2 ^ 1) with 2. unfold Spec.filterMask, Spec.filterLen. rewrite E, N. change (16 =? 4) with false. change (0 =? 0) with true. change (16 =? 8) with false. cbn [negb]. cbv iota zeta. change (16 >=? 6) with true. change (16 >=? 8) with true. cbn [andb].
    unfold Spec.p, Spec.q. change (-1 - 1) with (-2). change (-1 - 0) with (-1). change (-1 - 2) with (-3). change (-1 - 3) with (-4). splitneg. btauto. }
  rewrite FM. destruct (Spec.filterMask bd pl fs sharp lvl F) eqn:G; cbn [negb].
  2: { exists d. split; [reflexivity|]. apply repr_id. intros i. unfold Spec.sample_filter. rewrite G. reflexivity. }
  match goal with |- context [if ?o && ?c then obind _ _ else _] => assert (FL : c = Spec.flatMask bd pl fs F); [|assert (FO : o = Spec.flatMask2 bd fs F)] end.
  { unfold Spec.flatMask, Spec.filterLen. rewrite E, N. change (16 =? 4) with false. change (0 =? 0) with true. change (16 =? 8) with false. cbn [negb]. cbv iota zeta. change (16 >=? 8) with true. cbn [andb].
    unfold Spec.p, Spec.q. change (-1 - 1) with (-2). change (-1 - 0) with (-1). change (-1 - 2) with (-3). change (-1 - 3) with (-4). splitneg. unfold Spec.scaled. rewrite Z.mul_1_l. btauto. }
  { unfold Spec.flatMask2. rewrite E. cbv zeta. change (16 >=? 16) with true. cbn [andb].
    unfold Spec.p, Spec.q. change (-1 - 0) with (-1). change (-1 - 4) with (-5). change (-1 - 5) with (-6). change (-1 - 6) with (-7). splitneg. unfold Spec.scaled. rewrite Z.mul_1_l. btauto. }
  rewrite FL, FO. destruct (Spec.flatMask bd pl fs F) eqn:GF; [|rewrite andb_false_r; apply narrow_out; [intros i Hi; apply HB; lia|]; intros i; unfold Spec.sample_filter; rewrite G, GF; cbn [negb orb]; rewrite orb_true_r; reflexivity].
  clear FM FL FO.
  destruct (Spec.flatMask2 bd fs F) eqn:GO; cbn [andb].
  - assert (SF : forall i, sf i = Spec.wide 0 F 4 i) by (intros i; unfold Spec.sample_filter; rewrite G, GF, GO, E, N; reflexivity).
    clear G GF GO. pixs [-7; -6; -5; -4; -3; -2; -1; 0; 1; 2; 3; 4; 5; 6].
    wr (-6). wr (-5). wr (-4). wr (-3). wr (-2). wr (-1). wr 0. wr 1. wr 2. wr 3. wr 4. wr 5.
    destruct (wide4 F) as (E1 & E2 & E3 & E4 & E5 & E6 & E7 & E8 & E9 & E10 & E11 & E12). cbv beta in *. eexists. split; [reflexivity|]. apply repr_set; [|chain]. intros i Hi. rewrite SF.
    assert (Q : i = -6 \/ i = -5 \/ i = -4 \/ i = -3 \/ i = -2 \/ i = -1 \/ i = 0 \/ i = 1 \/ i = 2 \/ i = 3 \/ i = 4 \/ i = 5 \/ (i < -6 \/ 6 <= i)) by lia.
    destruct Q as [-> |[-> |[-> |[-> |[-> |[-> |[-> |[-> |[-> |[-> |[-> |[-> |Q]]]]]]]]]]]]; [same; rewrite ?E1, ?E2, ?E3, ?E4, ?E5, ?E6, ?E7, ?E8, ?E9, ?E10, ?E11, ?E12; reflexivity..|].
    rewrite (wide_out4 F i Q). repeat rewrite lk_setl; rewrite !Z.eqb_refl, !eqb_shift; cbn [andb]. outside i Q. apply HR; assumption.
  - assert (SF : forall i, sf i = Spec.wide 0 F 3 i) by (intros i; unfold Spec.sample_filter; rewrite G, GF, GO, E, N; reflexivity).
    clear G GF GO. pixs [-4; -3; -2; -1; 0; 1; 2; 3].
    wr (-3). wr (-2). wr (-1). wr 0. wr 1. wr 2. destruct (wide3 F) as (E1 & E2 & E3 & E4 & E5 & E6). cbv beta in *. eexists. split; [reflexivity|]. apply repr_set; [|chain]. intros i Hi. rewrite SF.
    assert (Q : i = -3 \/ i = -2 \/ i = -1 \/ i = 0 \/ i = 1 \/ i = 2 \/ (i < -3 \/ 3 <= i)) by lia. destruct Q as [-> |[-> |[-> |[-> |[-> |[-> |Q]]]]]]; [same; rewrite ?E1, ?E2, ?E3, ?E4, ?E5, ?E6; reflexivity..|].
    rewrite (wide_out3 F i Q). repeat rewrite lk_setl; rewrite !Z.eqb_refl, !eqb_shift; cbn [andb]. outside i Q. apply HR; assumption.
Qed.
Lemma line_ok : fsize pl fs -> exists d', run = Ok d' /\ repr hor A B d' out.
Proof.
  intros [E|[E|[E N]]]; [apply line4; exact E| |apply line16; assumption]. destruct (Z.eq_dec pl 0) as [N|N]; [apply line8; assumption|apply line6; assumption].
Qed.

(** The results are pixels. *)
Ltac cell P := first [rewrite P; apply mean_px; [exact Hd|lia|lia|change (2 ^ 3) with 8; change (2 ^ 4) with 16; change (2 ^ (3 - 1)) with 4; change (2 ^ (4 - 1)) with 8; lia]].
Lemma wide3_pixel : pl = 0 -> 4 <= b -> b + 4 <= B -> forall i, 0 <= b + i < B -> pixel bd (Spec.wide 0 F 3 i).
Proof.
  intros N H1 H2 i Hi. pixs [-4; -3; -2; -1; 0; 1; 2; 3]. destruct (wide3 F) as (E1 & E2 & E3 & E4 & E5 & E6). cbv beta in *.
  assert (Q : i = -3 \/ i = -2 \/ i = -1 \/ i = 0 \/ i = 1 \/ i = 2 \/ (i < -3 \/ 3 <= i)) by lia.
  destruct Q as [-> |[-> |[-> |[-> |[-> |[-> |Q]]]]]]; [rewrite E1|rewrite E2|rewrite E3|rewrite E4|rewrite E5|rewrite E6|rewrite (wide_out3 F i Q); apply Hp; assumption]; clear E1 E2 E3 E4 E5 E6;
  (apply mean_px; [exact Hd|lia|lia|change (2 ^ 3) with 8; change (2 ^ (3 - 1)) with 4; lia]).
Qed.
Lemma wide3c_pixel : pl <> 0 -> 3 <= b -> b + 3 <= B -> forall i, 0 <= b + i < B -> pixel bd (Spec.wide pl F 3 i).
Proof.
  intros N H1 H2 i Hi. pixs [-3; -2; -1; 0; 1; 2]. destruct (wide3c F pl N) as (E1 & E2 & E3 & E4). cbv beta in *.
  assert (Q : i = -2 \/ i = -1 \/ i = 0 \/ i = 1 \/ (i < -2 \/ 2 <= i)) by lia.
  destruct Q as [-> |[-> |[-> |[-> |Q]]]]; [rewrite E1|rewrite E2|rewrite E3|rewrite E4|rewrite (wide_out3c F pl i N Q); apply Hp; assumption]; clear E1 E2 E3 E4;
  (apply mean_px; [exact Hd|lia|lia|change (2 ^ 3) with 8; change (2 ^ (3 - 1)) with 4; lia]).
Qed.
Lemma wide4_pixel : 7 <= b -> b + 7 <= B -> forall i, 0 <= b + i < B -> pixel bd (Spec.wide 0 F 4 i).
Proof.
  intros H1 H2 i Hi. pixs [-7; -6; -5; -4; -3; -2; -1; 0; 1; 2; 3; 4; 5; 6]. destruct (wide4 F) as (E1 & E2 & E3 & E4 & E5 & E6 & E7 & E8 & E9 & E10 & E11 & E12). cbv beta in *.
  assert (Q : i = -6 \/ i = -5 \/ i = -4 \/ i = -3 \/ i = -2 \/ i = -1 \/ i = 0 \/ i = 1 \/ i = 2 \/ i = 3 \/ i = 4 \/ i = 5 \/ (i < -6 \/ 6 <= i)) by lia.
  destruct Q as [-> |[-> |[-> |[-> |[-> |[-> |[-> |[-> |[-> |[-> |[-> |[-> |Q]]]]]]]]]]]];
    [rewrite E1|rewrite E2|rewrite E3|rewrite E4|rewrite E5|rewrite E6|rewrite E7|rewrite E8|rewrite E9|rewrite E10|rewrite E11|rewrite E12|rewrite (wide_out4 F i Q); apply Hp; assumption]; clear E1 E2 E3 E4 E5 E6 E7 E8 E9 E10 E11 E12;
  (apply mean_px; [exact Hd|lia|lia|change (2 ^ 4) with 16; change (2 ^ (4 - 1)) with 8; lia]).
Qed.
Lemma sf_pixel : fsize pl fs -> forall i, 0 <= b + i < B -> pixel bd (sf i).
Proof.
  intros FS i Hi. pose proof (Hp a (b + i) Ha Hi) as P. assert (HB : 2 <= b /\ b + 2 <= B) by (unfold reach in *; destruct (fs =? 4), (negb (pl =? 0)), (fs =? 8); lia).
  assert (PN : pixel bd (Spec.narrow bd lvl F i)).
  { assert (HP : forall i, -2 <= i <= 1 -> pixel bd (F i)) by (intros j Hj; apply Hp; [exact Ha|lia]). rewrite (narrow_eq bd lvl F Hd HP i).
    repeat match goal with |- pixel _ (if ?c then _ else _) => destruct c end; try apply clip_pix; assumption. }
  unfold Spec.sample_filter. destruct (Spec.filterMask _ _ _ _ _ _); cbn [negb]; [|exact P].
  destruct (Spec.flatMask _ _ _ _); [|rewrite orb_true_r; exact PN]. cbn [negb]. rewrite orb_false_r. unfold reach in *.
  destruct FS as [E|[E|[E N]]]; rewrite E in *; cbn [Z.eqb Pos.eqb orb negb] in *; [exact PN| |].
  - destruct (Z.eqb_spec pl 0) as [N|N]; cbn [negb] in *; [|apply wide3c_pixel; assumption]. rewrite N. apply wide3_pixel; assumption.
  - rewrite N in *. cbn [Z.eqb negb] in *. destruct (Spec.flatMask2 _ _ _); cbn [negb]; [apply wide4_pixel; assumption|]. apply wide3_pixel; [exact N|lia|lia|assumption].
Qed.
End Line.

(** Padding and filtering of a block. *)
From Coq Require Import ZArith List Bool Lia.
From Verif Require Import Base.CInt Base.Lemmas Base.Loop Cdef.Model Cdef.Pixel.
From Verif Require Cdef.Spec.
Import ListNotations.
Open Scope Z_scope.

Definition within (y0 y1 x0 x1 y x : Z) : Prop := y0 <= y < y1 /\ x0 <= x < x1.
Lemma within_dec : forall y0 y1 x0 x1 y x, within y0 y1 x0 x1 y x \/ ~ within y0 y1 x0 x1 y x.
Proof. intros. unfold within. lia. Qed.

(** Updating the cells of a rectangle one after the other. *)
Lemma map_rect : forall h w (f : Z -> Z -> plane -> outcome plane) (u : Z -> Z -> Z) y0 x0 (d0 : plane), 0 <= h -> 0 <= w ->
  (forall y x (d : plane), 0 <= y < h -> 0 <= x < w -> d (y0 + y) (x0 + x) = d0 (y0 + y) (x0 + x) -> f y x d = Ok (set2 d (y0 + y) (x0 + x) (u y x))) ->
  exists d', for_ 0 h (fun y d => for_ 0 w (fun x d => f y x d) d) d0 = Ok d' /\
    (forall y x, 0 <= y < h -> 0 <= x < w -> d' (y0 + y) (x0 + x) = Some (u y x)) /\
    (forall Y X, ~ within y0 (y0 + h) x0 (x0 + w) Y X -> d' Y X = d0 Y X).
Proof.
  intros h w f u y0 x0 d0 Hh Hw H.
  set (Q := fun (y x : Z) (d : plane) => (forall j i, 0 <= i < w -> (0 <= j < y \/ j = y /\ i < x) -> d (y0 + j) (x0 + i) = Some (u j i)) /\
    (forall Y X, ~ (y0 <= Y /\ x0 <= X < x0 + w /\ (Y < y0 + y \/ Y = y0 + y /\ X < x0 + x)) -> d Y X = d0 Y X)).
  destruct (for_inv _ (fun y d => Q y 0 d) (fun y d => for_ 0 w (fun x d => f y x d) d) 0 h d0 Hh) as (d' & E & A & B).
  - split; [intros; lia|reflexivity].
  - intros y d Hy (HA & HB).
    destruct (for_inv _ (fun x d => Q y x d) (fun x d => f y x d) 0 w d Hw) as (d' & E & A & B).
    + split; assumption.
    + intros x e Hx (EA & EB). rewrite (H y x e Hy Hx).
      * eexists. split; [reflexivity|]. split.
        -- intros j i Hi Hj. destruct (Z.eq_dec j y) as [->|]; [destruct (Z.eq_dec i x) as [->|]; [apply set2_same|]|]; (rewrite set2_other by lia; apply EA; lia).
        -- intros Y X N. rewrite set2_other by lia. apply EB. lia.
      * apply EB. lia.
    + exists d'. split; [exact E|]. split.
      * intros j i Hi Hj. apply A; [exact Hi|lia].
      * intros Y X N. apply B. lia.
  - exists d'. split; [exact E|]. split.
    + intros y x Hy Hx. apply A; lia.
    + intros Y X N. apply B. unfold within in N. lia.
Qed.

(** * Padding *)
Lemma cell_inj : forall y x y' x', -2 <= x < 10 -> -2 <= x' < 10 -> cell y x = cell y' x' -> y = y' /\ x = x'.
Proof. intros. unfold cell in *. lia. Qed.
Lemma put_ok : forall y0 y1 x0 x1 g (u : Z -> Z -> Z) a, -2 <= y0 <= y1 -> y1 <= 10 -> -2 <= x0 <= x1 -> x1 <= 10 ->
  (forall y x, within y0 y1 x0 x1 y x -> g y x = Ok (u y x) /\ s16 (u y x) = u y x) ->
  exists a', put y0 y1 x0 x1 g a = Ok a' /\
    (forall y x, within y0 y1 x0 x1 y x -> a' (cell y x) = Some (u y x)) /\
    (forall y x, -2 <= x < 10 -> ~ within y0 y1 x0 x1 y x -> a' (cell y x) = a (cell y x)).
Proof.
  intros y0 y1 x0 x1 g u a L1 L2 L3 L4 H. unfold put, within in *.
  set (Q := fun (y x : Z) (b : arr) => (forall j i, x0 <= i < x1 -> (y0 <= j < y \/ j = y /\ i < x) -> b (cell j i) = Some (u j i)) /\
    (forall j i, -2 <= i < 10 -> ~ (y0 <= j /\ x0 <= i < x1 /\ (j < y \/ j = y /\ i < x)) -> b (cell j i) = a (cell j i))).
  match goal with |- exists a', for_ y0 y1 ?f a = Ok a' /\ _ => destruct (for_inv _ (fun y b => Q y x0 b) f y0 y1 a ltac:(lia)) as (d' & E & A & B) end.
  - split; [intros; lia|reflexivity].
  - intros y d Hy (HA & HB).
    match goal with |- exists s', for_ x0 x1 ?f d = Ok s' /\ _ => destruct (for_inv _ (fun x b => Q y x b) f x0 x1 d ltac:(lia)) as (d' & E & A & B) end.
    + split; assumption.
    + intros x e Hx (EA & EB). destruct (H y x ltac:(lia)) as (G1 & G2). rewrite G1. cbn [obind]. rewrite G2, wr1_ok by (unfold cell; lia).
      eexists. split; [reflexivity|]. unfold set1. split.
      * intros j i Hi Hj. destruct (Z.eqb_spec (cell j i) (cell y x)) as [C|C]; [apply cell_inj in C; [|lia|lia]; destruct C as (-> & ->); reflexivity|].
        apply EA; [exact Hi|]. destruct (Z.eq_dec j y) as [->|]; [destruct (Z.eq_dec i x) as [->|]; [contradiction|lia]|lia].
      * intros j i Hi N. destruct (Z.eqb_spec (cell j i) (cell y x)) as [C|C]; [apply cell_inj in C; [|lia|lia]; lia|]. apply EB; [exact Hi|lia].
    + exists d'. split; [exact E|]. split.
      * intros j i Hi Hj. apply A; [exact Hi|lia].
      * intros j i Hi N. apply B; [exact Hi|lia].
  - exists d'. split; [exact E|]. split.
    + intros y x Hy. apply A; lia.
    + intros j i Hi N. apply B; [exact Hi|lia].
Qed.

Definition missing (w h : Z) (e : edges) (y x : Z) : bool :=
  ((y <? 0) && negb (e_top e)) || ((h <=? y) && negb (e_bottom e)) || ((x <? 0) && negb (e_left e)) || ((w <=? x) && negb (e_right e)).
Lemma s16_small : forall p, -32768 <= p < 4096 -> s16 p = p.
Proof. intros p H. unfold s16. apply sN_id; lia. Qed.

Section Padding.
Variables (src left top bottom : Z -> Z -> outcome Z) (w h : Z) (e : edges) (P : Z -> Z -> Z).
Hypothesis Hw : w = 4 \/ w = 8.
Hypothesis Hh : h = 4 \/ h = 8.
Let xs := if e_left e then -2 else 0.
Let xe := if e_right e then w + 2 else w.
Hypothesis HS : forall y x, 0 <= y < h -> 0 <= x < xe -> src y x = Ok (P y x).
Hypothesis HL : e_left e = true -> forall y x, 0 <= y < h -> -2 <= x < 0 -> left y (2 + x) = Ok (P y x).
Hypothesis HT : e_top e = true -> forall y x, -2 <= y < 0 -> xs <= x < xe -> top (y + 2) x = Ok (P y x).
Hypothesis HB : e_bottom e = true -> forall y x, h <= y < h + 2 -> xs <= x < xe -> bottom (y - h) x = Ok (P y x).
Hypothesis HR : forall y x, -2 <= y < h + 2 -> -2 <= x < w + 2 -> missing w h e y x = false -> 0 <= P y x < 4096.

Ltac miss := unfold missing; repeat match goal with |- context [?a <? ?b] => destruct (Z.ltb_spec a b) | |- context [?a <=? ?b] => destruct (Z.leb_spec a b) end; try lia.
Ltac step E A B := destruct E as (? & E & A & B); rewrite E; cbn [obind].
(** One of the first four steps. *)
Lemma maybe_put : forall (b : bool) y0 y1 x0 x1 a, -2 <= y0 <= y1 -> y1 <= 10 -> -2 <= x0 <= x1 -> x1 <= 10 ->
  exists a', (if b then Ok a else put y0 y1 x0 x1 (fun _ _ => Ok INT16_MIN) a) = Ok a' /\
    (forall y x, b = false -> within y0 y1 x0 x1 y x -> a' (cell y x) = Some INT16_MIN) /\
    (forall y x, -2 <= x < 10 -> (b = true \/ ~ within y0 y1 x0 x1 y x) -> a' (cell y x) = a (cell y x)).
Proof.
  intros b y0 y1 x0 x1 a L1 L2 L3 L4. destruct b.
  - exists a. split; [reflexivity|]. split; [discriminate|reflexivity].
  - destruct (put_ok y0 y1 x0 x1 (fun _ _ => Ok INT16_MIN) (fun _ _ => INT16_MIN) a L1 L2 L3 L4) as (a' & E & A & B).
    + intros. split; reflexivity.
    + exists a'. split; [exact E|]. split; [intros y x _; apply A|intros y x Hx [F|N]; [discriminate|apply B; assumption]].
Qed.
Lemma padding_ok : exists a, padding src left top bottom w h e = Ok a /\
  forall y x, -2 <= y < h + 2 -> -2 <= x < w + 2 -> a (cell y x) = Some (if missing w h e y x then INT16_MIN else P y x).
Proof.
  unfold padding. cbv zeta. fold xs xe.
  set (ys := if e_top e then -2 else 0). set (ye := if e_bottom e then h + 2 else h).
  assert (XS : -2 <= xs <= 0) by (unfold xs; destruct (e_left e); lia). assert (XE : w <= xe <= w + 2) by (unfold xe; destruct (e_right e); lia).
  assert (YS : -2 <= ys <= 0) by (unfold ys; destruct (e_top e); lia). assert (YE : h <= ye <= h + 2) by (unfold ye; destruct (e_bottom e); lia).
  pose proof (maybe_put (e_top e) (-2) 0 (-2) (w + 2) arr0 ltac:(lia) ltac:(lia) ltac:(lia) ltac:(lia)) as (a1 & E1 & A1 & B1). rewrite E1. cbn [obind].
  pose proof (maybe_put (e_bottom e) h (h + 2) (-2) (w + 2) a1 ltac:(lia) ltac:(lia) ltac:(lia) ltac:(lia)) as (a2 & E2 & A2 & B2). rewrite E2. cbn [obind].
  pose proof (maybe_put (e_left e) ys ye (-2) 0 a2 ltac:(lia) ltac:(lia) ltac:(lia) ltac:(lia)) as (a3 & E3 & A3 & B3). rewrite E3. cbn [obind].
  pose proof (maybe_put (e_right e) ys ye w (w + 2) a3 ltac:(lia) ltac:(lia) ltac:(lia) ltac:(lia)) as (a4 & E4 & A4 & B4). rewrite E4. cbn [obind].
  destruct (put_ok ys 0 xs xe (fun y x => top (y - ys) x) P a4 ltac:(lia) ltac:(lia) ltac:(lia) ltac:(lia)) as (a5 & E5 & A5 & B5).
  { intros y x (Hy & Hx). unfold ys in Hy. destruct (e_top e) eqn:ET; [|lia]. unfold ys. replace (y - -2) with (y + 2) by lia. rewrite HT by (auto; lia). split; [reflexivity|].
    apply s16_small. pose proof (HR y x ltac:(lia) ltac:(lia)) as Q. cut (0 <= P y x < 4096); [lia|]. apply Q. unfold missing. rewrite ET.
    unfold xs, xe in Hx. destruct (e_left e), (e_right e); cbn [negb]; rewrite ?andb_false_r, ?andb_true_r, ?orb_false_r, ?orb_false_l; lia. }
  rewrite E5. cbn [obind].
  destruct (put_ok 0 h xs 0 (fun y x => left y (2 + x)) P a5 ltac:(lia) ltac:(lia) ltac:(lia) ltac:(lia)) as (a6 & E6 & A6 & B6).
  { intros y x (Hy & Hx). unfold xs in Hx. destruct (e_left e) eqn:EL; [|lia]. rewrite HL by (auto; lia). split; [reflexivity|].
    apply s16_small. pose proof (HR y x ltac:(lia) ltac:(lia)) as Q. cut (0 <= P y x < 4096); [lia|]. apply Q. unfold missing. rewrite EL.
    destruct (e_top e), (e_bottom e), (e_right e); cbn [negb]; rewrite ?andb_false_r, ?andb_true_r, ?orb_false_r, ?orb_false_l; lia. }
  rewrite E6. cbn [obind].
  destruct (put_ok 0 h 0 xe src P a6 ltac:(lia) ltac:(lia) ltac:(lia) ltac:(lia)) as (a7 & E7 & A7 & B7).
  { intros y x (Hy & Hx). rewrite HS by (auto; lia). split; [reflexivity|].
    apply s16_small. pose proof (HR y x ltac:(lia) ltac:(lia)) as Q. cut (0 <= P y x < 4096); [lia|]. apply Q. unfold missing. unfold xe in Hx.
    destruct (e_top e), (e_bottom e), (e_left e), (e_right e); cbn [negb]; rewrite ?andb_false_r, ?andb_true_r, ?orb_false_r, ?orb_false_l; lia. }
  rewrite E7. cbn [obind].
  destruct (put_ok h ye xs xe (fun y x => bottom (y - h) x) P a7 ltac:(lia) ltac:(lia) ltac:(lia) ltac:(lia)) as (a8 & E8 & A8 & B8).
  { intros y x (Hy & Hx). unfold ye in Hy. destruct (e_bottom e) eqn:EB; [|lia]. rewrite HB by (auto; lia). split; [reflexivity|].
    apply s16_small. pose proof (HR y x ltac:(lia) ltac:(lia)) as Q. cut (0 <= P y x < 4096); [lia|]. apply Q. unfold missing. rewrite EB.
    unfold xs, xe in Hx. destruct (e_left e), (e_right e); cbn [negb]; rewrite ?andb_false_r, ?andb_true_r, ?orb_false_r, ?orb_false_l; lia. }
  exists a8. split; [exact E8|]. clear E1 E2 E3 E4 E5 E6 E7 E8 HS HL HT HB HR. intros y x Hy Hx.
  assert (X10 : -2 <= x < 10) by lia. unfold within in *.
  assert (M : missing w h e y x = true \/ missing w h e y x = false) by (destruct (missing w h e y x); auto).
  destruct M as [M|M]; rewrite M.
  - (* a missing pixel *)
    assert (D : (y < 0 /\ e_top e = false) \/ (h <= y /\ e_bottom e = false) \/ (x < 0 /\ e_left e = false) \/ (w <= x /\ e_right e = false)).
    { unfold missing in M. rewrite !orb_true_iff, !andb_true_iff, !negb_true_iff, !Z.ltb_lt, !Z.leb_le in M. tauto. }
    clear M A5 A6 A7 A8.
    assert (R : a8 (cell y x) = a4 (cell y x)).
    { destruct D as [(D & F)|[(D & F)|[(D & F)|(D & F)]]].
      - assert (ys = 0) by (unfold ys; rewrite F; reflexivity). rewrite B8, B7, B6, B5 by lia. reflexivity.
      - assert (ye = h) by (unfold ye; rewrite F; reflexivity). rewrite B8, B7, B6, B5 by lia. reflexivity.
      - assert (xs = 0) by (unfold xs; rewrite F; reflexivity). rewrite B8, B7, B6, B5 by lia. reflexivity.
      - assert (xe = w) by (unfold xe; rewrite F; reflexivity). rewrite B8, B7, B6, B5 by lia. reflexivity. }
    rewrite R. clear R B5 B6 B7 B8.
    destruct (e_right e) eqn:FR; [rewrite B4 by auto|destruct (Z.le_gt_cases w x); [destruct (Z.le_gt_cases ys y); [destruct (Z.lt_ge_cases y ye); [apply A4; auto; lia|]|]|]; (rewrite B4 by lia)];
    (destruct (e_left e) eqn:FL; [rewrite B3 by auto|destruct (Z.lt_ge_cases x 0); [destruct (Z.le_gt_cases ys y); [destruct (Z.lt_ge_cases y ye); [apply A3; auto; lia|]|]|]; (rewrite B3 by lia)]);
    (destruct (e_bottom e) eqn:FB; [rewrite B2 by auto|destruct (Z.le_gt_cases h y); [apply A2; auto; lia|rewrite B2 by lia]]);
    (destruct (e_top e) eqn:FT; [|destruct (Z.lt_ge_cases y 0); [apply A1; auto; lia|]]);
    exfalso; unfold ys, ye in *; try rewrite FT in *; try rewrite FB in *; destruct D as [(D & F)|[(D & F)|[(D & F)|(D & F)]]]; try discriminate; lia.
  - assert (D : (y < 0 -> e_top e = true) /\ (h <= y -> e_bottom e = true) /\ (x < 0 -> e_left e = true) /\ (w <= x -> e_right e = true)).
    { unfold missing in M. rewrite !orb_false_iff, !andb_false_iff, !negb_false_iff, !Z.ltb_ge, !Z.leb_gt in M. destruct M as (((M1 & M2) & M3) & M4). repeat split; intros; [destruct M1|destruct M2|destruct M3|destruct M4]; auto; lia. }
    clear M A1 A2 A3 A4 B1 B2 B3 B4. destruct D as (D1 & D2 & D3 & D4).
    assert (I1 : ys <= y) by (unfold ys; destruct (e_top e); [lia|]; destruct (Z.lt_ge_cases y 0); [specialize (D1 ltac:(lia)); discriminate|lia]).
    assert (I2 : y < ye) by (unfold ye; destruct (e_bottom e); [lia|]; destruct (Z.lt_ge_cases y h); [lia|specialize (D2 ltac:(lia)); discriminate]).
    assert (I3 : xs <= x) by (unfold xs; destruct (e_left e); [lia|]; destruct (Z.lt_ge_cases x 0); [specialize (D3 ltac:(lia)); discriminate|lia]).
    assert (I4 : x < xe) by (unfold xe; destruct (e_right e); [lia|]; destruct (Z.lt_ge_cases x w); [lia|specialize (D4 ltac:(lia)); discriminate]).
    destruct (Z.le_gt_cases h y); [apply A8; lia|]. rewrite B8 by lia.
    destruct (Z.lt_ge_cases y 0).
    + rewrite B7, B6 by lia. apply A5. lia.
    + destruct (Z.lt_ge_cases x 0); [rewrite B7 by lia; apply A6; lia|]. apply A7. lia.
Qed.
End Padding.

(** * A block *)
(** Abbreviations, which also hide disjunctions from arithmetic tactics. *)
Definition depth (bd : Z) : Prop := bd = 8 \/ bd = 10 \/ bd = 12.
Definition size48 (w : Z) : Prop := w = 4 \/ w = 8.
Definition bit01 (s : Z) : Prop := s = 0 \/ s = 1.
(** A block from [b], of size [n], in a plane of size [l]. *)
Definition placed (b n l : Z) : Prop := 0 <= b /\ (b = 0 \/ 2 <= b) /\ b + n <= l /\ (b + n = l \/ b + n + 2 <= l).
Lemma placed_bounds : forall b n l, placed b n l -> 0 <= b /\ b + n <= l.
Proof. unfold placed. intros; lia. Qed.
Lemma size48_bounds : forall w, size48 w -> 4 <= w <= 8.
Proof. unfold size48. intros; lia. Qed.
Section FilterBlock.
Variable v : S.frame.
Variable Cur : S.picture.
Let bd := S.BitDepth v.
Hypothesis HB : depth bd.
Variables (pl ph pw w h : Z).
Hypothesis Hw : size48 w.
Hypothesis Hh : size48 h.
(** The size of the plane. *)
Hypothesis HSY : bit01 (S.psubY v pl).
Hypothesis HSX : bit01 (S.psubX v pl).
Hypothesis HPH : ph * 2 ^ S.psubY v pl = 4 * S.MiRows v.
Hypothesis HPW : pw * 2 ^ S.psubX v pl = 4 * S.MiCols v.
Hypothesis HCur : forall y x, 0 <= y < ph -> 0 <= x < pw -> 0 <= Cur pl y x < 2 ^ bd.
Lemma inside_iff : forall y x, S.is_inside_filter_region v ((y * 2 ^ S.psubY v pl) / 4) ((x * 2 ^ S.psubX v pl) / 4) = true <-> 0 <= y < ph /\ 0 <= x < pw.
Proof.
  intros y x. unfold S.is_inside_filter_region. rewrite !andb_true_iff, !Z.leb_le, !Z.ltb_lt.
  assert (A : forall a m n s, s = 0 \/ s = 1 -> n * 2 ^ s = 4 * m -> (0 <= a * 2 ^ s / 4 /\ a * 2 ^ s / 4 < m <-> 0 <= a < n)).
  { clear. intros a m n s [->| ->] E; [change (2 ^ 0) with 1 in *|change (2 ^ 1) with 2 in *]; Z.div_mod_to_equations; lia. }
  pose proof (A y _ _ _ HSY HPH) as Q1. pose proof (A x _ _ _ HSX HPW) as Q2. clear - Q1 Q2. tauto.
Qed.

Variables (rows stride y0 x0 : Z) (left top bottom : Z -> Z -> outcome Z) (pri sec dir damping : Z) (e : edges) (dst : plane).
Hypothesis HRW : ph <= rows.
Hypothesis HST : pw <= stride.
Hypothesis HY0 : placed y0 h ph.
Hypothesis HX0 : placed x0 w pw.
Hypothesis HE : e = mkEdges (0 <? x0) (x0 + w <? pw) (0 <? y0) (y0 + h <? ph).
Let xs := if e_left e then -2 else 0.
Let xe := if e_right e then w + 2 else w.
Hypothesis HS : forall y x, 0 <= y < h -> 0 <= x < xe -> dst (y0 + y) (x0 + x) = Some (Cur pl (y0 + y) (x0 + x)).
Hypothesis HL : e_left e = true -> forall y x, 0 <= y < h -> -2 <= x < 0 -> left y (2 + x) = Ok (Cur pl (y0 + y) (x0 + x)).
Hypothesis HT : e_top e = true -> forall y x, -2 <= y < 0 -> xs <= x < xe -> top (y + 2) x = Ok (Cur pl (y0 + y) (x0 + x)).
Hypothesis HBo : e_bottom e = true -> forall y x, h <= y < h + 2 -> xs <= x < xe -> bottom (y - h) x = Ok (Cur pl (y0 + y) (x0 + x)).
Hypothesis HDir : 0 <= dir < 8.
Hypothesis HD : damping <= 14.
Hypothesis HPri : 0 <= pri <= 4096.
Hypothesis HSec : 0 <= sec <= 4096.
Hypothesis HSS : sec <> 0 -> 0 <= damping - ulog2 sec.
Hypothesis HN : pri <> 0 \/ sec <> 0.

Lemma missing_iff : forall y x, -2 <= y < h + 2 -> -2 <= x < w + 2 -> missing w h e y x = false <-> 0 <= y0 + y < ph /\ 0 <= x0 + x < pw.
Proof.
  intros y x Hy Hx. unfold missing. rewrite HE. cbn [e_left e_right e_top e_bottom].
  rewrite !orb_false_iff, !andb_false_iff, !negb_false_iff, !Z.ltb_ge, !Z.leb_gt, !Z.ltb_lt.
  assert (A : forall a b n l, placed b n l -> -2 <= a < n + 2 ->
    ((0 <= a \/ 0 < b) /\ (a < n \/ b + n < l) <-> 0 <= b + a < l)) by (clear; unfold placed; intros; lia).
  pose proof (A y y0 h ph HY0 Hy) as Q1. pose proof (A x x0 w pw HX0 Hx) as Q2. clear - Q1 Q2. tauto.
Qed.
Lemma pixel_id : forall z, 0 <= z < 2 ^ bd -> pixel bd z = z.
Proof. intros z Hz. unfold pixel, u8, u16. destruct HB as [E|[E|E]]; rewrite E in *; cbn [Z.eqb Pos.eqb]; apply Z.mod_small; lia. Qed.
Notation out y x := (S.filter_pixel v Cur pl (y0 + y) (x0 + x) pri sec damping dir).
Theorem filter_block_ok : exists d', filter_block bd rows stride y0 x0 left top bottom pri sec dir damping w h e dst = Ok d' /\
  (forall y x, 0 <= y < h -> 0 <= x < w -> d' (y0 + y) (x0 + x) = Some (out y x)) /\
  (forall Y X, ~ within y0 (y0 + h) x0 (x0 + w) Y X -> d' Y X = dst Y X).
Proof.
  pose proof (size48_bounds w Hw) as BW. pose proof (size48_bounds h Hh) as BH. pose proof (placed_bounds _ _ _ HY0) as BY. pose proof (placed_bounds _ _ _ HX0) as BX.
  assert (XE : w <= xe <= w + 2 /\ x0 + xe <= pw) by (clear - HE HX0 BW; unfold xe, placed in *; rewrite HE; cbn [e_right]; destruct (Z.ltb_spec (x0 + w) pw); lia).
  unfold filter_block. replace ((w =? 4) || (w =? 8)) with true by (clear - Hw; destruct Hw; subst; reflexivity).
  replace ((h =? 4) || (h =? 8)) with true by (clear - Hh; destruct Hh; subst; reflexivity). cbn [andb].
  destruct (padding_ok (fun y x => rd2 rows stride dst (y0 + y) (x0 + x)) left top bottom w h e (fun y x => Cur pl (y0 + y) (x0 + x)) Hw Hh) as (tmp & EP & HTmp).
  - intros y x Hy Hx. fold xe in Hx. apply rd2_ok; [lia|lia|apply HS; assumption].
  - intros F y x Hy Hx. apply HL; assumption.
  - intros F y x Hy Hx. apply HT; assumption.
  - intros F y x Hy Hx. apply HBo; assumption.
  - intros y x Hy Hx M. apply missing_iff in M; [|assumption|assumption]. pose proof (HCur (y0 + y) (x0 + x) ltac:(lia) ltac:(lia)) as Q.
    destruct HB as [E|[E|E]]; rewrite E in Q; lia.
  - rewrite EP. cbn [obind]. cbv zeta.
    match goal with |- exists d', for_ 0 h (fun y d => for_ 0 w (fun x d1 => @?f y x d1) d) dst = Ok d' /\ _ => apply (map_rect h w f (fun y x => out y x) y0 x0 dst) end; [lia|lia|].
    intros y x d Hy Hx Ed. cbv beta. rewrite HS in Ed by lia. rewrite (rd2_ok rows stride d (y0 + y) (x0 + x) _ ltac:(lia) ltac:(lia) Ed). cbn [obind].
    assert (P1 : 0 <= Cur pl (y0 + y) (x0 + x) < 2 ^ bd) by (apply HCur; lia).
    assert (P2 : forall dy dx, -2 <= dy <= 2 -> -2 <= dx <= 2 -> match nb v Cur pl (y0 + y) (x0 + x) dy dx with Some p => 0 <= p < 2 ^ bd | None => True end).
    { intros dy dx Hdy Hdx. unfold nb. destruct (S.is_inside_filter_region _ _ _) eqn:EI; [|exact I]. apply inside_iff in EI. apply HCur; lia. }
    assert (P3 : forall dy dx, -2 <= dy <= 2 -> -2 <= dx <= 2 -> tmp (cell (y + dy) (x + dx)) = Some (val (nb v Cur pl (y0 + y) (x0 + x) dy dx))).
    { intros dy dx Hdy Hdx. rewrite HTmp by lia. f_equal. unfold nb. replace (y0 + y + dy) with (y0 + (y + dy)) by lia. replace (x0 + x + dx) with (x0 + (x + dx)) by lia.
      pose proof (missing_iff (y + dy) (x + dx) ltac:(lia) ltac:(lia)) as M. pose proof (inside_iff (y0 + (y + dy)) (x0 + (x + dx))) as I.
      destruct (missing w h e (y + dy) (x + dx)), (S.is_inside_filter_region _ _ _); try reflexivity; exfalso.
      - assert (true = false) by (apply M, I; reflexivity). discriminate.
      - assert (false = true) by (apply I, M; reflexivity). discriminate. }
    destruct (pri_tap_eq v pri HB) as (EW & _). fold bd in EW. rewrite EW. fold (shift_of damping pri).
    assert (EV : forall r, r = Ok (out y x) -> (let! v0 := r in wr2 rows stride d (y0 + y) (x0 + x) (pixel bd v0))%outcome = Ok (set2 d (y0 + y) (x0 + x) (out y x))).
    { intros r ->. cbn [obind]. rewrite pixel_id by (unfold bd; eapply result_range; try eassumption; lia). apply wr2_ok; lia. }
    apply EV. destruct (Z.eqb_spec pri 0) as [NP|NP]; cbn [negb].
    + destruct (Z.eqb_spec sec 0) as [NS|NS]; [lia|]. cbn [negb andb]. replace (0 <=? damping - ulog2 sec) with true by (specialize (HSS NS); lia).
      eapply filter_sec_ok; try eassumption; lia.
    + destruct (Z.eqb_spec sec 0) as [NS|NS]; cbn [negb].
      * eapply filter_pri_ok; try eassumption; lia.
      * replace (0 <=? damping - ulog2 sec) with true by (specialize (HSS NS); lia).
        eapply filter_both_ok; try eassumption; lia.
Qed.
End FilterBlock.

(** The least squares solution of dav1d_find_affine_int is that of the warp estimation process; nothing overflows. *)
From Coq Require Import ZArith List Bool Lia Permutation.
From Verif Require Import Base.CInt Base.Loop Base.Lemmas Warp.Model Warp.Shear.
From Verif Require Warp.Spec.
Import ListNotations.
Open Scope Z_scope.
Local Open Scope outcome_scope.

(** * Sums over lists *)
Definition S {A} (f : A -> Z) (l : list A) : Z := fold_right (fun a s => f a + s) 0 l.
Lemma S_perm : forall A (f : A -> Z) l m, Permutation l m -> S f l = S f m.
Proof. intros A f l m P. induction P; cbn [S fold_right]; [reflexivity|fold (S f l) (S f l'); lia|fold (S f l); lia|congruence]. Qed.
Lemma S_nonneg : forall A (f : A -> Z) l, (forall a, In a l -> 0 <= f a) -> 0 <= S f l.
Proof. intros A f. induction l as [|a l IH]; intros H; [cbn; lia|]. change (0 <= f a + S f l). pose proof (H a (or_introl eq_refl)). pose proof (IH (fun b Hb => H b (or_intror Hb))). lia. Qed.
Lemma S_le : forall A (f : A -> Z) c l, (forall a, In a l -> f a <= c) -> S f l <= c * Z.of_nat (length l).
Proof.
  intros A f c. induction l as [|a l IH]; intros H; [cbn; lia|]. change (f a + S f l <= c * Z.of_nat (Datatypes.S (length l))).
  pose proof (H a (or_introl eq_refl)). pose proof (IH (fun b Hb => H b (or_intror Hb))). lia.
Qed.
Lemma abs_of_sq : forall a b, 0 <= b -> a * a <= b * b -> Z.abs a <= b.
Proof. intros. nia. Qed.
Lemma cauchy : forall A (f g : A -> Z) l, S (fun a => f a * g a) l * S (fun a => f a * g a) l <= S (fun a => f a * f a) l * S (fun a => g a * g a) l.
Proof.
  intros A f g. induction l as [|a l IH]; [cbn; lia|].
  change (S (fun a => f a * g a) (a :: l)) with (f a * g a + S (fun a => f a * g a) l).
  change (S (fun a => f a * f a) (a :: l)) with (f a * f a + S (fun a => f a * f a) l).
  change (S (fun a => g a * g a) (a :: l)) with (g a * g a + S (fun a => g a * g a) l).
  pose proof (S_nonneg _ (fun a => f a * f a) l (fun a _ => Z.square_nonneg (f a))) as X0.
  pose proof (S_nonneg _ (fun a => g a * g a) l (fun a _ => Z.square_nonneg (g a))) as Y0.
  set (c := S (fun a => f a * g a) l) in *. set (X := S (fun a => f a * f a) l) in *. set (Y := S (fun a => g a * g a) l) in *. clearbody c X Y.
  generalize (f a) (g a). clear - IH X0 Y0. intros x y.
  assert (K : 2 * c * x * y <= X * (y * y) + Y * (x * x)); [|nia].
  assert (p0 : 0 <= X * (y * y)) by (apply Z.mul_nonneg_nonneg; [assumption|apply Z.square_nonneg]).
  assert (q0 : 0 <= Y * (x * x)) by (apply Z.mul_nonneg_nonneg; [assumption|apply Z.square_nonneg]).
  assert (Q : (2 * c * x * y) * (2 * c * x * y) <= (X * (y * y) + Y * (x * x)) * (X * (y * y) + Y * (x * x))).
  { assert (c * c * ((x * x) * (y * y)) <= X * Y * ((x * x) * (y * y))).
    { apply Z.mul_le_mono_nonneg_r; [|exact IH]. apply Z.mul_nonneg_nonneg; apply Z.square_nonneg. }
    assert (0 <= (X * (y * y) - Y * (x * x)) * (X * (y * y) - Y * (x * x))) by apply Z.square_nonneg. lia. }
  pose proof (abs_of_sq _ _ (Z.add_nonneg_nonneg _ _ p0 q0) Q). lia.
Qed.

(** * The regularised normal equations *)
Section Normal.
Variables (A : Type) (U V d : A -> Z) (l : list A).
Let n := Z.of_nat (length l).
Let P := S (fun a => U a * U a) l.
Let Q := S (fun a => U a * V a) l.
Let R := S (fun a => V a * V a) l.
Hypothesis D256 : forall a, In a l -> -256 < d a < 256.
Definition Det := (P + n) * (R + n) - Q * Q.
Lemma S_lin : forall (f g : A -> Z) x y m, S (fun a => x * f a + y * g a) m = x * S f m + y * S g m.
Proof. intros f g x y. induction m as [|a m IH]; [cbn; lia|]. change (x * f a + y * g a + S (fun a => x * f a + y * g a) m = x * (f a + S f m) + y * (g a + S g m)). rewrite IH. lia. Qed.
Lemma S_ext : forall (f g : A -> Z) m, (forall a, f a = g a) -> S f m = S g m.
Proof. intros f g m E. induction m as [|a m IH]; [reflexivity|]. change (f a + S f m = g a + S g m). rewrite E, IH. reflexivity. Qed.
Lemma P0 : 0 <= P. Proof. apply S_nonneg. intros. apply Z.square_nonneg. Qed.
Lemma R0 : 0 <= R. Proof. apply S_nonneg. intros. apply Z.square_nonneg. Qed.
Lemma QQ : Q * Q <= P * R. Proof. apply cauchy. Qed.
Lemma det_ge : n * (P + R) + n * n <= Det.
Proof. pose proof QQ. unfold Det. nia. Qed.
Lemma solve_bound : Z.abs ((R + n) * S (fun a => U a * d a) l - Q * S (fun a => V a * d a) l) <= 256 * Det.
Proof.
  assert (N : 0 <= n) by (unfold n; lia). pose proof P0. pose proof R0. pose proof QQ. pose proof det_ge.
  set (c := fun a => (R + n) * U a + - Q * V a).
  assert (E : (R + n) * S (fun a => U a * d a) l - Q * S (fun a => V a * d a) l = S (fun a => c a * d a) l).
  { rewrite (S_ext (fun a => c a * d a) (fun a => (R + n) * (U a * d a) + - Q * (V a * d a))) by (intros; unfold c; lia). rewrite S_lin. lia. }
  rewrite E. pose proof (cauchy _ c d l) as CS.
  assert (SD : S (fun a => d a * d a) l <= 65536 * n) by (apply S_le; intros a Ha; pose proof (D256 a Ha); nia).
  assert (SC : S (fun a => c a * c a) l = (R + n) * Det - n * ((R + n) * (R + n)) - n * (Q * Q)).
  { rewrite (S_ext (fun a => c a * c a) (fun a => 1 * ((R + n) * (R + n) * (U a * U a) + - (2 * (R + n) * Q) * (U a * V a)) + (Q * Q) * (V a * V a))) by (intros; unfold c; lia).
    rewrite S_lin, S_lin. fold P Q R. unfold Det. lia. }
  assert (SC0 : 0 <= S (fun a => c a * c a) l) by (apply S_nonneg; intros; apply Z.square_nonneg).
  assert (SD0 : 0 <= S (fun a => d a * d a) l) by (apply S_nonneg; intros; apply Z.square_nonneg).
  assert (DP : 0 <= Det) by nia.
  apply abs_of_sq; [lia|]. eapply Z.le_trans; [exact CS|].
  assert (SC1 : S (fun a => c a * c a) l <= (R + n) * Det).
  { rewrite SC. pose proof (Z.square_nonneg Q). pose proof (Z.square_nonneg (R + n)). nia. }
  apply Z.le_trans with (((R + n) * Det) * (65536 * n)).
  { apply Z.mul_le_mono_nonneg; assumption. }
  assert (n * (R + n) <= Det) by nia.
  replace ((R + n) * Det * (65536 * n)) with (65536 * Det * (n * (R + n))) by lia.
  replace (256 * Det * (256 * Det)) with (65536 * Det * Det) by lia. apply Z.mul_le_mono_nonneg_l; lia.
Qed.
End Normal.

(** * The sums *)
Record quad : Type := { qU : Z; qV : Z; qd : Z; qe : Z }.
Definition quad_ok (q : quad) : Prop := -257 <= qU q <= 257 /\ -257 <= qV q <= 257 /\ -256 < qd q < 256 /\ -256 < qe q < 256.
Definition sums_of (l : list quad) : sums :=
  let n := Z.of_nat (length l) in
  let P := S (fun q => qU q * qU q) l in let Q := S (fun q => qU q * qV q) l in let R := S (fun q => qV q * qV q) l in
  {| a00 := 4 * (P + n); a01 := 4 * Q; a11 := 4 * (R + n);
     bx0 := 4 * (P + n) + S (fun q => qU q * qd q) l; bx1 := 4 * Q + S (fun q => qV q * qd q) l;
     by0 := 4 * Q + S (fun q => qU q * qe q) l; by1 := 4 * (R + n) + S (fun q => qV q * qe q) l |}.
Definition spec_sums (s : sums) : Spec.acc :=
  {| Spec.A00 := a00 s; Spec.A01 := a01 s; Spec.A11 := a11 s; Spec.Bx0 := bx0 s; Spec.Bx1 := bx1 s; Spec.By0 := by0 s; Spec.By1 := by1 s |}.

Section Solve.
Variables (bw4 bh4 mvx mvy bx by_ : Z).
Hypothesis BW : 1 <= bw4 <= 32.
Hypothesis BH : 1 <= bh4 <= 32.
Hypothesis BX : 0 <= bx < 16384.
Hypothesis BY : 0 <= by_ < 16384.
Hypothesis MVX : -32768 <= mvx <= 32767.
Hypothesis MVY : -32768 <= mvy <= 32767.
Definition sux := (2 * bw4 - 1) * 8.
Definition suy := (2 * bh4 - 1) * 8.
(** A point relative to the centre of the block: not more than 128 pixels away, at a multiple of a pixel *)
Definition pt_ok (p : point) : Prop :=
  (exists X, p_x p - sux = 8 * X /\ -128 <= X <= 128) /\ (exists Y, p_y p - suy = 8 * Y /\ -128 <= Y <= 128) /\
  -32768 <= p_dx p - p_x p <= 32767 /\ -32768 <= p_dy p - p_y p <= 32767.
Definition ddx (p : point) := (p_dx p - p_x p) - mvx.
Definition ddy (p : point) := (p_dy p - p_y p) - mvy.
Definition kept (p : point) : bool := (Z.abs (ddx p) <? 256) && (Z.abs (ddy p) <? 256).
Definition quad_of (p : point) : quad :=
  {| qU := 2 * ((p_x p - sux) / 8) + 1; qV := 2 * ((p_y p - suy) / 8) + 1; qd := ddx p; qe := ddy p |}.
Definition quads (pts : list point) : list quad := map quad_of (filter kept pts).
(** the same point in the specification *)
Definition cand_of (p : point) : Spec.cand :=
  {| Spec.c0 := p_y p + by_ * 32; Spec.c1 := p_x p + bx * 32; Spec.c2 := p_dy p + by_ * 32; Spec.c3 := p_dx p + bx * 32 |}.

Lemma quad_of_ok : forall p, pt_ok p -> kept p = true -> quad_ok (quad_of p).
Proof.
  intros p ((X & EX & HX) & (Y & EY & HY) & _ & _) K. unfold kept in K. apply andb_prop in K. destruct K as (K1 & K2). apply Z.ltb_lt in K1, K2.
  unfold quad_ok, quad_of. cbn [qU qV qd qe]. rewrite EX, EY, !(Z.mul_comm 8), !Z.div_mul by lia. clear - HX HY K1 K2. lia.
Qed.
Lemma quads_ok : forall pts, Forall pt_ok pts -> Forall quad_ok (quads pts).
Proof.
  intros pts H. unfold quads. apply Forall_map, Forall_forall. intros p Hp. apply filter_In in Hp. destruct Hp as (I & K).
  apply quad_of_ok; [|exact K]. exact (proj1 (Forall_forall _ _) H p I).
Qed.
Lemma quads_len : forall pts, (length (quads pts) <= length pts)%nat.
Proof. intros. unfold quads. rewrite map_length. induction pts as [|p pts IH]; [apply le_n|]. cbn [filter]. destruct (kept p); cbn [length]; lia. Qed.

(** one more point *)
Lemma sums_snoc : forall l q, sums_of (l ++ [q]) =
  let s := sums_of l in let u := qU q in let v := qV q in
  {| a00 := a00 s + (4 * (u * u) + 4); a01 := a01 s + 4 * (u * v); a11 := a11 s + (4 * (v * v) + 4);
     bx0 := bx0 s + (4 * (u * u) + 4 + u * qd q); bx1 := bx1 s + (4 * (u * v) + v * qd q);
     by0 := by0 s + (4 * (u * v) + u * qe q); by1 := by1 s + (4 * (v * v) + 4 + v * qe q) |}.
Proof.
  intros l q. assert (E : forall f : quad -> Z, S f (l ++ [q]) = S f l + f q).
  { intros f. induction l as [|a l IH]; [cbn; lia|]. change (f a + S f (l ++ [q]) = f a + S f l + f q). lia. }
  unfold sums_of. cbv zeta. rewrite !E, app_length. cbn [length a00 a01 a11 bx0 bx1 by0 by1]. rewrite Nat2Z.inj_add. change (Z.of_nat 1) with 1.
  f_equal; ring.
Qed.
Definition small (c : Z) (s : sums) : Prop :=
  Z.abs (a00 s) <= c /\ Z.abs (a01 s) <= c /\ Z.abs (a11 s) <= c /\ Z.abs (bx0 s) <= c /\ Z.abs (bx1 s) <= c /\ Z.abs (by0 s) <= c /\ Z.abs (by1 s) <= c.
Lemma uv_small : forall u v, -257 <= u <= 257 -> -257 <= v <= 257 -> -66049 <= u * v <= 66049. Proof. intros. nia. Qed.
Lemma ud_small : forall u d, -257 <= u <= 257 -> -256 < d < 256 -> -65792 <= u * d <= 65792. Proof. intros. nia. Qed.
Lemma sums_small : forall l, Forall quad_ok l -> small (400000 * Z.of_nat (length l)) (sums_of l).
Proof.
  intros l. induction l as [|q l IH] using rev_ind; intros H; [vm_compute; repeat split; intro; discriminate|].
  apply Forall_app in H. destruct H as (Hl & Hq). specialize (IH Hl). apply Forall_inv in Hq. destruct Hq as (HU & HV & Hd & He).
  rewrite sums_snoc. cbv zeta. unfold small in *. cbn [a00 a01 a11 bx0 bx1 by0 by1]. rewrite app_length, Nat2Z.inj_add. cbn [length]. change (Z.of_nat 1) with 1.
  pose proof (uv_small _ _ HU HU). pose proof (uv_small _ _ HU HV). pose proof (uv_small _ _ HV HV).
  pose proof (ud_small _ _ HU Hd). pose proof (ud_small _ _ HV Hd). pose proof (ud_small _ _ HU He). pose proof (ud_small _ _ HV He).
  generalize dependent (sums_of l). intros s IH. generalize dependent (qU q * qU q). generalize dependent (qU q * qV q). generalize dependent (qV q * qV q).
  generalize dependent (qU q * qd q). generalize dependent (qV q * qd q). generalize dependent (qU q * qe q). generalize dependent (qV q * qe q). clear HU HV Hd He.
  intros ve Hve ue Hue vd Hvd ud Hud vv Hvv uv Huv uu Huu. destruct IH as (I1 & I2 & I3 & I4 & I5 & I6 & I7). repeat split.
  - clear - I1 Huu. lia.
  - clear - I2 Huv. lia.
  - clear - I3 Hvv. lia.
  - clear - I4 Huu Hud. lia.
  - clear - I5 Huv Hvd. lia.
  - clear - I6 Huv Hue. lia.
  - clear - I7 Hvv Hve. lia.
Qed.

Lemma ls_add_ok : forall acc u v c t, Z.abs acc <= 3200000 -> -1024 <= u <= 1024 -> -1280 <= v <= 1280 -> 0 <= c <= 8 -> u * v / 4 + u + v + c = t ->
  ls_add acc u v c = Ok (acc + t).
Proof.
  intros acc u v c t A HU HV C E. unfold ls_add. assert (M : -1310720 <= u * v <= 1310720) by (clear - HU HV; nia).
  rewrite ck_ok by (unfold INT_MIN, INT_MAX; clear - M; lia). cbn [obind]. rewrite Z.shiftr_div_pow2 by lia. change (2 ^ 2) with 4. rewrite E.
  assert (T : -400000 <= t <= 400000) by (rewrite <- E; clear - M HU HV C; lia). rewrite ck_ok by (unfold INT_MIN, INT_MAX; clear - T; lia). cbn [obind]. apply ck_ok. unfold INT_MIN, INT_MAX. clear - A T. lia.
Qed.
Lemma div4 : forall a b, a = 4 * b -> a / 4 = b. Proof. intros a b ->. rewrite Z.mul_comm. apply Z.div_mul. lia. Qed.

Lemma add_point_ok : forall p l, pt_ok p -> Forall quad_ok l -> (length l < 8)%nat ->
  add_point sux suy (sux + mvx) (suy + mvy) p (sums_of l) = Ok (sums_of (l ++ if kept p then [quad_of p] else [])).
Proof.
  intros p l ((X & EX & HX) & (Y & EY & HY) & DX & DY) Hl L8.
  assert (SB : small (3200000) (sums_of l)).
  { pose proof (sums_small l Hl) as B. unfold small in *. clear - B L8. generalize dependent (sums_of l). intros s B. destruct B as (B1 & B2 & B3 & B4 & B5 & B6 & B7). repeat split; lia. }
  assert (R1 : -2000 <= sux <= 2000 /\ -2000 <= suy <= 2000) by (clear - BW BH; unfold sux, suy; lia).
  assert (K : kept p = ((Z.abs (p_x p - sux - (p_dx p - (sux + mvx))) <? 256) && (Z.abs (p_y p - suy - (p_dy p - (suy + mvy))) <? 256))).
  { unfold kept, ddx, ddy. f_equal; f_equal; clear; lia. }
  assert (Q : kept p = true -> quad_of p = {| qU := 2 * X + 1; qV := 2 * Y + 1; qd := ddx p; qe := ddy p |}).
  { intros _. unfold quad_of. rewrite EX, EY, !(Z.mul_comm 8), !Z.div_mul by lia. reflexivity. }
  unfold add_point. unfold ddx, ddy in *. generalize dependent (quad_of p). intros q Q.
  do 6 (rewrite ck_ok by (unfold INT_MIN, INT_MAX; clear - DX DY HX HY EX EY R1 MVX MVY; lia); cbn [obind]). rewrite <- K.
  destruct (kept p) eqn:KP; [|rewrite app_nil_r; reflexivity]. rewrite (Q eq_refl). rewrite sums_snoc. cbv zeta. cbn [qU qV qd qe].
  symmetry in K. apply andb_prop in K. destruct K as (K1 & K2). apply Z.ltb_lt in K1, K2.
  set (d := p_dx p - p_x p - mvx) in *. set (e := p_dy p - p_y p - mvy) in *.
  assert (ED : p_dx p - (sux + mvx) = 8 * X + d) by (unfold d; clear - EX; lia). assert (EE : p_dy p - (suy + mvy) = 8 * Y + e) by (unfold e; clear - EY; lia).
  rewrite ED, EE, EX, EY in *. assert (D : -256 < d < 256) by (clear - K1; lia). assert (E : -256 < e < 256) by (clear - K2; lia). clearbody d e. clear K1 K2 KP Q ED EE EX EY DX DY R1.
  generalize dependent (sums_of l). intros s (B1 & B2 & B3 & B4 & B5 & B6 & B7).
  rewrite (ls_add_ok _ _ _ _ (4 * ((2 * X + 1) * (2 * X + 1)) + 4)) by (try (clear - B1; lia); try (clear - HX; lia); rewrite (div4 _ (16 * (X * X))) by ring; ring). cbn [obind].
  rewrite (ls_add_ok _ _ _ _ (4 * ((2 * X + 1) * (2 * Y + 1)))) by (try (clear - B2; lia); try (clear - HX; lia); try (clear - HY; lia); rewrite (div4 _ (16 * (X * Y))) by ring; ring). cbn [obind].
  rewrite (ls_add_ok _ _ _ _ (4 * ((2 * Y + 1) * (2 * Y + 1)) + 4)) by (try (clear - B3; lia); try (clear - HY; lia); rewrite (div4 _ (16 * (Y * Y))) by ring; ring). cbn [obind].
  rewrite (ls_add_ok _ _ _ _ (4 * ((2 * X + 1) * (2 * X + 1)) + 4 + (2 * X + 1) * d)) by (try (clear - B4; lia); try (clear - HX; lia); try (clear - HX D; lia); rewrite (div4 _ (16 * (X * X) + 2 * X * d)) by ring; ring). cbn [obind].
  rewrite (ls_add_ok _ _ _ _ (4 * ((2 * X + 1) * (2 * Y + 1)) + (2 * Y + 1) * d)) by (try (clear - B5; lia); try (clear - HY; lia); try (clear - HX D; lia); rewrite (div4 _ (16 * (X * Y) + 2 * Y * d)) by ring; ring). cbn [obind].
  rewrite (ls_add_ok _ _ _ _ (4 * ((2 * X + 1) * (2 * Y + 1)) + (2 * X + 1) * e)) by (try (clear - B6; lia); try (clear - HX; lia); try (clear - HY E; lia); rewrite (div4 _ (16 * (X * Y) + 2 * X * e)) by ring; ring). cbn [obind].
  rewrite (ls_add_ok _ _ _ _ (4 * ((2 * Y + 1) * (2 * Y + 1)) + 4 + (2 * Y + 1) * e)) by (try (clear - B7; lia); try (clear - HY; lia); try (clear - HY E; lia); rewrite (div4 _ (16 * (Y * Y) + 2 * Y * e)) by ring; ring). cbn [obind].
  reflexivity.
Qed.
Lemma add_points_ok : forall pts l, Forall pt_ok pts -> Forall quad_ok l -> (length l + length pts <= 8)%nat ->
  add_points sux suy (sux + mvx) (suy + mvy) pts (sums_of l) = Ok (sums_of (l ++ quads pts)).
Proof.
  induction pts as [|p pts IH]; intros l Hp Hl L; [cbn [add_points]; unfold quads; cbn [filter map]; rewrite app_nil_r; reflexivity|].
  cbn [add_points]. cbn [length] in L. rewrite (add_point_ok p l (Forall_inv Hp) Hl ltac:(lia)). cbn [obind].
  rewrite IH; [|exact (Forall_inv_tail Hp)| |].
  - rewrite <- app_assoc. unfold quads. cbn [filter]. destruct (kept p); reflexivity.
  - apply Forall_app. split; [exact Hl|]. destruct (kept p) eqn:K; constructor; [|constructor]. exact (quad_of_ok p (Forall_inv Hp) K).
  - rewrite app_length. destruct (kept p); cbn [length]; lia.
Qed.

(** the specification *)
Lemma acc_ok : forall p l, pt_ok p ->
  Spec.accumulate by_ bx bw4 bh4 mvy mvx (cand_of p) (spec_sums (sums_of l)) = spec_sums (sums_of (l ++ if kept p then [quad_of p] else [])).
Proof.
  intros p l ((X & EX & HX) & (Y & EY & HY) & DX & DY).
  assert (E1 : Spec.c0 (cand_of p) - Spec.midY by_ bh4 * 8 = 8 * Y) by (unfold Spec.midY, cand_of; cbn [Spec.c0]; unfold suy in EY; clear - EY; lia).
  assert (E2 : Spec.c1 (cand_of p) - Spec.midX bx bw4 * 8 = 8 * X) by (unfold Spec.midX, cand_of; cbn [Spec.c1]; unfold sux in EX; clear - EX; lia).
  assert (E3 : Spec.c2 (cand_of p) - (Spec.midY by_ bh4 * 8 + mvy) = 8 * Y + ddy p) by (unfold Spec.midY, cand_of, ddy; cbn [Spec.c2]; unfold suy in EY; clear - EY; lia).
  assert (E4 : Spec.c3 (cand_of p) - (Spec.midX bx bw4 * 8 + mvx) = 8 * X + ddx p) by (unfold Spec.midX, cand_of, ddx; cbn [Spec.c3]; unfold sux in EX; clear - EX; lia).
  unfold Spec.accumulate. cbv zeta. rewrite E1, E2, E3, E4. clear E1 E2 E3 E4.
  assert (K : (Z.abs (8 * X - (8 * X + ddx p)) <? Spec.LS_MV_MAX) && (Z.abs (8 * Y - (8 * Y + ddy p)) <? Spec.LS_MV_MAX) = kept p).
  { unfold kept, Spec.LS_MV_MAX. f_equal; f_equal; lia. }
  rewrite K. destruct (kept p); [|rewrite app_nil_r; reflexivity]. rewrite sums_snoc.
  assert (Q : quad_of p = {| qU := 2 * X + 1; qV := 2 * Y + 1; qd := ddx p; qe := ddy p |}).
  { unfold quad_of. rewrite EX, EY, !(Z.mul_comm 8), !Z.div_mul by lia. reflexivity. }
  rewrite Q. cbv zeta. cbn [qU qV qd qe]. generalize (sums_of l) (ddx p) (ddy p). intros s d e.
  unfold spec_sums, Spec.ls_product. cbn [Spec.A00 Spec.A01 Spec.A11 Spec.Bx0 Spec.Bx1 Spec.By0 Spec.By1 a00 a01 a11 bx0 bx1 by0 by1].
  rewrite (div4 (8 * X * (8 * X)) (16 * (X * X))) by ring. rewrite (div4 (8 * X * (8 * Y)) (16 * (X * Y))) by ring. rewrite (div4 (8 * Y * (8 * Y)) (16 * (Y * Y))) by ring.
  rewrite (div4 (8 * X * (8 * X + d)) (16 * (X * X) + 2 * X * d)) by ring. rewrite (div4 (8 * Y * (8 * X + d)) (16 * (X * Y) + 2 * Y * d)) by ring.
  rewrite (div4 (8 * X * (8 * Y + e)) (16 * (X * Y) + 2 * X * e)) by ring. rewrite (div4 (8 * Y * (8 * Y + e)) (16 * (Y * Y) + 2 * Y * e)) by ring.
  f_equal; ring.
Qed.
Lemma acc_all : forall pts l, Forall pt_ok pts ->
  fold_left (fun a c => Spec.accumulate by_ bx bw4 bh4 mvy mvx c a) (map cand_of pts) (spec_sums (sums_of l)) = spec_sums (sums_of (l ++ quads pts)).
Proof.
  induction pts as [|p pts IH]; intros l H; [unfold quads; cbn [filter map fold_left]; rewrite app_nil_r; reflexivity|].
  cbn [map fold_left]. rewrite (acc_ok p l (Forall_inv H)), IH by exact (Forall_inv_tail H). rewrite <- app_assoc. unfold quads. cbn [filter]. destruct (kept p); reflexivity.
Qed.
Lemma filter_perm : forall A (f : A -> bool) l m, Permutation l m -> Permutation (filter f l) (filter f m).
Proof.
  intros A f l m P. induction P; cbn [filter]; [constructor|destruct (f x); [constructor|]; assumption| |eapply perm_trans; eassumption].
  destruct (f y), (f x); try apply Permutation_refl. apply perm_swap.
Qed.
Lemma sums_perm : forall l m, Permutation l m -> sums_of l = sums_of m.
Proof. intros l m P. unfold sums_of. rewrite (Permutation_length P). rewrite !(S_perm _ _ l m P). reflexivity. Qed.
Lemma quads_perm : forall pts pts', Permutation pts pts' -> sums_of (quads pts) = sums_of (quads pts').
Proof. intros. apply sums_perm. unfold quads. apply Permutation_map, filter_perm. assumption. Qed.

(** * The solution *)
Lemma trans_ok : forall a2 a3 a4 a5, 57344 <= a2 <= 73728 -> -8192 <= a3 <= 8192 -> -8192 <= a4 <= 8192 -> 57344 <= a5 <= 73728 ->
  mat_trans bw4 bh4 mvx mvy bx by_ a2 a3 a4 a5 =
  Ok (Spec.Clip3 (- Spec.WARPEDMODEL_TRANS_CLAMP) (Spec.WARPEDMODEL_TRANS_CLAMP - 1)
        (mvx * 2 ^ (Spec.WARPEDMODEL_PREC_BITS - 3) - (Spec.midX bx bw4 * (a2 - 2 ^ Spec.WARPEDMODEL_PREC_BITS) + Spec.midY by_ bh4 * a3)),
      Spec.Clip3 (- Spec.WARPEDMODEL_TRANS_CLAMP) (Spec.WARPEDMODEL_TRANS_CLAMP - 1)
        (mvy * 2 ^ (Spec.WARPEDMODEL_PREC_BITS - 3) - (Spec.midX bx bw4 * a4 + Spec.midY by_ bh4 * (a5 - 2 ^ Spec.WARPEDMODEL_PREC_BITS)))).
Proof.
  intros a2 a3 a4 a5 H2 H3 H4 H5. unfold mat_trans, Spec.midX, Spec.midY, Spec.WARPEDMODEL_TRANS_CLAMP, Spec.WARPEDMODEL_PREC_BITS.
  change (- 2 ^ 23) with (-8388608). change (2 ^ 23 - 1) with 8388607. change (2 ^ (16 - 3)) with 8192. change (2 ^ 16) with 65536. cbv zeta.
  replace (by_ * 4 + (2 * bh4 - 1)) with (by_ * 4 + bh4 * 2 - 1) by lia. replace (bx * 4 + (2 * bw4 - 1)) with (bx * 4 + bw4 * 2 - 1) by lia.
  set (iy := by_ * 4 + bh4 * 2 - 1). set (ix := bx * 4 + bw4 * 2 - 1).
  assert (IY : 0 <= iy < 65600) by (unfold iy; lia). assert (IX : 0 <= ix < 65600) by (unfold ix; lia). clearbody ix iy.
  assert (M : forall i a, 0 <= i < 65600 -> -8192 <= a <= 8192 -> -537395200 <= i * a <= 537395200) by (clear; intros; nia).
  pose proof (M ix (a2 - 65536) IX ltac:(lia)). pose proof (M iy a3 IY H3). pose proof (M ix a4 IX H4). pose proof (M iy (a5 - 65536) IY ltac:(lia)).
  do 12 (rewrite ck_ok by (unfold INT_MIN, INT_MAX; lia); cbn [obind]). reflexivity.
Qed.

Lemma mult_ok : forall det L px y lo hi, 0 <= L -> 2 ^ L <= det < 2 ^ (L + 1) -> 16 <= det <= 4468000000000 -> 8192 <= y <= 16384 ->
  Z.abs px <= 65 * det -> get_mult_shift lo hi px y (L + 14 - 16) = Ok (Spec.Clip3 lo hi (Spec.Round2Signed (px * y) (L + 14 - 16))).
Proof.
  intros det L px y lo hi L0 HL D Y B. assert (L4 : 4 <= L < 43).
  { split; [destruct (Z_lt_le_dec L 4); [|assumption]; pose proof (Z.pow_le_mono_r 2 (L + 1) 4 ltac:(lia) ltac:(lia)); change (2 ^ 4) with 16 in *; lia|].
    destruct (Z_lt_le_dec L 43); [assumption|]. pose proof (Z.pow_le_mono_r 2 43 L ltac:(lia) ltac:(lia)). change (2 ^ 43) with 8796093022208 in *. lia. }
  unfold get_mult_shift. replace (L + 14 - 16) with (L - 2) by lia.
  assert (M : Z.abs (px * y) <= 65 * det * 16384). { rewrite Z.abs_mul. apply Z.mul_le_mono_nonneg; lia. }
  destruct (div_round_ok (px * y) (L - 2)) as (-> & _); [lia|change (10 ^ 18) with 1000000000000000000; clear - M D; lia| |cbn [obind]; rewrite clip_eq; reflexivity].
  assert (E : 2 ^ (L + 1) = 8 * 2 ^ (L - 2)) by (change 8 with (2 ^ 3); rewrite <- Z.pow_add_r by lia; f_equal; lia).
  pose proof (Z.pow_pos_nonneg 2 (L - 2) ltac:(lia) ltac:(lia)). clear - M E HL H. lia.
Qed.
Definition result (p : option matrix) : option Spec.params := option_map to_spec p.
Definition result_range (p : option matrix) : Prop := match p with None => True | Some m => mat_range m /\ m2 m <> 57344 end.
Lemma clip_range : forall lo hi v, lo <= hi -> lo <= Spec.Clip3 lo hi v <= hi.
Proof. intros lo hi v H. unfold Spec.Clip3. destruct (Z.ltb_spec v lo); [lia|]. destruct (Z.ltb_spec hi v); lia. Qed.
Lemma find_ok : forall pts, Forall pt_ok pts -> (length pts <= 8)%nat -> exists r,
  find_affine_int pts bw4 bh4 mvx mvy bx by_ = Ok r /\ result_range r /\
  result r = Spec.solve by_ bx bw4 bh4 mvy mvx (spec_sums (sums_of (quads pts))).
Proof.
  intros pts Hp L. unfold find_affine_int. cbv zeta. fold suy sux.
  pose proof (add_points_ok pts [] Hp (Forall_nil _) ltac:(cbn [length]; lia)) as E. change (sums_of []) with {| a00 := 0; a01 := 0; a11 := 0; bx0 := 0; bx1 := 0; by0 := 0; by1 := 0 |} in E.
  rewrite E. clear E. cbn [app obind]. pose proof (quads_ok pts Hp) as QO. pose proof (quads_len pts) as QL. generalize dependent (quads pts). intros l QO QL.
  assert (QB : forall q, In q l -> quad_ok q) by (intros q Hq; exact (proj1 (Forall_forall _ _) QO q Hq)).
  assert (N : 0 <= Z.of_nat (length l) <= 8) by lia.
  pose proof (det_ge _ qU qV l) as DG. pose proof (S_nonneg _ (fun q => qU q * qU q) l (fun q _ => Z.square_nonneg (qU q))) as P0'.
  pose proof (S_nonneg _ (fun q => qV q * qV q) l (fun q _ => Z.square_nonneg (qV q))) as R0'.
  pose proof (S_le _ (fun q => qU q * qU q) 66049 l (fun q Hq => proj2 (uv_small _ _ (proj1 (QB q Hq)) (proj1 (QB q Hq))))) as P1.
  pose proof (S_le _ (fun q => qV q * qV q) 66049 l (fun q Hq => proj2 (uv_small _ _ (proj1 (proj2 (QB q Hq))) (proj1 (proj2 (QB q Hq)))))) as R1.
  pose proof (solve_bound _ qU qV qd l (fun q Hq => proj1 (proj2 (proj2 (QB q Hq))))) as X2.
  pose proof (solve_bound _ qU qV qe l (fun q Hq => proj2 (proj2 (proj2 (QB q Hq))))) as Y2.
  pose proof (solve_bound _ qV qU qd l (fun q Hq => proj1 (proj2 (proj2 (QB q Hq))))) as X3.
  pose proof (solve_bound _ qV qU qe l (fun q Hq => proj2 (proj2 (proj2 (QB q Hq))))) as Y3.
  assert (QE : S (fun q => qV q * qU q) l = S (fun q => qU q * qV q) l) by (apply S_ext; intros; lia).
  unfold Det in *. rewrite QE in *.
  unfold sums_of. cbn [a00 a01 a11 bx0 bx1 by0 by1]. set (n := Z.of_nat (length l)) in *. cbn [a00 a01 a11 bx0 bx1 by0 by1]. unfold Spec.solve, spec_sums. cbn [Spec.A00 Spec.A01 Spec.A11 Spec.Bx0 Spec.Bx1 Spec.By0 Spec.By1 a00 a01 a11 bx0 bx1 by0 by1].
  set (P := S (fun q => qU q * qU q) l) in *. set (Q := S (fun q => qU q * qV q) l) in *. set (R := S (fun q => qV q * qV q) l) in *.
  set (ud := S (fun q => qU q * qd q) l) in *. set (vd := S (fun q => qV q * qd q) l) in *. set (ue := S (fun q => qU q * qe q) l) in *. set (ve := S (fun q => qV q * qe q) l) in *.
  clearbody P Q R ud vd ue ve n. clear QE QB QO QL l.
  set (D := (P + n) * (R + n) - Q * Q) in *. replace ((R + n) * (P + n) - Q * Q) with D in * by (unfold D; ring).
  replace (4 * (P + n) * (4 * (R + n)) - 4 * Q * (4 * Q)) with (16 * D) by (unfold D; ring).
  replace (4 * (R + n) * (4 * (P + n) + ud) - 4 * Q * (4 * Q + vd)) with (16 * D + 4 * ((R + n) * ud - Q * vd)) by (unfold D; ring).
  replace (4 * (P + n) * (4 * Q + vd) - 4 * Q * (4 * (P + n) + ud)) with (4 * ((P + n) * vd - Q * ud)) by ring.
  replace (4 * (R + n) * (4 * Q + ue) - 4 * Q * (4 * (R + n) + ve)) with (4 * ((R + n) * ue - Q * ve)) by ring.
  replace (4 * (P + n) * (4 * (R + n) + ve) - 4 * Q * (4 * Q + ue)) with (16 * D + 4 * ((P + n) * ve - Q * ue)) by (unfold D; ring).
  replace (- (4 * Q) * (4 * (P + n) + ud) + 4 * (P + n) * (4 * Q + vd)) with (4 * ((P + n) * vd - Q * ud)) by ring.
  replace (- (4 * Q) * (4 * Q + ue) + 4 * (P + n) * (4 * (R + n) + ve)) with (16 * D + 4 * ((P + n) * ve - Q * ue)) by (unfold D; ring).
  assert (DU : 0 <= D <= 279206560000).
  { split; [pose proof (Z.mul_nonneg_nonneg n (P + R) ltac:(lia) ltac:(lia)); pose proof (Z.square_nonneg n); lia|]. unfold D. pose proof (Z.square_nonneg Q).
    pose proof (Z.mul_le_mono_nonneg (P + n) 528400 (R + n) 528400 ltac:(lia) ltac:(lia) ltac:(lia) ltac:(lia)). lia. }
  set (x2 := (R + n) * ud - Q * vd) in *. set (x3 := (P + n) * vd - Q * ud) in *. set (y2 := (R + n) * ue - Q * ve) in *. set (y3 := (P + n) * ve - Q * ue) in *.
  clearbody D x2 x3 y2 y3. clear DG P0' R0' P1 R1 N Q P R ud vd ue ve n.
  rewrite ck64_ok by (clear - DU; change (2 ^ 63) with 9223372036854775808; lia). cbn [obind].
  destruct (Z.eqb_spec (16 * D) 0) as [E|NE]; [exists None; repeat split|].
  assert (DD : 16 <= 16 * D <= 4468000000000) by (clear - DU NE; lia).
  destruct (resolve_ok (16 * D) ltac:(clear - DD; lia)) as (y & E & Ey & Y & Sh). rewrite E. cbn [obind]. destruct (Spec.resolve_divisor (16 * D)) as (sft, fac). cbn [fst snd] in *. subst fac.
  assert (AS : apply_sign y (16 * D) = y) by (unfold apply_sign; replace (16 * D <? 0) with false by (clear - DD; lia); reflexivity). rewrite AS. clear AS E.
  rewrite (Z.abs_eq (16 * D)) in Sh by (clear - DD; lia). pose proof (Z.log2_spec (16 * D) ltac:(clear - DD; lia)) as LS. pose proof (Z.log2_nonneg (16 * D)) as L0. set (Lg := Z.log2 (16 * D)) in *. clearbody Lg.
  replace (Z.succ Lg) with (Lg + 1) in LS by lia. subst sft. cbv zeta. change (Lg + 14 - Spec.WARPEDMODEL_PREC_BITS) with (Lg + 14 - 16).
  assert (L4 : 4 <= Lg). { destruct (Z_lt_le_dec Lg 4) as [H|]; [|assumption]. pose proof (Z.pow_le_mono_r 2 (Lg + 1) 4 ltac:(lia) ltac:(lia)). change (2 ^ 4) with 16 in *. clear - LS H0 DD. lia. }
  replace (Lg + 14 - 16 <? 0) with false by (clear - L4; lia). cbn [obind].
  unfold get_mult_shift_diag, get_mult_shift_ndiag.
  rewrite ck64_ok by (change (2 ^ 63) with 9223372036854775808; clear - X2 DU; lia). cbn [obind]. rewrite (mult_ok (16 * D) Lg _ y) by (try assumption; clear - X2 DU; lia). cbn [obind].
  rewrite ck64_ok by (change (2 ^ 63) with 9223372036854775808; clear - X3 DU; lia). cbn [obind]. rewrite (mult_ok (16 * D) Lg _ y) by (try assumption; clear - X3 DU; lia). cbn [obind].
  rewrite ck64_ok by (change (2 ^ 63) with 9223372036854775808; clear - Y2 DU; lia). cbn [obind]. rewrite (mult_ok (16 * D) Lg _ y) by (try assumption; clear - Y2 DU; lia). cbn [obind].
  rewrite ck64_ok by (change (2 ^ 63) with 9223372036854775808; clear - Y3 DU; lia). cbn [obind]. rewrite (mult_ok (16 * D) Lg _ y) by (try assumption; clear - Y3 DU; lia). cbn [obind].
  change (2 ^ Spec.WARPEDMODEL_PREC_BITS - Spec.WARPEDMODEL_NONDIAGAFFINE_CLAMP + 1) with 57345. change (2 ^ Spec.WARPEDMODEL_PREC_BITS + Spec.WARPEDMODEL_NONDIAGAFFINE_CLAMP - 1) with 73727.
  change (- Spec.WARPEDMODEL_NONDIAGAFFINE_CLAMP + 1) with (-8191). change (Spec.WARPEDMODEL_NONDIAGAFFINE_CLAMP - 1) with 8191.
  pose proof (clip_range 57345 73727 (Spec.Round2Signed ((16 * D + 4 * x2) * y) (Lg + 14 - 16)) ltac:(lia)) as C2.
  pose proof (clip_range (-8191) 8191 (Spec.Round2Signed (4 * x3 * y) (Lg + 14 - 16)) ltac:(lia)) as C3.
  pose proof (clip_range (-8191) 8191 (Spec.Round2Signed (4 * y2 * y) (Lg + 14 - 16)) ltac:(lia)) as C4.
  pose proof (clip_range 57345 73727 (Spec.Round2Signed ((16 * D + 4 * y3) * y) (Lg + 14 - 16)) ltac:(lia)) as C5.
  generalize dependent (Spec.Clip3 57345 73727 (Spec.Round2Signed ((16 * D + 4 * x2) * y) (Lg + 14 - 16))). intros p2 C2.
  generalize dependent (Spec.Clip3 (-8191) 8191 (Spec.Round2Signed (4 * x3 * y) (Lg + 14 - 16))). intros p3 C3.
  generalize dependent (Spec.Clip3 (-8191) 8191 (Spec.Round2Signed (4 * y2 * y) (Lg + 14 - 16))). intros p4 C4.
  generalize dependent (Spec.Clip3 57345 73727 (Spec.Round2Signed ((16 * D + 4 * y3) * y) (Lg + 14 - 16))). intros p5 C5.
  rewrite (trans_ok p2 p3 p4 p5) by lia. cbn [obind]. eexists. split; [reflexivity|]. split; [|reflexivity].
  unfold result_range, mat_range. cbn [m2 m3 m4 m5]. clear - C2 C3 C4 C5. lia.
Qed.
End Solve.

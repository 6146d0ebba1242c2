(** The array of levels: where the level of a position is kept, and that the
    neighbours found there are those of the specification although the array has no
    room between the rows. *)
From Coq Require Import ZArith List Bool Lia Permutation.
From Verif Require Import Base.CInt Base.Lemmas Itx.ScanTables Itx.Txfm2d Itx.Spec2d Itx.Proofs2d Itx.ScanProofs
  Coef.Prog Coef.Model.
From Verif Require Coef.Spec.
Import ListNotations.
Open Scope Z_scope.

(** *** Scans *)
Definition sorted_by {A} (key : A -> nat) (l : list A) : Prop :=
  forall c c' d, (c <= c' < length l)%nat -> (key (nth c l d) <= key (nth c' l d))%nat.
Lemma sorted_flat : forall (g : nat -> list nat) key n s, (forall d p, In p (g d) -> key p = d) ->
  sorted_by key (flat_map g (seq s n)) /\ forall p, In p (flat_map g (seq s n)) -> (s <= key p)%nat.
Proof.
  intros g key n. induction n as [|n IH]; intros s G; cbn [seq flat_map].
  - split; [intros c c' d C; cbn in C; lia|intros p []].
  - destruct (IH (S s) G) as [I1 I2]. split.
    + intros c c' d C. rewrite app_length in C. destruct (Nat.lt_ge_cases c (length (g s))) as [L|L].
      * rewrite (app_nth1 _ _ _ L). rewrite (G s) by (apply nth_In; auto).
        destruct (Nat.lt_ge_cases c' (length (g s))) as [L'|L'].
        -- rewrite (app_nth1 _ _ _ L'). rewrite (G s) by (apply nth_In; auto). lia.
        -- rewrite (app_nth2 _ _ _ L'). etransitivity; [|apply I2, nth_In; lia]. lia.
      * rewrite !app_nth2 by lia. apply I1. lia.
    + intros p P. apply in_app_or in P. destruct P as [P|P]; [rewrite (G s p P); lia|]. specialize (I2 p P). lia.
Qed.
Lemma div_mod_pos : forall tw i j, (j < tw)%nat -> ((i * tw + j) / tw = i /\ (i * tw + j) mod tw = j)%nat.
Proof.
  intros tw i j H. split.
  - rewrite Nat.div_add_l by lia. rewrite Nat.div_small by auto. lia.
  - rewrite Nat.add_comm, Nat.mod_add by lia. apply Nat.mod_small. auto.
Qed.
Lemma default_sorted : forall tw th, (0 < tw)%nat -> sorted_by (fun p => p / tw + p mod tw)%nat (default_scan tw th).
Proof.
  intros tw th W. unfold default_scan. apply sorted_flat. intros d p P. unfold diagonal in P.
  assert (Q : In p (flat_map (fun i => if Nat.leb i d && Nat.ltb (d - i) tw then [(i * tw + (d - i))%nat] else []) (seq 0 th))).
  { destruct (if Nat.eqb tw th then _ else _); auto. apply in_rev. auto. }
  apply in_flat_map in Q. destruct Q as (i & _ & Q). destruct (Nat.leb_spec i d), (Nat.ltb_spec (d - i) tw); cbn in Q; try tauto.
  destruct Q as [<-|[]]. destruct (div_mod_pos tw i (d - i)) as [ -> -> ]; lia.
Qed.

(** *** Coordinates: [x] is the row of the level array, [y] the place in it. *)
Section COORD.
Variables (cls : Spec.class) (tw th : nat).
Definition px (pos : nat) : nat := match cls with Spec.TX_CLASS_HORIZ => pos / tw | _ => pos mod tw end.
Definition py (pos : nat) : nat := match cls with Spec.TX_CLASS_HORIZ => pos mod tw | _ => pos / tw end.
Definition XX : nat := match cls with Spec.TX_CLASS_HORIZ => th | _ => tw end.
Definition YY : nat := match cls with Spec.TX_CLASS_HORIZ => tw | _ => th end.
Definition posof (x y : nat) : nat := match cls with Spec.TX_CLASS_HORIZ => (x * tw + y)%nat | _ => (y * tw + x)%nat end.
Definition str : nat := match cls with Spec.TX_CLASS_2D => th | _ => 16%nat end.
Definition key (x y : nat) : nat := match cls with Spec.TX_CLASS_2D => (x + y)%nat | _ => y end.

Lemma posof_xy : forall x y, (x < XX)%nat -> (y < YY)%nat -> px (posof x y) = x /\ py (posof x y) = y /\ (posof x y < tw * th)%nat.
Proof.
  unfold px, py, XX, YY, posof. intros x y X Y.
  destruct cls; [destruct (div_mod_pos tw y x)|destruct (div_mod_pos tw x y)|destruct (div_mod_pos tw y x)]; auto; split; auto; split; auto; nia.
Qed.
Lemma xy_posof : forall p, (p < tw * th)%nat -> (px p < XX)%nat /\ (py p < YY)%nat /\ posof (px p) (py p) = p.
Proof.
  intros p P. destruct (split_pos tw th p P) as (i & j & Hi & Hj & ->). destruct (div_mod_pos tw i j Hj) as [D M].
  unfold px, py, XX, YY, posof. rewrite D, M. destruct cls; auto.
Qed.
End COORD.

Lemma dims_g : forall tx ty, (tx < 19)%nat -> (ty < 16)%nat -> allowed tx ty = true -> exists slw slh t_dim, rd_at txfm_dimensions (Z.of_nat tx) = Ok t_dim /\
  slw = Z.min (ti_lw t_dim) TX_32X32 /\ slh = Z.min (ti_lh t_dim) TX_32X32 /\ 0 <= slw <= 3 /\ 0 <= slh <= 3 /\
  Z.of_nat (scan_w tx) = 2 ^ (slw + 2) /\ Z.of_nat (scan_h tx) = 2 ^ (slh + 2) /\
  Z.shiftl 4 slw = Z.of_nat (scan_w tx) /\ Z.shiftl 4 slh = Z.of_nat (scan_h tx) /\
  (Spec.get_tx_class ty <> Spec.TX_CLASS_2D -> (scan_w tx <= 16 /\ scan_h tx <= 16)%nat).
Proof.
  intros tx ty TX TY AL.
  assert (B : exists slw slh t_dim, rd_at txfm_dimensions (Z.of_nat tx) = Ok t_dim /\
    slw = Z.min (ti_lw t_dim) TX_32X32 /\ slh = Z.min (ti_lh t_dim) TX_32X32 /\ 0 <= slw <= 3 /\ 0 <= slh <= 3 /\
    Z.of_nat (scan_w tx) = 2 ^ (slw + 2) /\ Z.of_nat (scan_h tx) = 2 ^ (slh + 2) /\ Z.shiftl 4 slw = Z.of_nat (scan_w tx) /\ Z.shiftl 4 slh = Z.of_nat (scan_h tx)).
  { clear AL. do 19 (destruct tx as [|tx]; [do 3 eexists; split; [reflexivity|]; split; [reflexivity|]; split; [reflexivity|]; split; [vm_compute; split; discriminate|]; split; [vm_compute; split; discriminate|]; repeat split; reflexivity|]). lia. }
  destruct B as (slw & slh & t_dim & B1 & B2 & B3 & B4 & B5 & B6 & B7 & B8 & B9).
  exists slw, slh, t_dim. repeat (split; [assumption|]). clear B1 B2 B3 B4 B5 B6 B7 B8 B9 slw slh t_dim.
  intros C.
  assert (G : allowed tx 10 = true \/ allowed tx 11 = true \/ allowed tx 12 = true \/ allowed tx 13 = true \/ allowed tx 14 = true \/ allowed tx 15 = true).
  { do 16 (destruct ty as [|ty]; [first [exfalso; apply C; reflexivity|tauto]|]). lia. }
  clear AL C TY. do 19 (destruct tx as [|tx]; [first [cbn; lia|exfalso; destruct G as [G|[G|[G|[G|[G|G]]]]]; discriminate G]|]). lia.
Qed.
Lemma scan_kind_g : forall tx ty, (ty < 16)%nat -> get_scan tx ty = match Spec.get_tx_class ty with
  | Spec.TX_CLASS_2D => default_scan (scan_w tx) (scan_h tx) | Spec.TX_CLASS_HORIZ => mcol_scan (scan_w tx) (scan_h tx)
  | Spec.TX_CLASS_VERT => mrow_scan (scan_w tx) (scan_h tx) end.
Proof. intros tx ty TY. do 16 (destruct ty as [|ty]; [reflexivity|]). lia. Qed.
Lemma default_0 : forall tx, (tx < 19)%nat -> nth 0 (default_scan (scan_w tx) (scan_h tx)) 0%nat = 0%nat.
Proof. intros tx TX. do 19 (destruct tx as [|tx]; [vm_compute; reflexivity|]). lia. Qed.
Lemma class_of_g : forall ty, (ty < 16)%nat -> rd_at tx_type_class (Z.of_nat ty) = Ok
  (match Spec.get_tx_class ty with Spec.TX_CLASS_2D => TX_CLASS_2D | Spec.TX_CLASS_HORIZ => TX_CLASS_H | Spec.TX_CLASS_VERT => TX_CLASS_V end).
Proof. intros ty TY. do 16 (destruct ty as [|ty]; [reflexivity|]). lia. Qed.

(** *** Sums of levels *)
Definition lvl (q : Z) : Z := q + 64 * Z.min q 3.
Definition mag5 (m : Z) : Z := if 512 <? m then 4 else Z.shiftr (m + 64) 7.
Lemma mag_base : forall a b c d e, 0 <= a <= 15 -> 0 <= b <= 15 -> 0 <= c <= 15 -> 0 <= d <= 15 -> 0 <= e <= 15 ->
  mag5 (lvl a + lvl b + lvl c + (lvl d + lvl e)) =
  Z.min ((Z.min a 3 + (Z.min b 3 + (Z.min c 3 + (Z.min d 3 + (Z.min e 3 + 0)))) + 1) / 2) 4.
Proof.
  assert (G : forall q, 0 <= q <= 15 -> exists m, Z.min q 3 = m /\ lvl q = q + 64 * m /\ m <= q <= 5 * m /\ 0 <= m <= 3).
  { intros q H. exists (Z.min q 3). unfold lvl. lia. }
  intros a b c d e A B C D E.
  destruct (G a A) as (ma & -> & -> & ?). destruct (G b B) as (mb & -> & -> & ?). destruct (G c C) as (mc & -> & -> & ?).
  destruct (G d D) as (md & -> & -> & ?). destruct (G e E) as (me & -> & -> & ?). unfold mag5.
  destruct (Z.ltb_spec 512 (a + 64 * ma + (b + 64 * mb) + (c + 64 * mc) + (d + 64 * md + (e + 64 * me)))) as [K|K].
  - assert (8 <= ma + mb + mc + md + me) by lia. lia.
  - rewrite shiftr_div by lia. change (2 ^ 7) with 128. assert (ma + mb + mc + md + me <= 7) by lia. lia.
Qed.
Lemma mag_hi : forall a b c, 0 <= a <= 15 -> 0 <= b <= 15 -> 0 <= c <= 15 ->
  Z.land (lvl a + lvl b + lvl c) 63 = Z.min a 15 + (Z.min b 15 + (Z.min c 15 + 0)).
Proof.
  intros a b c A B C. change 63 with (2 ^ 6 - 1). rewrite land_ones_mod by lia. change (2 ^ 6) with 64. unfold lvl.
  replace (a + 64 * Z.min a 3 + (b + 64 * Z.min b 3) + (c + 64 * Z.min c 3)) with
    (a + b + c + (Z.min a 3 + Z.min b 3 + Z.min c 3) * 64) by ring.
  rewrite Z.mod_add by lia. rewrite Z.mod_small by lia. lia.
Qed.

Section GEO.
Set Default Proof Using "All".
Variables (I : Spec.info) (ty : nat).
Local Notation tx := (Spec.i_tx I).
Local Notation tw := (scan_w tx).
Local Notation th := (scan_h tx).
Local Notation cls := (Spec.get_tx_class ty).
Hypothesis TX : (tx < 19)%nat.
Hypothesis TY : (ty < 16)%nat.
Hypothesis AL : allowed tx ty = true.

Lemma dims : exists slw slh t_dim, rd_at txfm_dimensions (Z.of_nat tx) = Ok t_dim /\
  slw = Z.min (ti_lw t_dim) TX_32X32 /\ slh = Z.min (ti_lh t_dim) TX_32X32 /\ 0 <= slw <= 3 /\ 0 <= slh <= 3 /\
  Z.of_nat tw = 2 ^ (slw + 2) /\ Z.of_nat th = 2 ^ (slh + 2) /\ Z.shiftl 4 slw = Z.of_nat tw /\ Z.shiftl 4 slh = Z.of_nat th /\
  (cls <> Spec.TX_CLASS_2D -> (tw <= 16 /\ th <= 16)%nat).
Proof. exact (dims_g tx ty TX TY AL). Qed.
Lemma tw_th : (4 <= tw <= 32)%nat /\ (4 <= th <= 32)%nat.
Proof. destruct (scan_wh tx TX) as (W & H & _). auto. Qed.

Definition pos (c : nat) : nat := Spec.scan I ty c.
Lemma pos_lt : forall c, (c < tw * th)%nat -> (pos c < tw * th)%nat.
Proof. intros. apply scan_bound; auto. Qed.
Lemma pos_inj : forall c c', (c < tw * th)%nat -> (c' < tw * th)%nat -> pos c = pos c' -> c = c'.
Proof.
  intros c c' H H' E. assert (ND : NoDup (get_scan tx ty)).
  { eapply Permutation_NoDup; [symmetry; apply scan_permutation; auto|apply seq_NoDup]. }
  apply (proj1 (NoDup_nth _ 0%nat) ND); auto; rewrite scan_length; auto.
Qed.
Lemma pos_surj : forall p, (p < tw * th)%nat -> exists c, (c < tw * th)%nat /\ pos c = p.
Proof.
  intros p P. assert (IN : In p (get_scan tx ty)).
  { eapply Permutation_in; [symmetry; apply scan_permutation; auto|apply in_seq; lia]. }
  destruct (In_nth _ _ 0%nat IN) as (c & C & E). exists c. rewrite scan_length in C by auto. auto.
Qed.
Lemma scan_kind : get_scan tx ty = match cls with
  | Spec.TX_CLASS_2D => default_scan tw th | Spec.TX_CLASS_HORIZ => mcol_scan tw th | Spec.TX_CLASS_VERT => mrow_scan tw th end.
Proof. exact (scan_kind_g tx ty TY). Qed.
Lemma pos_0 : pos 0 = 0%nat.
Proof.
  unfold pos, Spec.scan. rewrite scan_kind. pose proof tw_th as W. destruct cls.
  - exact (default_0 tx TX).
  - rewrite mcol_nth by nia. rewrite Nat.mod_0_l, Nat.div_0_l by lia. reflexivity.
  - unfold mrow_scan. rewrite seq_nth by nia. reflexivity.
Qed.

Definition cx (c : nat) : nat := px cls tw (pos c).
Definition cy (c : nat) : nat := py cls tw (pos c).
Lemma cxy : forall c, (c < tw * th)%nat -> (cx c < XX cls tw th)%nat /\ (cy c < YY cls tw th)%nat /\ posof cls tw (cx c) (cy c) = pos c.
Proof. intros c H. apply xy_posof. apply pos_lt. auto. Qed.
Lemma key_mono : forall c c', (c <= c' < tw * th)%nat -> (key cls (cx c) (cy c) <= key cls (cx c') (cy c'))%nat.
Proof.
  intros c c' H. pose proof tw_th as W. unfold cx, cy, pos, Spec.scan. rewrite scan_kind. unfold key, px, py.
  destruct cls eqn:CL.
  - pose proof (default_sorted tw th ltac:(lia) c c' 0%nat) as D. rewrite !(Nat.add_comm (_ mod _)). apply D.
    rewrite len_default by auto. lia.
  - rewrite !mcol_nth by lia.
    assert (E : forall c, (c < tw * th)%nat -> ((c mod th * tw + c / th) mod tw = c / th)%nat).
    { intros k K. apply div_mod_pos. apply Nat.div_lt_upper_bound; [lia|]. rewrite Nat.mul_comm. auto. }
    rewrite !E by lia. apply Nat.div_le_mono; lia.
  - unfold mrow_scan. rewrite !seq_nth by lia. apply Nat.div_le_mono; lia.
Qed.

(** the parameters of the loops, as read_toks sets them *)
Definition mcls : txclass := match cls with Spec.TX_CLASS_2D => TX_CLASS_2D | Spec.TX_CLASS_HORIZ => TX_CLASS_H | Spec.TX_CLASS_VERT => TX_CLASS_V end.
Lemma class_of : rd_at tx_type_class (Z.of_nat ty) = Ok mcls.
Proof. exact (class_of_g ty TY). Qed.
Definition mscan : list Z := match cls with Spec.TX_CLASS_2D => map (stored_at tx) (default_scan tw th) | _ => [] end.

Lemma to_nat_div : forall a b, (b <> 0)%nat -> Z.of_nat a / Z.of_nat b = Z.of_nat (a / b).
Proof. intros. symmetry. apply Nat2Z.inj_div. Qed.
Lemma scan_pos_spec : forall slw slh c, (c < tw * th)%nat -> 0 <= slw -> 0 <= slh ->
  Z.of_nat tw = 2 ^ (slw + 2) -> Z.of_nat th = 2 ^ (slh + 2) ->
  scan_pos mcls mscan
    (match cls with Spec.TX_CLASS_VERT => slw + 2 | _ => slh + 2 end)
    (match cls with Spec.TX_CLASS_VERT => slh + 2 | _ => 0 end)
    (match cls with Spec.TX_CLASS_VERT => Z.of_nat tw - 1 | _ => Z.of_nat th - 1 end) (Z.of_nat c) =
  Ok (stored_at tx (pos c), Z.of_nat (cx c), Z.of_nat (cy c)).
Proof.
  intros slw slh c C S1 S2 W H. pose proof tw_th as R. pose proof (pos_lt c C) as PL.
  unfold cx, cy, stored_at, stored. unfold scan_pos, mcls, mscan, px, py.
  assert (ND : forall a b : nat, Z.of_nat a mod Z.of_nat b = Z.of_nat (a mod b)) by (intros; symmetry; apply Nat2Z.inj_mod).
  assert (NQ : forall a b : nat, Z.of_nat a / Z.of_nat b = Z.of_nat (a / b)) by (intros; symmetry; apply Nat2Z.inj_div).
  unfold pos, Spec.scan in PL |- *. rewrite scan_kind in PL |- *. destruct cls eqn:CL.
  - rewrite rd_at_nat with (d := stored_at tx 0) by (rewrite map_length, len_default by auto; lia).
    rewrite map_nth. cbn [obind]. set (p := nth c (default_scan tw th) 0%nat) in *.
    unfold stored_at, stored.
    destruct (split_pos tw th p PL) as (i & j & Hi & Hj & E). destruct (div_mod_pos tw i j Hj) as [D M]. rewrite E, D, M.
    rewrite shiftr_div by lia. rewrite H, land_ones_mod by lia. rewrite <- H.
    rewrite Z.div_add_l by lia. rewrite Z.div_small by lia. rewrite (Z.add_comm (_ * _)), Z.mod_add by lia. rewrite Z.mod_small by lia.
    rewrite Z.add_0_r. rewrite (Z.add_comm (Z.of_nat i)). reflexivity.
  - rewrite mcol_nth in PL |- * by lia.
    assert (CT : (c / th < tw)%nat) by (apply Nat.div_lt_upper_bound; [lia|]; rewrite Nat.mul_comm; auto).
    destruct (div_mod_pos tw (c mod th) (c / th) CT) as [D M]. rewrite D, M.
    rewrite H, land_ones_mod by lia. rewrite shiftr_div by lia. rewrite <- H. rewrite ND, NQ.
    assert (E : Z.of_nat (c / th) * Z.of_nat th + Z.of_nat (c mod th) = Z.of_nat c).
    { pose proof (Nat.div_mod c th ltac:(lia)). nia. }
    rewrite E. reflexivity.
  - unfold mrow_scan in PL |- *. rewrite seq_nth in PL |- * by lia. cbn [Nat.add] in PL |- *.
    rewrite W, land_ones_mod by lia. rewrite shiftr_div by lia. rewrite <- W. rewrite ND, NQ.
    rewrite shiftl_mul by lia.
    assert (CT : (c / tw < th)%nat) by (apply Nat.div_lt_upper_bound; [lia|]; auto).
    set (q := (c / tw)%nat) in *. clearbody q.
    rewrite lor_shift_add by (rewrite <- ?H; lia). rewrite <- H. reflexivity.
Qed.

(** *** The array of levels *)
Local Notation X := (XX cls tw th).
Local Notation Y := (YY cls tw th).
Local Notation s := (str cls th).
Definition nbv (Q : Spec.array) (x y : nat) : Z :=
  if Nat.ltb x X && Nat.ltb y Y then Q (posof cls tw x y) else 0.
Definition LV (levels : list Z) (Q : Spec.array) : Prop :=
  length levels = (s * (X + 2))%nat /\
  forall x y, (x < X + 2)%nat -> (y < s)%nat -> rd_at levels (Z.of_nat x * Z.of_nat s + Z.of_nat y) = Ok (lvl (nbv Q x y)).
Lemma geo_ranges : (4 <= X <= 32)%nat /\ (4 <= Y <= s)%nat /\ (s <= 32)%nat /\ (X * Y = tw * th)%nat /\ (cls <> Spec.TX_CLASS_2D -> s = 16%nat).
Proof.
  destruct dims as (slw & slh & t_dim & _ & _ & _ & _ & _ & _ & _ & _ & _ & D). pose proof tw_th as W.
  unfold XX, YY, str. destruct cls; [clear D|specialize (D ltac:(discriminate))..]; repeat split; try lia; congruence.
Qed.
Lemma LV_init : LV (repeat 0 (s * (X + 2))) (fun _ => 0).
Proof.
  split; [apply repeat_length|]. intros x y Hx Hy.
  replace (Z.of_nat x * Z.of_nat s + Z.of_nat y) with (Z.of_nat (x * s + y)) by lia.
  rewrite rd_at_nat with (d := 0) by (rewrite repeat_length; nia). rewrite nth_repeat. unfold nbv. destruct (_ && _); reflexivity.
Qed.
Lemma LV_set : forall levels Q x y v, LV levels Q -> (x < X)%nat -> (y < Y)%nat ->
  exists levels', wr_at levels (Z.of_nat x * Z.of_nat s + Z.of_nat y) (lvl v) = Ok levels' /\ LV levels' (Spec.set Q (posof cls tw x y) v).
Proof.
  intros levels Q x y v [L R] HX HY. pose proof geo_ranges as G.
  replace (Z.of_nat x * Z.of_nat s + Z.of_nat y) with (Z.of_nat (x * s + y)) by lia.
  assert (B : (x * s + y < length levels)%nat) by (rewrite L; nia).
  exists (upd_nat levels (x * s + y) (lvl v)). split.
  { unfold wr_at. rewrite (proj2 (Z.leb_le _ _)), (proj2 (Z.ltb_lt _ _)) by (unfold zlen; lia). cbn [andb]. rewrite Nat2Z.id. reflexivity. }
  split; [rewrite upd_nat_length; auto|]. intros x' y' HX' HY'.
  specialize (R x' y' HX' HY'). replace (Z.of_nat x' * Z.of_nat s + Z.of_nat y') with (Z.of_nat (x' * s + y')) in * by lia.
  assert (B' : (x' * s + y' < length levels)%nat) by (rewrite L; nia).
  rewrite rd_at_nat with (d := 0) in * by (rewrite ?upd_nat_length; auto). rewrite upd_nat_nth by auto.
  f_equal. injection R as R. unfold nbv, Spec.set.
  destruct (Nat.eqb_spec (x' * s + y') (x * s + y)) as [E|E].
  - assert (EX : x' = x) by nia. assert (EY : y' = y) by nia. subst x' y'.
    rewrite (proj2 (Nat.ltb_lt _ _)), (proj2 (Nat.ltb_lt _ _)) by auto. cbn [andb]. rewrite Nat.eqb_refl. reflexivity.
  - rewrite R. unfold nbv. destruct (Nat.ltb_spec x' X) as [KX|KX], (Nat.ltb_spec y' Y) as [KY|KY]; cbn [andb]; auto.
    destruct (Nat.eqb_spec (posof cls tw x' y') (posof cls tw x y)) as [EP|EP]; auto. exfalso. apply E.
    destruct (posof_xy cls tw th x y HX HY) as (P1 & P2 & _). destruct (posof_xy cls tw th x' y' KX KY) as (P3 & P4 & _).
    rewrite EP in P3, P4. congruence.
Qed.

(** What has been read so far when the coefficient of scan index [c] is next. *)
Definition seen (Q : Spec.array) (c : nat) : Prop := forall c', (c' <= c)%nat -> Q (pos c') = 0.
Definition step_ok (dx dy : nat) : Prop :=
  match cls with Spec.TX_CLASS_2D => (dx + dy <= 2)%nat | _ => (dy = 0 /\ dx <= 2)%nat \/ (dx = 0 /\ dy <= 4)%nat end.

Lemma nb_read : forall levels Q c dx dy, LV levels Q -> (c < tw * th)%nat -> seen Q c -> step_ok dx dy ->
  rd_at levels (Z.of_nat (cx c) * Z.of_nat s + Z.of_nat (cy c) + Z.of_nat dx * Z.of_nat s + Z.of_nat dy) =
  Ok (lvl (nbv Q (cx c + dx) (cy c + dy))).
Proof.
  intros levels Q c dx dy [L R] C SE ST. pose proof geo_ranges as G. destruct (cxy c C) as (CX & CY & _).
  set (x := cx c) in *. set (y := cy c) in *.
  assert (ST' : (dx <= 2 /\ dy <= 4 /\ (0 < dy -> dx <= 1))%nat) by (unfold step_ok in ST; destruct cls; lia).
  destruct (Nat.lt_ge_cases (y + dy) s) as [K|K].
  - rewrite <- (R (x + dx)%nat (y + dy)%nat) by lia. f_equal. lia.
  - assert (DY : (0 < dy)%nat) by lia.
    assert (D4 : (dy <= s)%nat) by (unfold step_ok in ST; destruct cls eqn:E; [lia|destruct G as (_ & _ & _ & _ & G); rewrite G by discriminate; lia..]).
    replace (Z.of_nat x * Z.of_nat s + Z.of_nat y + Z.of_nat dx * Z.of_nat s + Z.of_nat dy) with
      (Z.of_nat (x + dx + 1) * Z.of_nat s + Z.of_nat (y + dy - s)) by lia.
    rewrite R by lia. f_equal. f_equal. transitivity 0.
    + unfold nbv. destruct (Nat.ltb_spec (x + dx + 1) X) as [KX|KX], (Nat.ltb_spec (y + dy - s) Y) as [KY|KY]; cbn [andb]; auto.
      destruct (posof_xy cls tw th _ _ KX KY) as (P1 & P2 & P3). destruct (pos_surj _ P3) as (c' & C' & E').
      rewrite <- E'. apply SE. destruct (Nat.lt_ge_cases c c') as [LT|GE]; [|lia]. exfalso.
      pose proof (key_mono c c' ltac:(lia)) as KM. unfold cx, cy in KM. rewrite E', P1, P2 in KM. fold (cx c) (cy c) in KM. fold x y in KM.
      unfold key, step_ok in *. destruct cls eqn:E; [lia|destruct G as (_ & _ & _ & _ & G); rewrite G in * by discriminate; lia..].
    + unfold nbv. destruct (Nat.ltb_spec (y + dy) Y); [lia|]. rewrite andb_false_r. reflexivity.
Qed.

(** *** Contexts from the neighbours *)
Definition levels_ok (Q : Spec.array) : Prop := forall p, 0 <= Q p <= 15.
Lemma nbv_range : forall Q x y, levels_ok Q -> 0 <= nbv Q x y <= 15.
Proof. intros Q x y H. unfold nbv. destruct (_ && _); [apply H|lia]. Qed.
Lemma near_xy : forall Q lim c l, levels_ok Q -> 0 <= lim -> (c < tw * th)%nat ->
  Spec.near I Q lim (pos c / Spec.tw I) (pos c mod Spec.tw I) l =
  fold_right (fun d m => Z.min (nbv Q (cx c + match cls with Spec.TX_CLASS_HORIZ => fst d | _ => snd d end)
                                     (cy c + match cls with Spec.TX_CLASS_HORIZ => snd d | _ => fst d end)) lim + m) 0 l.
Proof.
  intros Q lim c l QO LI C. unfold Spec.near. induction l as [|d l IH]; cbn [fold_right]; auto. rewrite IH. f_equal.
  change (Spec.tw I) with tw. change (Spec.th I) with th. unfold nbv, cx, cy, px, py, XX, YY, posof.
  set (q := (pos c / tw)%nat). set (r := (pos c mod tw)%nat). clearbody q r. clear IH.
  pose proof (QO ((q + fst d) * tw + (r + snd d))%nat). destruct cls.
  - rewrite andb_comm. destruct (_ && _); auto. lia.
  - destruct (_ && _); auto. lia.
  - rewrite andb_comm. destruct (_ && _); auto. lia.
Qed.
End GEO.

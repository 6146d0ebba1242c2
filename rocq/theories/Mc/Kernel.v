(** The filters of motion compensation compute the two rounded sums of the specification. *)
From Coq Require Import ZArith List Bool Lia.
From Verif Require Import Base.CInt Base.Lemmas Base.Loop Cdef.Block Mc.Model.
From Verif Require Mc.Spec.
Import ListNotations.
Open Scope Z_scope.

Definition depth (bd : Z) : Prop := bd = 8 \/ bd = 10 \/ bd = 12.
Definition pixel (bd v : Z) : Prop := 0 <= v <= 2 ^ bd - 1.
Definition int16 (v : Z) : Prop := -32768 <= v <= 32767.

Lemma shiftr1 : forall n, 0 <= n -> Z.shiftr (Z.shiftl 1 n) 1 = if n =? 0 then 0 else 2 ^ (n - 1).
Proof.
  intros n H. rewrite Z.shiftl_1_l, Z.shiftr_div_pow2 by lia. destruct (Z.eqb_spec n 0) as [->|N]; [reflexivity|].
  replace n with (1 + (n - 1)) at 1 by lia. rewrite Z.pow_add_r by lia. change (2 ^ 1) with 2. rewrite Z.mul_comm. apply Z.div_mul. lia.
Qed.
Lemma rnd_eq : forall v n, 0 <= n -> rnd v n = Spec.Round2 v n.
Proof.
  intros v n H. unfold rnd, Spec.Round2. rewrite shiftr1, Z.shiftr_div_pow2 by exact H.
  destruct (Z.eqb_spec n 0) as [->|N]; [rewrite Z.add_0_r; apply Z.div_1_r|reflexivity].
Qed.
Lemma clip_eq : forall bd v, depth bd -> clip_pixel bd v = Spec.Clip1 bd v.
Proof.
  intros bd v H. unfold clip_pixel, Spec.Clip1, Spec.Clip3, iclip. reflexivity.
Qed.

(** * The tables *)
Definition pos_sum (f : Z -> Z) : Z := Spec.sum8 (fun t => Z.max (f t) 0).
Definition neg_sum (f : Z -> Z) : Z := Spec.sum8 (fun t => Z.max (- f t) 0).
Definition good (f : Z -> Z) : Prop := pos_sum f <= 92 /\ neg_sum f <= 28.
Lemma sum8_bounds : forall f G lo hi, good f -> lo <= 0 <= hi -> (forall t, 0 <= t < 8 -> lo <= G t <= hi) ->
  92 * lo - 28 * hi <= Spec.sum8 (fun t => f t * G t) <= 92 * hi - 28 * lo.
Proof.
  intros f G lo hi (HP & HN) HL H.
  assert (T : forall t, 0 <= t < 8 -> Z.max (f t) 0 * lo - Z.max (- f t) 0 * hi <= f t * G t <= Z.max (f t) 0 * hi - Z.max (- f t) 0 * lo).
  { intros t Ht. specialize (H t Ht). destruct (Z.le_ge_cases 0 (f t)).
    - rewrite (Z.max_l (f t) 0), (Z.max_r (- f t) 0) by lia. nia.
    - rewrite (Z.max_r (f t) 0), (Z.max_l (- f t) 0) by lia. nia. }
  unfold pos_sum, neg_sum, Spec.sum8 in *.
  pose proof (T 0 ltac:(lia)). pose proof (T 1 ltac:(lia)). pose proof (T 2 ltac:(lia)). pose proof (T 3 ltac:(lia)).
  pose proof (T 4 ltac:(lia)). pose proof (T 5 ltac:(lia)). pose proof (T 6 ltac:(lia)). pose proof (T 7 ltac:(lia)). clear T H.
  cbv beta in *.
  set (ps := Z.max (f 0) 0 + Z.max (f 1) 0 + Z.max (f 2) 0 + Z.max (f 3) 0 + Z.max (f 4) 0 + Z.max (f 5) 0 + Z.max (f 6) 0 + Z.max (f 7) 0) in *.
  set (ns := Z.max (- f 0) 0 + Z.max (- f 1) 0 + Z.max (- f 2) 0 + Z.max (- f 3) 0 + Z.max (- f 4) 0 + Z.max (- f 5) 0 + Z.max (- f 6) 0 + Z.max (- f 7) 0) in *.
  assert (A : ps * hi <= 92 * hi) by (apply Z.mul_le_mono_nonneg_r; [lia|exact HP]).
  assert (B : 92 * lo <= ps * lo) by (apply Z.mul_le_mono_nonpos_r; [lia|exact HP]).
  assert (C : ns * hi <= 28 * hi) by (apply Z.mul_le_mono_nonneg_r; [lia|exact HN]).
  assert (D : 28 * lo <= ns * lo) by (apply Z.mul_le_mono_nonpos_r; [lia|exact HN]).
  clear HP HN. unfold ps, ns in *. clear ps ns. rewrite !Z.mul_add_distr_r in *.
  repeat match goal with H : context [Z.max ?a ?b * ?c] |- _ => let v := fresh "v" in set (v := Z.max a b * c) in *; clearbody v end. lia.
Qed.

Definition all_frac (p : Z -> bool) : bool := forallb p [1; 2; 3; 4; 5; 6; 7; 8; 9; 10; 11; 12; 13; 14; 15].
Lemma all_frac_ok : forall p m, all_frac p = true -> 1 <= m <= 15 -> p m = true.
Proof.
  intros p m H Hm. unfold all_frac in H. rewrite forallb_forall in H. apply H. cbn [In].
  assert (m = 1 \/ m = 2 \/ m = 3 \/ m = 4 \/ m = 5 \/ m = 6 \/ m = 7 \/ m = 8 \/ m = 9 \/ m = 10 \/ m = 11 \/ m = 12 \/ m = 13 \/ m = 14 \/ m = 15) by lia.
  intuition (subst; auto 20).
Qed.
Definition tap_eqb (F : list Z) (idx m t : Z) : bool :=
  match rd_at F t with Ok v => 2 * v =? Spec.Subpel idx m t | Undef => false end.
Definition half (idx m t : Z) : Z := Spec.Subpel idx m t / 2.
Definition row_ok (n ty m : Z) : bool :=
  match get_filter n ty m with
  | Ok (Some F) =>
      let idx := Spec.interpFilterIdx ty n in
      forallb (tap_eqb F idx m) [0; 1; 2; 3; 4; 5; 6; 7] && (pos_sum (half idx m) <=? 92) && (neg_sum (half idx m) <=? 28)
  | _ => false
  end.
Lemma rows_ok : forall n ty m, 0 <= ty <= 2 -> 1 <= m <= 15 -> row_ok n ty m = true.
Proof.
  intros n ty m Ht Hm.
  assert (E : row_ok n ty m = row_ok (if 4 <? n then 5 else 4) ty m).
  { unfold row_ok, get_filter, Spec.interpFilterIdx. destruct (Z.ltb_spec 4 n), (Z.leb_spec n 4); try lia; reflexivity. }
  rewrite E. clear E.
  assert (ty = 0 \/ ty = 1 \/ ty = 2) as T by lia.
  apply (all_frac_ok (fun m => row_ok (if 4 <? n then 5 else 4) ty m) m); [|exact Hm].
  destruct (4 <? n); destruct T as [->|[->|T]]; try subst ty; vm_compute; reflexivity.
Qed.
Lemma get_filter_ok : forall n ty m, 0 <= ty <= 2 -> 1 <= m <= 15 ->
  exists F f, get_filter n ty m = Ok (Some F) /\ (forall t, 0 <= t < 8 -> rd_at F t = Ok (f t) /\ Spec.Subpel (Spec.interpFilterIdx ty n) m t = 2 * f t) /\ good f.
Proof.
  intros n ty m Ht Hm. pose proof (rows_ok n ty m Ht Hm) as H. unfold row_ok in H.
  destruct (get_filter n ty m) as [[F|]|]; try discriminate. cbv zeta in H.
  apply andb_prop in H. destruct H as (H & H3). apply andb_prop in H. destruct H as (H & H2).
  exists F, (half (Spec.interpFilterIdx ty n) m). split; [reflexivity|]. split; [|split; lia].
  intros t Ht8. rewrite forallb_forall in H. specialize (H t).
  assert (I : In t [0; 1; 2; 3; 4; 5; 6; 7]).
  { cbn [In]. assert (t = 0 \/ t = 1 \/ t = 2 \/ t = 3 \/ t = 4 \/ t = 5 \/ t = 6 \/ t = 7) by lia. intuition (subst; auto 20). }
  specialize (H I). unfold tap_eqb, half in *. destruct (rd_at F t) as [v|]; [|discriminate]. apply Z.eqb_eq in H. rewrite <- H.
  replace (2 * v / 2) with v by (rewrite Z.mul_comm, Z.div_mul; lia). split; reflexivity.
Qed.
Lemma get_filter_0 : forall n ty, get_filter n ty 0 = Ok None.
Proof. reflexivity. Qed.
Lemma Subpel_0 : forall idx t, 0 <= idx <= 5 -> 0 <= t < 8 -> Spec.Subpel idx 0 t = if t =? 3 then 128 else 0.
Proof.
  intros idx t Hi Ht. assert (idx = 0 \/ idx = 1 \/ idx = 2 \/ idx = 3 \/ idx = 4 \/ idx = 5) as I by lia.
  assert (t = 0 \/ t = 1 \/ t = 2 \/ t = 3 \/ t = 4 \/ t = 5 \/ t = 6 \/ t = 7) as T by lia.
  intuition (subst; reflexivity).
Qed.
Lemma idx_range : forall ty n, 0 <= ty <= 3 -> 0 <= Spec.interpFilterIdx ty n <= 5.
Proof.
  intros ty n H. unfold Spec.interpFilterIdx. destruct (n <=? 4); [|lia]. destruct ((ty =? 0) || (ty =? 2)); [lia|]. destruct (ty =? 1); lia.
Qed.
Lemma Subpel_bilin : forall n m t, 0 <= m <= 15 -> 0 <= t < 8 ->
  Spec.Subpel (Spec.interpFilterIdx 3 n) m t = if t =? 3 then 128 - 8 * m else if t =? 4 then 8 * m else 0.
Proof.
  intros n m t Hm Ht. assert (E : Spec.interpFilterIdx 3 n = 3) by (unfold Spec.interpFilterIdx; destruct (n <=? 4); reflexivity). rewrite E.
  assert (t = 0 \/ t = 1 \/ t = 2 \/ t = 3 \/ t = 4 \/ t = 5 \/ t = 6 \/ t = 7) as T by lia.
  assert (m = 0 \/ m = 1 \/ m = 2 \/ m = 3 \/ m = 4 \/ m = 5 \/ m = 6 \/ m = 7 \/ m = 8 \/ m = 9 \/ m = 10 \/ m = 11 \/ m = 12 \/ m = 13 \/ m = 14 \/ m = 15) as M by lia.
  clear Hm Ht E. intuition (subst; reflexivity).
Qed.

(** * The two sums *)
Definition K1 (bd : Z) (f G : Z -> Z) : Z := Spec.Round2 (Spec.sum8 (fun t => f t * G t)) (Spec.InterRound0 bd).
Definition K2 (bd : Z) (c : bool) (f G : Z -> Z) : Z := Spec.Round2 (Spec.sum8 (fun t => f t * G t)) (Spec.InterRound1 bd c).
Lemma sum8_ext : forall f g, (forall t, 0 <= t < 8 -> f t = g t) -> Spec.sum8 f = Spec.sum8 g.
Proof.
  intros f g H. unfold Spec.sum8. rewrite (H 0), (H 1), (H 2), (H 3), (H 4), (H 5), (H 6), (H 7) by lia. reflexivity.
Qed.
Lemma K1_ext : forall bd f g G G', (forall t, 0 <= t < 8 -> f t * G t = g t * G' t) -> K1 bd f G = K1 bd g G'.
Proof. intros. unfold K1. f_equal. apply sum8_ext. assumption. Qed.
Lemma K2_ext : forall bd c f g G G', (forall t, 0 <= t < 8 -> f t * G t = g t * G' t) -> K2 bd c f G = K2 bd c g G'.
Proof. intros. unfold K2. f_equal. apply sum8_ext. assumption. Qed.
Lemma sum8_double : forall f f2 G, (forall t, 0 <= t < 8 -> f2 t = 2 * f t) -> Spec.sum8 (fun t => f2 t * G t) = 2 * Spec.sum8 (fun t => f t * G t).
Proof. intros f f2 G H. unfold Spec.sum8. rewrite (H 0), (H 1), (H 2), (H 3), (H 4), (H 5), (H 6), (H 7) by lia. ring. Qed.
Lemma sum8_centre : forall f G, (forall t, 0 <= t < 8 -> f t = if t =? 3 then 128 else 0) -> Spec.sum8 (fun t => f t * G t) = 128 * G 3.
Proof. intros f G H. unfold Spec.sum8. rewrite (H 0), (H 1), (H 2), (H 3), (H 4), (H 5), (H 6), (H 7) by lia. cbn [Z.eqb Pos.eqb]. ring. Qed.

Lemma taps_ok : forall F f g G, (forall t, 0 <= t < 8 -> rd_at F t = Ok (f t)) -> (forall t, 0 <= t < 8 -> g (t - 3) = Ok (G t)) ->
  taps F g = Ok (Spec.sum8 (fun t => f t * G t)).
Proof.
  intros F f g G HF HG. unfold taps. rewrite (HF 0), (HF 1), (HF 2), (HF 3), (HF 4), (HF 5), (HF 6), (HF 7) by lia.
  pose proof (HG 0 ltac:(lia)) as G0. pose proof (HG 1 ltac:(lia)) as G1. pose proof (HG 2 ltac:(lia)) as G2. pose proof (HG 3 ltac:(lia)) as G3.
  pose proof (HG 4 ltac:(lia)) as G4. pose proof (HG 5 ltac:(lia)) as G5. pose proof (HG 6 ltac:(lia)) as G6. pose proof (HG 7 ltac:(lia)) as G7.
  change (0 - 3) with (-3) in G0. change (1 - 3) with (-2) in G1. change (2 - 3) with (-1) in G2. change (3 - 3) with 0 in G3.
  change (4 - 3) with 1 in G4. change (5 - 3) with 2 in G5. change (6 - 3) with 3 in G6. change (7 - 3) with 4 in G7.
  rewrite G0, G1, G2, G3, G4, G5, G6, G7. reflexivity.
Qed.

(** One dimension at a time: [S] is the sum with the halved filter. *)
Ltac bds H := destruct H as [->|[->| ->]].
Ltac nums := unfold rnd, inter_bits, prep_bias, Spec.InterRound0, Spec.InterRound1, Spec.InterPostRound, Spec.Round2 in *; cbn [Z.eqb Pos.eqb Z.sub Z.add Z.opp Z.pos_sub Pos.sub Pos.succ Pos.add Pos.pred_double Pos.pred Z.succ_double Z.pred_double Pos.sub_mask Pos.succ_double_mask Pos.double_mask Pos.double_pred_mask Pos.pred_mask Pos.sub_mask_carry] in *;
  rewrite ?Z.shiftl_1_l in *; rewrite ?Z.shiftr_div_pow2, ?Z.shiftl_mul_pow2 in * by lia;
  repeat match goal with |- context [2 ^ ?n] => let v := eval vm_compute in (2 ^ n) in change (2 ^ n) with v end;
  repeat match goal with H : context [2 ^ ?n] |- _ => let v := eval vm_compute in (2 ^ n) in change (2 ^ n) with v in H end.

Lemma h_half : forall bd f f2 G, depth bd -> (forall t, 0 <= t < 8 -> f2 t = 2 * f t) ->
  rnd (Spec.sum8 (fun t => f t * G t)) (6 - inter_bits bd) = K1 bd f2 G.
Proof. intros bd f f2 G D H. unfold K1. rewrite (sum8_double f f2 G H). generalize (Spec.sum8 (fun t => f t * G t)). intros S. bds D; nums; lia. Qed.
Lemma h_centre : forall bd f G, depth bd -> (forall t, 0 <= t < 8 -> f t = if t =? 3 then 128 else 0) -> Z.shiftl (G 3) (inter_bits bd) = K1 bd f G.
Proof. intros bd f G D H. unfold K1. rewrite (sum8_centre f G H). bds D; nums; lia. Qed.
Lemma v_half : forall bd (c : bool) f f2 G, depth bd -> (forall t, 0 <= t < 8 -> f2 t = 2 * f t) ->
  rnd (Spec.sum8 (fun t => f t * G t)) (if c then 6 else 6 + inter_bits bd) = K2 bd c f2 G.
Proof. intros bd c f f2 G D H. unfold K2. rewrite (sum8_double f f2 G H). generalize (Spec.sum8 (fun t => f t * G t)). intros S. bds D; destruct c; nums; lia. Qed.
Lemma v_centre : forall bd (c : bool) f G, depth bd -> (forall t, 0 <= t < 8 -> f t = if t =? 3 then 128 else 0) ->
  (if c then G 3 else Z.shiftr (G 3 + Z.shiftr (Z.shiftl 1 (inter_bits bd)) 1) (inter_bits bd)) = K2 bd c f G.
Proof. intros bd c f G D H. unfold K2. rewrite (sum8_centre f G H). bds D; destruct c; nums; lia. Qed.
(** horizontal only *)
Lemma h_put : forall bd S, depth bd -> Z.shiftr (S + (32 + Z.shiftr (Z.shiftl 1 (6 - inter_bits bd)) 1)) 6 =
  Z.shiftr (rnd S (6 - inter_bits bd) + Z.shiftr (Z.shiftl 1 (inter_bits bd)) 1) (inter_bits bd).
Proof. intros bd S D. bds D; nums; lia. Qed.
(** vertical only: the first sum is exact *)
Lemma v_put : forall bd f f2 G, depth bd -> (forall t, 0 <= t < 8 -> f2 t = 2 * f t) ->
  rnd (Spec.sum8 (fun t => f t * G t)) 6 = K2 bd false f2 (fun t => Z.shiftl (G t) (inter_bits bd)).
Proof.
  intros bd f f2 G D H. unfold K2. rewrite (sum8_double f f2 _ H).
  replace (Spec.sum8 (fun t => f t * Z.shiftl (G t) (inter_bits bd))) with (2 ^ inter_bits bd * Spec.sum8 (fun t => f t * G t)).
  - generalize (Spec.sum8 (fun t => f t * G t)). intros S. bds D; nums; lia.
  - unfold Spec.sum8. rewrite !Z.shiftl_mul_pow2 by (bds D; nums; lia). ring.
Qed.
Lemma v_prep : forall bd f f2 G, depth bd -> (forall t, 0 <= t < 8 -> f2 t = 2 * f t) ->
  rnd (Spec.sum8 (fun t => f t * G t)) (6 - inter_bits bd) = K2 bd true f2 (fun t => Z.shiftl (G t) (inter_bits bd)).
Proof.
  intros bd f f2 G D H. unfold K2. rewrite (sum8_double f f2 _ H).
  replace (Spec.sum8 (fun t => f t * Z.shiftl (G t) (inter_bits bd))) with (2 ^ inter_bits bd * Spec.sum8 (fun t => f t * G t)).
  - generalize (Spec.sum8 (fun t => f t * G t)). intros S. bds D; nums; lia.
  - unfold Spec.sum8. rewrite !Z.shiftl_mul_pow2 by (bds D; nums; lia). ring.
Qed.

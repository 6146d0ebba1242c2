(** [dav1d_init_ii_wedge_masks] as a whole. *)
From Coq Require Import ZArith List Bool Lia.
From Verif Require Import Base.CInt Base.Lemmas Base.Loop Mc.Model Mc.MaskModel Mc.Masks Mc.MaskTables.
From Verif Require Mc.Spec Mc.MaskSpec.
Import ListNotations.
Open Scope Z_scope.
Local Open Scope outcome_scope.

(** * The wedge masks *)
Definition call : Type := (Z * Z * Z * Z * Z * Z * list (Z * Z * Z) * Z)%type.
Definition code (cb : list (Z * Z * Z)) (n : Z) : Z * Z * Z := nth (Z.to_nat n) cb (0, 0, 0).
Definition cd (cb : list (Z * Z * Z)) (n : Z) : Z := fst (fst (code cb n)).
Definition cx (cb : list (Z * Z * Z)) (n : Z) : Z := snd (fst (code cb n)).
Definition cy (cb : list (Z * Z * Z)) (n : Z) : Z := snd (code cb n).
Definition dz (d : MaskSpec.direction) : Z :=
  match d with MaskSpec.WEDGE_HORIZONTAL => 0 | MaskSpec.WEDGE_VERTICAL => 1 | MaskSpec.WEDGE_OBLIQUE27 => 2 | MaskSpec.WEDGE_OBLIQUE63 => 3
  | MaskSpec.WEDGE_OBLIQUE117 => 4 | MaskSpec.WEDGE_OBLIQUE153 => 5 end.
Lemma dir_of_dz : forall d, dir_of (dz d) = d.
Proof. destruct d; reflexivity. Qed.
Definition bet (lo v hi : Z) : bool := (lo <=? v) && (v <=? hi).
Lemma bet_ok : forall lo v hi, bet lo v hi = true -> lo <= v <= hi.
Proof. intros lo v hi H. unfold bet in H. apply andb_prop in H. lia. Qed.
Definition call_okb (c : call) : bool :=
  let '(w, h, bs, k4, k2, k0, cb, signs) := c in
  let wq := w / 8 in let hq := h / 8 in let q := wq * hq in
  (w =? 8 * wq) && (h =? 8 * hq) && bet 1 wq 4 && bet 1 hq 4 && bet 0 (bs - BS_32x32) (N_BS - 1) &&
  bet 1 k4 27 && bet 1 k2 27 && bet 1 k0 27 && (k4 <? k2) && (k2 <? k0) &&
  (size k4 =? 16 * (64 * q)) && (size k2 =? 32 * (32 * q)) && (size k0 =? 32 * (16 * q)) &&
  Nat.eqb (length cb) 16 &&
  forallb (fun i => let n := Z.of_nat i in bet 0 (cd cb n) 5 && bet 0 (cx cb n) 8 && bet 0 (cy cb n) 8 &&
    (let '(d, x, y) := MaskSpec.wedge_code w h n in (dz d =? cd cb n) && (x =? cx cb n) && (y =? cy cb n)) &&
    Bool.eqb (sgn signs n =? 0) (xorb (negb (MaskSpec.flipSign w h n)) (cd cb n =? 4))) (seq 0 16).
Lemma fills_check : forallb call_okb fills = true.
Proof. vm_compute. reflexivity. Qed.

Definition callFC (c : call) : key -> Prop := let '(w, h, bs, k4, k2, k0, cb, signs) := c in FC (bs - BS_32x32) k4 k2 k0.
Definition callL (c : call) : Z -> Z -> Z -> Z :=
  let '(w, h, bs, k4, k2, k0, cb, signs) := c in Lum (w / 8) (h / 8) signs (cd cb) (cx cb) (cy cb).
Definition callGood (c : call) (m : masks) : Prop :=
  let '(w, h, bs, k4, k2, k0, cb, signs) := c in Good (w / 8) (h / 8) (bs - BS_32x32) k4 k2 k0 signs (cd cb) (cx cb) (cy cb) m.
Lemma call_facts : forall w h bs k4 k2 k0 cb signs, call_okb (w, h, bs, k4, k2, k0, cb, signs) = true ->
  w = 8 * (w / 8) /\ h = 8 * (h / 8) /\ (1 <= k4 <= 27 /\ 1 <= k2 <= 27 /\ 1 <= k0 <= 27) /\
  fill_ok (w / 8) (h / 8) (bs - BS_32x32) k4 k2 k0 cb (cd cb) (cx cb) (cy cb) /\
  forall n, 0 <= n < 16 -> MaskSpec.wedge_code w h n = (dir_of (cd cb n), cx cb n, cy cb n) /\
    (sgn signs n =? 0) = xorb (negb (MaskSpec.flipSign w h n)) (cd cb n =? 4).
Proof.
  intros w h bs k4 k2 k0 cb signs C. unfold call_okb in C. rewrite !andb_true_iff in C.
  destruct C as [[[[[[[[[[[[[[C1 C2] C3] C4] C5] C6] C7] C8] C9] C10] C11] C12] C13] C14] C15].
  apply bet_ok in C3, C4, C5, C6, C7, C8. apply Nat.eqb_eq in C14. rewrite forallb_forall in C15.
  assert (G : forall n, 0 <= n < 16 -> (0 <= cd cb n <= 5 /\ 0 <= cx cb n <= 8 /\ 0 <= cy cb n <= 8) /\
    MaskSpec.wedge_code w h n = (dir_of (cd cb n), cx cb n, cy cb n) /\ (sgn signs n =? 0) = xorb (negb (MaskSpec.flipSign w h n)) (cd cb n =? 4)).
  { intros n Hn. specialize (C15 (Z.to_nat n)). rewrite in_seq in C15. specialize (C15 ltac:(lia)). cbv zeta in C15. rewrite Z2Nat.id in C15 by lia.
    rewrite !andb_true_iff in C15. destruct C15 as [[[[A B] C] D] E]. apply bet_ok in A, B, C. apply eqb_prop in E. split; [lia|]. split; [|exact E].
    destruct (MaskSpec.wedge_code w h n) as [[d x] y]. rewrite !andb_true_iff in D. destruct D as [[D1 D2] D3].
    apply Z.eqb_eq in D1, D2, D3. rewrite <- D1, <- D2, <- D3, dir_of_dz. reflexivity. }
  split; [lia|]. split; [lia|]. split; [lia|]. split.
  - constructor; unfold valid; try lia. intros n Hn. destruct (G n Hn) as (A & _). split; [|lia].
    unfold rd_at. destruct (Z.ltb_spec n 0); [lia|]. rewrite (nth_error_nth' cb (0, 0, 0)) by lia. unfold cd, cx, cy, code.
    destruct (nth (Z.to_nat n) cb (0, 0, 0)) as [[? ?] ?]. reflexivity.
  - intros n Hn. exact (proj2 (G n Hn)).
Qed.
Lemma run_fill_ok : forall master c m, call_okb c = true -> (forall d, 0 <= d < 6 -> has_dir master d) ->
  exists m', run_fill master c m = Ok m' /\ only (callFC c) m m' /\ callGood c m'.
Proof.
  intros master c m C HM. destruct c as [[[[[[[w h] bs] k4] k2] k0] cb] signs].
  destruct (call_facts _ _ _ _ _ _ _ _ C) as (Ew & Eh & _ & FO & _).
  destruct (fill_ok_all _ _ _ _ _ _ signs cb master _ _ _ FO HM m) as (m' & E & O & G).
  rewrite <- Ew, <- Eh in E. exists m'. split; [exact E|]. split; assumption.
Qed.
Lemma callGood_keep : forall c (G : key -> Prop) m m', callGood c m -> only G m m' -> (forall k, callFC c k -> ~ G k) -> callGood c m'.
Proof.
  intros c G m m' H O N. destruct c as [[[[[[[w h] bs] k4] k2] k0] cb] signs]. unfold callGood, callFC in *. eapply Good_keep; eassumption.
Qed.
(** different calls use different places *)
Definition mem3 (c : call) : list Z := let '(w, h, bs, k4, k2, k0, cb, signs) := c in [k4; k2; k0].
Definition cbs (c : call) : Z := let '(w, h, bs, k4, k2, k0, cb, signs) := c in bs - BS_32x32.
Definition apartb (c c' : call) : bool :=
  forallb (fun k => forallb (fun k' => negb (k =? k')) (mem3 c')) (mem3 c) && negb (cbs c =? cbs c').
Definition FCof (ks : list Z) (bs : Z) (k : key) : Prop :=
  (exists j, In j ks /\ in_member j k) \/ exists l c, k = inr (l * N_BS + bs, c) /\ 0 <= l < 3 /\ 0 <= c < 32.
Lemma callFC_of : forall c k, callFC c k -> FCof (mem3 c) (cbs c) k.
Proof.
  intros c k F. destruct c as [[[[[[[w h] bs] k4] k2] k0] cb] signs]. unfold callFC, FC in F. unfold FCof, mem3, cbs.
  destruct F as [F|[F|[F|F]]]; [left; exists k4|left; exists k2|left; exists k0|right; exact F]; (split; [cbn; tauto|exact F]).
Qed.
Lemma call_mem : forall c j, call_okb c = true -> In j (mem3 c) -> 1 <= j <= 27.
Proof.
  intros c j C I. destruct c as [[[[[[[w h] bs] k4] k2] k0] cb] signs]. destruct (call_facts _ _ _ _ _ _ _ _ C) as (_ & _ & K & _).
  cbn [mem3 In] in I. lia.
Qed.
Lemma call_bs : forall c, call_okb c = true -> 0 <= cbs c < N_BS.
Proof.
  intros c C. destruct c as [[[[[[[w h] bs] k4] k2] k0] cb] signs]. destruct (call_facts _ _ _ _ _ _ _ _ C) as (_ & _ & _ & F & _).
  exact (fo_bs _ _ _ _ _ _ _ _ _ _ F).
Qed.
Lemma in_member_inj : forall j j' k, valid j -> valid j' -> in_member j k -> in_member j' k -> j = j'.
Proof.
  intros j j' k V V' A B. destruct (Z.eq_dec j j'); [assumption|]. destruct k as [a|p]; [|destruct A].
  unfold in_member, range in *. pose proof (members_disj j j' V V' n). lia.
Qed.
Lemma apart_ok : forall c c' k, call_okb c = true -> call_okb c' = true -> apartb c c' = true -> callFC c k -> ~ callFC c' k.
Proof.
  intros c c' k C C' A F F'. apply callFC_of in F, F'. unfold apartb in A. apply andb_prop in A. destruct A as [A1 A2].
  rewrite forallb_forall in A1. destruct F as [(j & I & M)|(l & col & -> & Hl & Hc)], F' as [(j' & I' & M')|(l' & col' & E & Hl' & Hc')].
  - specialize (A1 j I). rewrite forallb_forall in A1. specialize (A1 j' I').
    pose proof (call_mem c j C I). pose proof (call_mem c' j' C' I').
    rewrite (in_member_inj j j' k) in A1; [|unfold valid; lia|unfold valid; lia|exact M|exact M']. rewrite Z.eqb_refl in A1. discriminate.
  - subst k. destruct M.
  - destruct M'.
  - injection E as E1 E2. pose proof (call_bs c C). pose proof (call_bs c' C'). unfold N_BS, BS_8x8, BS_32x32 in *.
    destruct (Z.eqb_spec (cbs c) (cbs c')); [discriminate|]. lia.
Qed.
Fixpoint pairsb {A} (f : A -> A -> bool) (l : list A) : bool := match l with [] => true | a :: l => forallb (f a) l && pairsb f l end.
Lemma fills_apart : pairsb apartb fills = true.
Proof. vm_compute. reflexivity. Qed.
Lemma each_fill : forall master l m, (forall d, 0 <= d < 6 -> has_dir master d) -> forallb call_okb l = true -> pairsb apartb l = true ->
  exists m', each l (run_fill master) m = Ok m' /\ only (fun k => exists c, In c l /\ callFC c k) m m' /\ forall c, In c l -> callGood c m'.
Proof.
  intros master l m HM. revert m. induction l as [|c l IH]; intros m C P.
  - exists m. split; [reflexivity|]. split; [intros k _; reflexivity|]. intros c [].
  - cbn [forallb] in C. apply andb_prop in C. destruct C as [C Cl]. cbn [pairsb] in P. apply andb_prop in P. destruct P as [P Pl].
    destruct (run_fill_ok master c m C HM) as (m1 & E & O & G). destruct (IH m1 Cl Pl) as (m' & E' & O' & G').
    exists m'. cbn [each]. rewrite E. cbn [obind]. split; [exact E'|]. split.
    + intros k N. rewrite O', O; [reflexivity| |].
      * intros F. apply N. exists c. split; [left; reflexivity|exact F].
      * intros (c' & I & F). apply N. exists c'. split; [right; exact I|exact F].
    + intros c' [<-|I]; [|exact (G' c' I)]. apply (callGood_keep c _ m1 m' G O').
      intros k F (c' & I & F'). rewrite forallb_forall in Cl, P. exact (apart_ok c c' k C (Cl c' I) (P c' I) F F').
Qed.

(** * The inter-intra masks *)
Definition wt (i : Z) : Z := nth (Z.to_nat i) ii_weights_1d 0.
Lemma wt_ok : forall i, 0 <= i < 32 -> rd_at ii_weights_1d i = Ok (wt i).
Proof. intros i H. apply rd_at_nth. exact H. Qed.
Lemma wt_range : forall i, 0 <= wt i <= 64.
Proof. intros i. apply (tab_range ii_weights_1d i). reflexivity. Qed.
Definition ii_val (p step y x : Z) : Z := wt ((if p =? 0 then y else if p =? 1 then x else Z.min x y) * step).
Section Build.
Variables k w h step : Z.
Hypothesis Vk : valid k.
Hypothesis Hw : 1 <= w.
Hypothesis Hh : 1 <= h.
Hypothesis Hs : 1 <= step.
Hypothesis Hws : w * step <= 32.
Hypothesis Hhs : h * step <= 32.
Hypothesis Sk : size k = 3 * w * h.
Definition pl (p y x : Z) : Z := p * (w * h) + (y * w + x).
Lemma pl_fits : forall p y x, 0 <= p < 3 -> 0 <= y < h -> 0 <= x < w -> 0 <= pl p y x < size k.
Proof. intros p y x Hp Hy Hx. rewrite Sk. unfold pl. assert (0 <= y * w + x < w * h) by nia. nia. Qed.
Lemma pl_inj : forall p y x p' y' x', 0 <= y < h -> 0 <= x < w -> 0 <= y' < h -> 0 <= x' < w -> pl p y x = pl p' y' x' -> p = p' /\ y = y' /\ x = x'.
Proof.
  intros p y x p' y' x' Hy Hx Hy' Hx' E. unfold pl in E.
  destruct (flat_inj (w * h) p (y * w + x) p' (y' * w + x')) as [-> E2]; [nia|nia|exact E|]. destruct (flat_inj w y x y' x' Hx Hx' E2). auto.
Qed.
Lemma store_at : forall p y x v q i m, 0 <= p < 3 -> 0 <= y < h -> 0 <= x < w -> 0 <= v <= 64 -> fst q = k -> snd q + i = pl p y x ->
  exists m', store q i v m = Ok m' /\ mget m' (inl (base k + pl p y x)) = Some v /\ forall a, a <> inl (base k + pl p y x) -> mget m' a = mget m a.
Proof.
  intros p y x v q i m Hp Hy Hx Hv E1 E2. pose proof (pl_fits p y x Hp Hy Hx). destruct (store_ok q i v m) as (m' & A & B & C).
  - rewrite E1. exact Vk.
  - rewrite E1, E2. assumption.
  - lia.
  - unfold addr in B, C. rewrite E1 in B, C. replace (base k + snd q + i) with (base k + pl p y x) in B, C by lia. exists m'. auto.
Qed.
Definition row (p y x : Z) (m : masks) : Prop := forall x', 0 <= x' < x -> mget m (inl (base k + pl p y x')) = Some (ii_val p step y x').
Definition sofar (y : Z) (m : masks) : Prop := forall p y', 0 <= p < 3 -> 0 <= y' < y -> row p y' w m.
Lemma row_keep : forall p y x p0 y0 x0 m m', 0 <= y < h -> 0 <= x <= w -> 0 <= y0 < h -> 0 <= x0 < w -> row p y x m -> (p <> p0 \/ y <> y0 \/ x <= x0) ->
  (forall a, a <> inl (base k + pl p0 y0 x0) -> mget m' a = mget m a) -> row p y x m'.
Proof.
  intros p y x p0 y0 x0 m m' Hy Hx Hy0 Hx0 RW N O x' Hx'. rewrite O; [apply RW; exact Hx'|]. intros C. injection C as C.
  assert (C' : pl p y x' = pl p0 y0 x0) by lia. destruct (pl_inj p y x' p0 y0 x0 Hy ltac:(lia) Hy0 Hx0 C'). lia.
Qed.
Lemma row_next : forall p y x m, row p y x m -> mget m (inl (base k + pl p y x)) = Some (ii_val p step y x) -> row p y (x + 1) m.
Proof. intros p y x m RW E x' Hx'. destruct (Z.eq_dec x' x) as [->|]; [exact E|]. apply RW. lia. Qed.
Lemma row_nil : forall p y m, row p y 0 m.
Proof. intros p y m x' Hx'. lia. Qed.
Lemma keep_member : forall p y x m m0 m', 0 <= p < 3 -> 0 <= y < h -> 0 <= x < w -> only (in_member k) m0 m ->
  (forall a, a <> inl (base k + pl p y x) -> mget m' a = mget m a) -> only (in_member k) m0 m'.
Proof.
  intros p y x m m0 m' Hp Hy Hx O E a N. rewrite E; [exact (O a N)|]. intros ->. apply N. unfold in_member, range. pose proof (pl_fits p y x Hp Hy Hx). lia.
Qed.
Lemma sofar_keep : forall p y x m m', 0 <= y < h -> 0 <= x < w -> sofar y m -> (forall a, a <> inl (base k + pl p y x) -> mget m' a = mget m a) -> sofar y m'.
Proof. intros p y x m m' Hy Hx H E p' y' Hp' Hy'. apply (row_keep _ _ _ p y x m); try lia. - apply H; lia. - exact E. Qed.
Lemma build_ok : forall m, exists m', build_nondc_ii_masks k w h step m = Ok m' /\ only (in_member k) m m' /\ sofar h m'.
Proof.
  intros m. unfold build_nondc_ii_masks.
  apply (for_inv masks (fun y a => only (in_member k) m a /\ sofar y a)); [lia|split; [intros a _; reflexivity|intros p y' _ C; lia]|].
  intros y s Hy (O & SF). rewrite wt_ok by nia. cbn [obind].
  destruct (for_inv masks (fun x a => only (in_member k) m a /\ sofar y a /\ row 0 y x a)
    (fun x m => store (k, 0) (y * w + x) (wt (y * step)) m) 0 w s ltac:(lia)) as (s1 & E1 & O1 & SF1 & R1).
  { split; [exact O|]. split; [exact SF|apply row_nil]. }
  { intros x a Hx (Oa & SFa & Ra). destruct (store_at 0 y x (wt (y * step)) (k, 0) (y * w + x) a) as (a' & A & B & C);
      [lia|exact Hy|exact Hx|apply wt_range|reflexivity|unfold pl; cbn [snd]; lia|].
    exists a'. split; [exact A|]. split; [exact (keep_member 0 y x a m a' ltac:(lia) Hy Hx Oa C)|]. split; [exact (sofar_keep 0 y x a a' Hy Hx SFa C)|].
    apply row_next; [|exact B]. apply (row_keep _ _ _ 0 y x a); try lia; assumption. }
  rewrite E1. cbn [obind].
  destruct (for_inv masks (fun x a => only (in_member k) m a /\ sofar y a /\ row 0 y w a /\ row 1 y x a /\ row 2 y x a)
    (fun x m => let! v := rd_at ii_weights_1d (Z.min x y * step) in
      let! m := store (padd (padd (k, 0) (w * h)) (w * h)) (y * w + x) v m in
      let! v := rd_at ii_weights_1d (x * step) in
      store (padd (k, 0) (w * h)) (y * w + x) v m) 0 w s1 ltac:(lia)) as (s2 & E2 & O2 & SF2 & R20 & R21 & R22).
  { repeat split; try assumption; apply row_nil. }
  { intros x a Hx (Oa & SFa & R0 & R1' & R2). rewrite wt_ok by nia. cbn [obind].
    destruct (store_at 2 y x (wt (Z.min x y * step)) (padd (padd (k, 0) (w * h)) (w * h)) (y * w + x) a) as (a' & A & B & C);
      [lia|exact Hy|exact Hx|apply wt_range|reflexivity|unfold pl, padd; cbn [fst snd]; lia|].
    rewrite A. cbn [obind]. rewrite wt_ok by nia. cbn [obind].
    destruct (store_at 1 y x (wt (x * step)) (padd (k, 0) (w * h)) (y * w + x) a') as (b & A' & B' & C');
      [lia|exact Hy|exact Hx|apply wt_range|reflexivity|unfold pl, padd; cbn [fst snd]; lia|].
    exists b. split; [exact A'|].
    split; [exact (keep_member 1 y x a' m b ltac:(lia) Hy Hx (keep_member 2 y x a m a' ltac:(lia) Hy Hx Oa C) C')|].
    split; [exact (sofar_keep 1 y x a' b Hy Hx (sofar_keep 2 y x a a' Hy Hx SFa C) C')|].
    split; [|split].
    - apply (row_keep 0 y w 1 y x a'); try lia; [|exact C']. apply (row_keep 0 y w 2 y x a); try lia; assumption.
    - apply row_next; [|exact B']. apply (row_keep 1 y x 1 y x a'); try lia; [|exact C']. apply (row_keep 1 y x 2 y x a); try lia; assumption.
    - apply (row_keep 2 y (x + 1) 1 y x a'); try lia; [|exact C']. apply row_next; [|exact B]. apply (row_keep 2 y x 2 y x a); try lia; assumption. }
  exists s2. split; [exact E2|]. split; [exact O2|]. intros p y' Hp Hy'. destruct (Z.eq_dec y' y) as [->|N]; [|apply SF2; lia].
  assert (CP : p = 0 \/ p = 1 \/ p = 2) by lia. destruct CP as [->|[->| ->]]; assumption.
Qed.
End Build.
Definition build : Type := (Z * Z * Z * Z)%type.
Definition bk (b : build) : Z := let '(k, w, h, step) := b in k.
Definition build_okb (b : build) : bool :=
  let '(k, w, h, step) := b in bet 29 k 37 && (1 <=? w) && (1 <=? h) && (1 <=? step) && (w * step <=? 32) && (h * step <=? 32) && (size k =? 3 * w * h).
Definition bgood (b : build) (m : masks) : Prop := let '(k, w, h, step) := b in sofar k w h step h m.
Lemma builds_check : forallb build_okb ii_builds && pairsb (fun b b' => negb (bk b =? bk b')) ii_builds = true.
Proof. vm_compute. reflexivity. Qed.
Lemma bgood_keep : forall b (G : key -> Prop) m m', build_okb b = true -> bgood b m -> only G m m' -> (forall k, in_member (bk b) k -> ~ G k) -> bgood b m'.
Proof.
  intros [[[k w] h] step] G m m' C H O N p y Hp Hy x Hx. unfold build_okb in C. rewrite !andb_true_iff in C. destruct C as [[[[[[C1 C2] C3] C4] C5] C6] C7].
  rewrite O; [apply (H p y Hp Hy x Hx)|]. apply N. unfold in_member, range. cbn [bk].
  pose proof (pl_fits k w h step ltac:(lia) ltac:(lia) ltac:(lia) ltac:(lia) ltac:(lia) ltac:(lia) p y x Hp Hy Hx). lia.
Qed.
Lemma build_facts : forall b, build_okb b = true -> 29 <= bk b <= 37.
Proof. intros [[[k w] h] step] C. unfold build_okb in C. rewrite !andb_true_iff in C. destruct C as [[[[[[C1 C2] C3] C4] C5] C6] C7]. exact (bet_ok _ _ _ C1). Qed.
Lemma each_build : forall l m, forallb build_okb l = true -> pairsb (fun b b' => negb (bk b =? bk b')) l = true ->
  exists m', each l run_build m = Ok m' /\ only (fun k => exists b, In b l /\ in_member (bk b) k) m m' /\ forall b, In b l -> bgood b m'.
Proof.
  induction l as [|b l IH]; intros m C P.
  - exists m. split; [reflexivity|]. split; [intros k _; reflexivity|]. intros b [].
  - cbn [forallb] in C. apply andb_prop in C. destruct C as [C Cl]. cbn [pairsb] in P. apply andb_prop in P. destruct P as [P Pl].
    assert (X : exists m1, run_build b m = Ok m1 /\ only (in_member (bk b)) m m1 /\ bgood b m1).
    { destruct b as [[[k w] h] step]. pose proof C as C'. unfold build_okb in C'. rewrite !andb_true_iff in C'. destruct C' as [[[[[[C1 C2] C3] C4] C5] C6] C7].
      apply bet_ok in C1. cbn [run_build bk bgood]. apply (build_ok k w h step); unfold valid; lia. }
    destruct X as (m1 & E & O & G). destruct (IH m1 Cl Pl) as (m' & E' & O' & G').
    exists m'. cbn [each]. rewrite E. cbn [obind]. split; [exact E'|]. split.
    + intros k N. rewrite O', O; [reflexivity| |].
      * intros F. apply N. exists b. split; [left; reflexivity|exact F].
      * intros (b' & I & F). apply N. exists b'. split; [right; exact I|exact F].
    + intros b' [<-|I]; [|exact (G' b' I)]. apply (bgood_keep b _ m1 m' C G O').
      intros k F (b' & I & F'). rewrite forallb_forall in Cl, P. pose proof (P b' I) as Q. pose proof (build_facts b C). pose proof (build_facts b' (Cl b' I)).
      rewrite (in_member_inj (bk b) (bk b') k) in Q; [|unfold valid; lia|unfold valid; lia|exact F|exact F']. rewrite Z.eqb_refl in Q. discriminate.
Qed.
Lemma dc_ok : forall m, exists m', for_ 0 (32 * 32) (fun i m => store (ii_dc, 0) i 32 m) m = Ok m' /\ only (in_member ii_dc) m m' /\
  forall i, 0 <= i < 1024 -> mget m' (inl (base ii_dc + i)) = Some 32.
Proof.
  intros m. assert (S : size ii_dc = 1024) by reflexivity.
  apply (for_inv masks (fun j a => only (in_member ii_dc) m a /\ forall i, 0 <= i < j -> mget a (inl (base ii_dc + i)) = Some 32)); [lia| |].
  - split; [intros k _; reflexivity|]. intros i Hi. lia.
  - intros j a Hj (O & V). destruct (store_ok (ii_dc, 0) j 32 a) as (a' & A & B & C);
      [unfold valid, ii_dc; cbn [fst]; lia|cbn [fst snd]; rewrite S; lia|lia|].
    unfold addr in B, C. cbn [fst snd] in B, C. replace (base ii_dc + 0 + j) with (base ii_dc + j) in B, C by lia.
    exists a'. split; [exact A|]. split.
    + intros k N. rewrite C; [exact (O k N)|]. intros ->. apply N. unfold in_member, range. rewrite S. lia.
    + intros i Hi. destruct (Z.eq_dec i j) as [->|]; [exact B|]. rewrite C; [apply V; lia|]. intros Q. injection Q. lia.
Qed.

(** * The offsets of the inter-intra masks *)
Definition write : Type := (Z * Z * Z)%type.
Definition write_off (o : plane) (x : write) : plane := let '(r, c, v) := x in set2 o r c v.
Definition wkey (x : write) : Z * Z := fst x.
Lemma writes_other : forall ws o r c, (forall v, ~ In (r, c, v) ws) -> fold_left write_off ws o r c = o r c.
Proof.
  induction ws as [|[[r' c'] v'] ws IH]; intros o r c N; [reflexivity|]. cbn [fold_left]. rewrite IH.
  - cbn [write_off]. apply set2_other. destruct (Z.eq_dec r r'), (Z.eq_dec c c'); try lia. subst. exfalso. apply (N v'). left. reflexivity.
  - intros v I. apply (N v). right. exact I.
Qed.
Definition diffb (a b : write) : bool := negb ((fst (wkey a) =? fst (wkey b)) && (snd (wkey a) =? snd (wkey b))).
Lemma writes_in : forall ws o r c v, pairsb diffb ws = true -> In (r, c, v) ws -> fold_left write_off ws o r c = Some v.
Proof.
  induction ws as [|[[r' c'] v'] ws IH]; intros o r c v P I; [destruct I|]. cbn [pairsb] in P. apply andb_prop in P. destruct P as [P Pl].
  cbn [fold_left]. destruct I as [E|I]; [|apply IH; assumption]. injection E as -> -> ->. rewrite writes_other.
  - apply set2_same.
  - intros v0 I. rewrite forallb_forall in P. specialize (P _ I). unfold diffb, wkey in P. cbn [fst snd] in P. rewrite !Z.eqb_refl in P. discriminate.
Qed.
Definition with_off (m : masks) (o : plane) : masks := {| ms_mem := ms_mem m; ms_off := o |}.
Definition ii_bs : list Z := [BS_32x32; BS_32x16; BS_16x32; BS_16x16; BS_16x8; BS_8x16; BS_8x8].
Definition dc_writes : list write := flat_map (fun l => map (fun bs => (l * N_BS + (bs - BS_32x32), 32 + 0, mask_offset (ii_dc, 0))) ii_bs) [0; 1; 2].
Definition assign_writes1 (p : Z) (c : Z * (Z * Z * Z) * (Z * Z * Z) * (Z * Z * Z)) : list write :=
  let '(bs, (k4, w4, h4), (k2, w2, h2), (k0, w0, h0)) := c in
  [ (0 * N_BS + (bs - BS_32x32), 32 + (p + 1), mask_offset (k4, p * w4 * h4)); (1 * N_BS + (bs - BS_32x32), 32 + (p + 1), mask_offset (k2, p * w2 * h2));
    (2 * N_BS + (bs - BS_32x32), 32 + (p + 1), mask_offset (k0, p * w0 * h0)) ].
Definition assign_writes : list write := flat_map (fun p => flat_map (assign_writes1 p) ii_assigns) [0; 1; 2].
Lemma set_off_with : forall l bs col v m, (0 <=? l) && (l <? 3) && (0 <=? bs) && (bs <? N_BS) && (0 <=? col) && (col <? 36) = true ->
  set_off l bs col v m = Ok (with_off m (set2 (ms_off m) (l * N_BS + bs) col v)).
Proof.
  intros l bs col v m H. rewrite !andb_true_iff in H. destruct H as [[[[[H1 H2] H3] H4] H5] H6]. unfold set_off. rewrite H1, H2, H3, H4. cbn [andb].
  rewrite wr2_ok by (unfold N_BS, BS_8x8, BS_32x32 in *; lia). reflexivity.
Qed.
Lemma each_dc : forall c m, 0 <= c < 3 ->
  each ii_bs (fun bs m => set_off c (bs - BS_32x32) (32 + 0) (mask_offset (ii_dc, 0)) m) m =
  Ok (with_off m (fold_left write_off (map (fun bs => (c * N_BS + (bs - BS_32x32), 32 + 0, mask_offset (ii_dc, 0))) ii_bs) (ms_off m))).
Proof.
  intros c m Hc. generalize (mask_offset (ii_dc, 0)) as V. intros V. unfold ii_bs. cbn [each].
  assert (T : forall bs, (0 <=? bs - 7) && (bs - 7 <? N_BS) = true -> forall m, set_off c (bs - 7) (32 + 0) V m = Ok (with_off m (set2 (ms_off m) (c * N_BS + (bs - 7)) (32 + 0) V))).
  { intros bs Hb a. apply set_off_with. apply andb_prop in Hb. destruct Hb as [B1 B2]. rewrite B1, B2. assert (C : c = 0 \/ c = 1 \/ c = 2) by lia. destruct C as [->|[->| ->]]; reflexivity. }
  change BS_32x32 with 7 in *.
  do 7 (rewrite T by reflexivity; cbn [obind]). reflexivity.
Qed.
Lemma dc_off_ok : forall m, for_ 0 3 (fun c m => each [BS_32x32; BS_32x16; BS_16x32; BS_16x16; BS_16x8; BS_8x16; BS_8x8]
    (fun bs m => set_off c (bs - BS_32x32) (32 + 0) (mask_offset (ii_dc, 0)) m) m) m = Ok (with_off m (fold_left write_off dc_writes (ms_off m))).
Proof.
  intros m. change [BS_32x32; BS_32x16; BS_16x32; BS_16x16; BS_16x8; BS_8x16; BS_8x8] with ii_bs.
  unfold for_. change (Z.to_nat (3 - 0)) with 3%nat. cbn [ofor].
  rewrite each_dc by lia. cbn [obind]. rewrite each_dc by lia. cbn [obind]. rewrite each_dc by lia. cbn [obind]. unfold dc_writes. cbn [flat_map].
  rewrite app_nil_r, !fold_left_app. reflexivity.
Qed.
Lemma each_assign : forall p l m, 0 <= p < 3 -> forallb (fun c => let '(bs, _, _, _) := c in (0 <=? bs - BS_32x32) && (bs - BS_32x32 <? N_BS)) l = true ->
  each l (run_assign p) m = Ok (with_off m (fold_left write_off (flat_map (assign_writes1 p) l) (ms_off m))).
Proof.
  intros p l m Hp. revert m. induction l as [|c l IH]; intros m C; [destruct m; reflexivity|]. cbn [forallb] in C. apply andb_prop in C. destruct C as [C Cl].
  cbn [each flat_map]. destruct c as [[[bs [[k4 w4] h4]] [[k2 w2] h2]] [[k0 w0] h0]]. cbn [run_assign]. apply andb_prop in C. destruct C as [C1 C2].
  assert (CP : (0 <=? 32 + (p + 1)) = true /\ (32 + (p + 1) <? 36) = true) by lia. destruct CP as [P1 P2].
  rewrite set_off_with by (rewrite C1, C2, P1, P2; reflexivity). cbn [obind].
  rewrite set_off_with by (rewrite C1, C2, P1, P2; reflexivity). cbn [obind].
  rewrite set_off_with by (rewrite C1, C2, P1, P2; reflexivity). cbn [obind]. rewrite (IH _ Cl). reflexivity.
Qed.
Lemma assign_gen : forall l m, forallb (fun c => let '(bs, _, _, _) := c in (0 <=? bs - BS_32x32) && (bs - BS_32x32 <? N_BS)) l = true ->
  for_ 0 3 (fun p m => each l (run_assign p) m) m = Ok (with_off m (fold_left write_off (flat_map (fun p => flat_map (assign_writes1 p) l) [0; 1; 2]) (ms_off m))).
Proof.
  intros l m C. unfold for_. change (Z.to_nat (3 - 0)) with 3%nat. cbn [ofor].
  rewrite each_assign by (lia || exact C). cbn [obind]. rewrite each_assign by (lia || exact C). cbn [obind].
  rewrite each_assign by (lia || exact C). cbn [obind]. cbn [flat_map]. rewrite app_nil_r, !fold_left_app. reflexivity.
Qed.
Lemma assign_ok : forall m, for_ 0 3 (fun p m => each ii_assigns (run_assign p) m) m = Ok (with_off m (fold_left write_off assign_writes (ms_off m))).
Proof. intros m. apply (assign_gen ii_assigns). reflexivity. Qed.
Lemma writes_check : pairsb diffb (dc_writes ++ assign_writes) = true /\ forallb (fun x : write => 32 <=? snd (fst x)) (dc_writes ++ assign_writes) = true.
Proof. split; vm_compute; reflexivity. Qed.

(** * All of it *)
Definition FI (k : key) : Prop := (exists j, 28 <= j <= 37 /\ in_member j k) \/ exists r c, k = inr (r, c) /\ 32 <= c.
Definition ii_good (m : masks) : Prop :=
  (forall i, 0 <= i < 1024 -> mget m (inl (base ii_dc + i)) = Some 32) /\
  (forall r c v, In (r, c, v) (dc_writes ++ assign_writes) -> mget m (inr (r, c)) = Some v) /\
  (forall b, In b ii_builds -> bgood b m).
Definition dc_part (m : masks) : outcome masks := for_ 0 (32 * 32) (fun i m => store (ii_dc, 0) i 32 m) m.
Definition dc_off_part (m : masks) : outcome masks := for_ 0 3 (fun c m => each [BS_32x32; BS_32x16; BS_16x32; BS_16x16; BS_16x8; BS_8x16; BS_8x8]
    (fun bs m => set_off c (bs - BS_32x32) (32 + 0) (mask_offset (ii_dc, 0)) m) m) m.
Definition build_part (m : masks) : outcome masks := each ii_builds run_build m.
Definition assign_part (m : masks) : outcome masks := for_ 0 3 (fun p m => each ii_assigns (run_assign p) m) m.
Lemma four_binds : forall (a b c d : masks -> outcome masks) m m1 m2 m3, a m = Ok m1 -> b m1 = Ok m2 -> c m2 = Ok m3 ->
  obind (a m) (fun m => obind (b m) (fun m => obind (c m) d)) = d m3.
Proof. intros a b c d m m1 m2 m3 A B C. rewrite A. cbn [obind]. rewrite B. cbn [obind]. rewrite C. reflexivity. Qed.
Lemma rest_part_ok : forall m, exists m',
  obind (dc_part m) (fun m => obind (dc_off_part m) (fun m => obind (build_part m) assign_part)) = Ok m' /\ only FI m m' /\ ii_good m'.
Proof.
  intros m. destruct (dc_ok m) as (m1 & E1 & O1 & V1). pose proof (dc_off_ok m1) as E2. set (m2 := with_off m1 _) in E2.
  pose proof builds_check as BC. apply andb_prop in BC. destruct BC as [BC1 BC2].
  destruct (each_build ii_builds m2 BC1 BC2) as (m3 & E3 & O3 & G3). pose proof (assign_ok m3) as E4. set (m4 := with_off m3 _) in E4.
  exists m4. split; [rewrite (four_binds dc_part dc_off_part build_part assign_part m m1 m2 m3 E1 E2 E3); exact E4|].
  destruct writes_check as [WC1 WC2]. rewrite forallb_forall in WC2.
  assert (W32 : forall r c v, In (r, c, v) (dc_writes ++ assign_writes) -> 32 <= c).
  { intros r c v I. specialize (WC2 _ I). cbn [fst snd] in WC2. lia. }
  assert (M2 : forall a, mget m2 (inl a) = mget m1 (inl a)) by reflexivity. assert (M4 : forall a, mget m4 (inl a) = mget m3 (inl a)) by reflexivity.
  assert (NB : forall r c, ~ (exists b, In b ii_builds /\ in_member (bk b) (inr (r, c)))) by (intros r c (b & _ & []); fail).
  assert (P4 : forall r c, mget m4 (inr (r, c)) = fold_left write_off (dc_writes ++ assign_writes) (ms_off m1) r c).
  { intros r c. rewrite fold_left_app. cbn [mget]. unfold m4. cbn [with_off ms_off].
    assert (X : forall r c, ms_off m3 r c = fold_left write_off dc_writes (ms_off m1) r c).
    { intros r' c'. pose proof (O3 (inr (r', c')) (NB r' c')) as Q. exact Q. }
    revert X. generalize (fold_left write_off dc_writes (ms_off m1)) as o1. generalize (ms_off m3) as o2.
    clear. generalize assign_writes as ws. intros ws. revert r c. induction ws as [|[[r' c'] v'] ws IH]; intros r c o2 o1 X; [apply X|].
    cbn [fold_left]. apply IH. intros r0 c0. cbn [write_off]. unfold set2. rewrite X. reflexivity. }
  split.
  - intros k N. destruct k as [a|[r c]].
    + rewrite M4. rewrite O3.
      * rewrite M2. apply O1. intros F. apply N. left. exists ii_dc. split; [unfold ii_dc; lia|exact F].
      * intros (b & I & F). apply N. left. exists (bk b). rewrite forallb_forall in BC1. pose proof (build_facts b (BC1 b I)). split; [lia|exact F].
    + rewrite P4, writes_other.
      * exact (O1 (inr (r, c)) (fun F => F)).
      * intros v I. apply N. right. exists r, c. split; [reflexivity|exact (W32 r c v I)].
  - split; [|split].
    + intros i Hi. rewrite M4. rewrite O3; [rewrite M2; exact (V1 i Hi)|]. intros (b & I & F). rewrite forallb_forall in BC1. pose proof (build_facts b (BC1 b I)).
      assert (X : in_member ii_dc (inl (base ii_dc + i))) by (unfold in_member, range; assert (S : size ii_dc = 1024) by reflexivity; rewrite S; lia).
      pose proof (in_member_inj (bk b) ii_dc _ ltac:(unfold valid; lia) ltac:(unfold valid, ii_dc; lia) F X). unfold ii_dc in *. lia.
    + intros r c v I. rewrite P4. apply writes_in; assumption.
    + intros b I. rewrite forallb_forall in BC1. apply (bgood_keep b (fun k => exists p, k = inr p) m3); [exact (BC1 b I)|exact (G3 b I)| |].
      * intros [a|p] N; [apply M4|]. exfalso. apply N. exists p. reflexivity.
      * intros k F (p & ->). exact F.
Qed.
Local Strategy expand [init_ii_wedge_masks dc_part dc_off_part build_part assign_part].
Definition tail_part (m : masks) : outcome masks := obind (dc_part m) (fun m => obind (dc_off_part m) (fun m => obind (build_part m) assign_part)).
Definition fill_part (master : plane) : outcome masks := each fills (run_fill master) masks0.
Local Strategy expand [tail_part fill_part].
Lemma init_eq : init_ii_wedge_masks = obind make_master (fun master => obind (fill_part master) tail_part).
Proof. reflexivity. Qed.
Lemma init_binds : forall (a : outcome plane) (b : plane -> outcome masks) (c : masks -> outcome masks) p m, a = Ok p -> b p = Ok m ->
  obind a (fun p => obind (b p) c) = c m.
Proof. intros a b c p m -> E. cbn [obind]. rewrite E. reflexivity. Qed.
Lemma init_ok : exists m, init_ii_wedge_masks = Ok m /\ (forall c, In c fills -> callGood c m) /\ ii_good m.
Proof.
  rewrite init_eq. destruct make_master_ok as (master & E1 & HM).
  destruct (each_fill master fills masks0 HM fills_check fills_apart) as (m1 & E2 & O & G).
  destruct (rest_part_ok m1) as (m2 & E3 & O' & G').
  exists m2. split; [|split; [|exact G']].
  - etransitivity; [exact (init_binds make_master fill_part tail_part master m1 E1 E2)|exact E3].
  - intros c I. apply (callGood_keep c FI m1 m2 (G c I) O'). intros k F F'. apply callFC_of in F.
    pose proof fills_check as FK. rewrite forallb_forall in FK. specialize (FK c I).
    destruct F as [(j & Ij & M)|(l & col & -> & Hl & Hc)], F' as [(j' & Hj' & M')|(r & col' & E & Hc')].
    + pose proof (call_mem c j FK Ij). pose proof (in_member_inj j j' k ltac:(unfold valid; lia) ltac:(unfold valid; lia) M M'). lia.
    + subst k. exact M.
    + exact M'.
    + injection E as _ ->. lia.
Qed.

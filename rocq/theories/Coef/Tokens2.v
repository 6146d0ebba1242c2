(** The loops over the levels. *)
From Coq Require Import ZArith List Bool Lia Permutation.
From Verif Require Import Base.CInt Base.Lemmas Itx.ScanTables Itx.Txfm2d Itx.Spec2d Itx.Proofs2d Itx.ScanProofs
  Coef.Prog Coef.Model Coef.Ctx Coef.Types Coef.Geo Coef.Tokens.
From Verif Require Coef.Spec.
Import ListNotations.
Open Scope Z_scope.

Lemma stored_facts : forall tx p, (tx < 19)%nat -> (p < scan_w tx * scan_h tx)%nat ->
  exists k, stored_at tx p = Z.of_nat k /\ (k < scan_w tx * scan_h tx)%nat /\ (k < 1024)%nat /\
  (p / scan_w tx)%nat = (k mod scan_h tx)%nat /\ (p mod scan_w tx)%nat = (k / scan_h tx)%nat.
Proof.
  intros tx p TX P. destruct (scan_wh tx TX) as (W & H & _).
  destruct (split_pos _ _ p P) as (i & j & Hi & Hj & E). destruct (div_mod_pos (scan_w tx) i j Hj) as [D1 D2].
  unfold stored_at, stored. rewrite E, D1, D2. exists (j * scan_h tx + i)%nat.
  destruct (div_mod_pos (scan_h tx) j i Hi) as [D3 D4]. rewrite D3, D4. repeat split; nia.
Qed.
Lemma stored_inj : forall tx p p', (tx < 19)%nat -> (p < scan_w tx * scan_h tx)%nat -> (p' < scan_w tx * scan_h tx)%nat ->
  stored_at tx p = stored_at tx p' -> p = p'.
Proof.
  intros tx p p' TX P P' E. destruct (stored_facts tx p TX P) as (k & K & _ & _ & K1 & K2).
  destruct (stored_facts tx p' TX P') as (k' & K' & _ & _ & K1' & K2'). assert (k = k') by (clear - E K K'; lia). subst k'.
  destruct (scan_wh tx TX) as (W & _). rewrite (Nat.div_mod p (scan_w tx)), (Nat.div_mod p' (scan_w tx)) by lia. congruence.
Qed.
Lemma near_zero : forall I lim r c l, 0 <= lim -> Spec.near I (fun _ => 0) lim r c l = 0.
Proof. intros I lim r c l L. unfold Spec.near. induction l as [|d l IH]; cbn [fold_right]; auto. rewrite IH. destruct (_ && _); lia. Qed.

Lemma class_eq : forall c, {c = Spec.TX_CLASS_2D} + {c <> Spec.TX_CLASS_2D}.
Proof. intros c. destruct c; [left; reflexivity|right; discriminate..]. Defined.

Section LOOP.
Set Default Proof Using "All".
Variables (I : Spec.info) (e : env) (txtp : Z) (ty : nat).
Hypothesis M : matches I e txtp.
Local Notation tx := (Spec.i_tx I).
Local Notation tw := (scan_w tx).
Local Notation th := (scan_h tx).
Local Notation cls := (Spec.get_tx_class ty).
Local Notation N := (tw * th)%nat.
Local Notation s := (str cls th).
Local Notation pos := (pos I ty).
Local Notation cx := (cx I ty).
Local Notation cy := (cy I ty).
Local Notation rcof c := (stored_at tx (pos c)).
Hypothesis TX : (tx < 19)%nat.
Hypothesis TY : (ty < 16)%nat.
Hypothesis AL : allowed tx ty = true.
Variable eob : nat.
Hypothesis EOB : (1 <= eob <= N)%nat.
Variable cf0 : list Z.
Hypothesis CFL : (N <= length cf0)%nat.

(** the place of the first coefficient that is not zero among [c], .., [c + k - 1] *)
Fixpoint link (Q : Spec.array) (c k : nat) : Z :=
  match k with O => 0 | S k => if Q (pos c) =? 0 then link Q (S c) k else rcof c end.
Definition cell (Q : Spec.array) (n c : nat) : Z :=
  if Nat.leb n c && Nat.ltb c eob && negb (Q (pos c) =? 0) then Q (pos c) * 2048 + link Q (S c) (eob - S c) else 0.
Definition CF (cf : list Z) (Q : Spec.array) (n : nat) : Prop :=
  length cf = length cf0 /\ skipn N cf = skipn N cf0 /\
  forall c, (c < N)%nat -> rd_at cf (rcof c) = Ok (cell Q n c).

Lemma rc_range : forall c, (c < N)%nat -> 0 <= rcof c < 1024.
Proof. intros c C. destruct (stored_facts tx (pos c) TX (pos_lt I ty TX TY AL c C)) as (k & -> & _ & K & _). lia. Qed.
Lemma rc_nz : forall c, (0 < c < N)%nat -> rcof c <> 0.
Proof.
  intros c C E. assert (P0 := pos_0 I ty TX TY AL).
  assert (E0 : stored_at tx 0 = 0) by (unfold stored_at, stored; destruct (scan_wh tx TX) as (W & _); rewrite Nat.mod_0_l, Nat.div_0_l by lia; lia).
  assert (K : pos c = 0%nat).
  { apply (stored_inj tx); auto; [apply (pos_lt I ty TX TY AL); lia|lia|congruence]. }
  rewrite <- P0 in K. apply (pos_inj I ty TX TY AL) in K; lia.
Qed.
Lemma link_range : forall Q k c, (c + k <= N)%nat -> 0 <= link Q c k < 1024.
Proof.
  intros Q k. induction k as [|k IH]; intros c C; cbn [link]; [lia|]. destruct (_ =? 0); [apply IH; lia|apply rc_range; lia].
Qed.
Lemma set_other : forall (Q : Spec.array) c c' v, (c < N)%nat -> (c' < N)%nat -> c <> c' -> Spec.set Q (pos c) v (pos c') = Q (pos c').
Proof.
  intros Q c c' v C C' D. unfold Spec.set. destruct (Nat.eqb_spec (pos c') (pos c)) as [E|E]; auto.
  apply (pos_inj I ty TX TY AL) in E; auto. congruence.
Qed.
Lemma set_same : forall (Q : Spec.array) c v, Spec.set Q (pos c) v (pos c) = v.
Proof. intros. unfold Spec.set. rewrite Nat.eqb_refl. reflexivity. Qed.
Lemma link_set : forall Q p v k c, (p < c)%nat -> (c + k <= N)%nat -> link (Spec.set Q (pos p) v) c k = link Q c k.
Proof.
  intros Q p v k. induction k as [|k IH]; intros c P C; cbn [link]; auto. rewrite set_other by lia. rewrite IH by lia. reflexivity.
Qed.
Lemma wr_rc : forall (cf : list Z) c (v : Z), (c < N)%nat -> length cf = length cf0 ->
  exists cf', wr_at cf (rcof c) v = Ok cf' /\ length cf' = length cf0 /\ skipn N cf' = skipn N cf /\
  forall c', (c' < N)%nat -> rd_at cf' (rcof c') = if Nat.eqb c' c then Ok v else rd_at cf (rcof c').
Proof.
  intros cf c v C L. destruct (stored_facts tx (pos c) TX (pos_lt I ty TX TY AL c C)) as (k & E & K1 & K2 & _).
  exists (upd_nat cf k v). rewrite E. split; [|split; [rewrite upd_nat_length; auto|split]].
  - unfold wr_at. rewrite (proj2 (Z.leb_le _ _)), (proj2 (Z.ltb_lt _ _)) by (unfold zlen; lia). cbn [andb]. rewrite Nat2Z.id. reflexivity.
  - clear - K1. revert k K1. set (n := (tw * th)%nat). clearbody n. revert cf.
    induction n as [|n IH]; intros cf k K; [lia|]. destruct cf as [|x cf]; destruct k as [|k]; cbn [upd_nat skipn]; auto. apply IH. lia.
  - intros c' C'. destruct (stored_facts tx (pos c') TX (pos_lt I ty TX TY AL c' C')) as (k' & E' & K1' & _). rewrite E'.
    rewrite !rd_at_nat with (d := 0) by (rewrite ?upd_nat_length; lia). rewrite upd_nat_nth by lia.
    destruct (Nat.eqb_spec c' c) as [ -> |D].
    + assert (k' = k) by lia. subst. rewrite Nat.eqb_refl. reflexivity.
    + destruct (Nat.eqb_spec k' k) as [ -> |]; auto. exfalso. apply D. apply (pos_inj I ty TX TY AL); auto.
      apply (stored_inj tx); auto; try apply (pos_lt I ty TX TY AL); auto. lia.
Qed.

(** what holds when the coefficients of the scan indices [n], .., [eob] - 1 have been read *)
Record inv (n : nat) (st : st) (Q : Spec.array) : Prop := {
  v_lv : LV I ty (s_levels st) Q;
  v_ok : levels_ok Q;
  v_lo : forall c, (c < n)%nat -> Q (pos c) = 0;
  v_hi : forall c, (eob <= c < N)%nat -> Q (pos c) = 0;
  v_last : 1 <= Q (pos (eob - 1));
  v_rc : s_rc st = link Q n (eob - n);
  v_cf : CF (s_cf st) Q n }.

Lemma CF_step : forall cf Q c v w, CF cf Q (S c) -> (c < eob)%nat ->
  w = (if v =? 0 then 0 else v * 2048 + link Q (S c) (eob - S c)) ->
  exists cf', wr_at cf (rcof c) w = Ok cf' /\ CF cf' (Spec.set Q (pos c) v) c.
Proof.
  intros cf Q c v w (L & SK & R) C W. destruct (wr_rc cf c w ltac:(lia) L) as (cf' & W1 & W2 & W3 & W4).
  exists cf'. split; auto. split; auto. split; [congruence|]. intros c' C'. rewrite W4 by auto. unfold cell.
  destruct (Nat.eqb_spec c' c) as [ -> |D].
  - rewrite set_same. rewrite Nat.leb_refl, (proj2 (Nat.ltb_lt _ _) C). cbn [andb]. rewrite link_set by lia. subst w. destruct (v =? 0); reflexivity.
  - rewrite R by auto. unfold cell. rewrite set_other by lia. destruct (Nat.leb_spec (S c) c'), (Nat.leb_spec c c'); try lia; cbn [andb]; auto.
    rewrite (link_set Q c v (eob - S c') (S c')) by lia. reflexivity.
Qed.

(** storing the level [v] of index [c] *)
Lemma store_step : forall st Q c v, inv (S c) st Q -> (S c < eob)%nat -> 0 <= v <= 15 ->
  exists levels' cf', wr_at (s_levels st) (Z.of_nat (cx c) * Z.of_nat s + Z.of_nat (cy c)) (lvl v) = Ok levels' /\
  wr_at (s_cf st) (rcof c) (if v =? 0 then 0 else v * 2048 + s_rc st) = Ok cf' /\
  inv c (mkSt (if v =? 0 then s_rc st else rcof c) cf' levels') (Spec.set Q (pos c) v).
Proof.
  intros st Q c v V C VR. destruct (cxy I ty TX TY AL c ltac:(lia)) as (X & Y & PE).
  destruct (LV_set I ty TX TY AL _ Q (cx c) (cy c) v (v_lv _ _ _ V) X Y) as (lev & W1 & L1).
  destruct (CF_step _ Q c v _ (v_cf _ _ _ V) ltac:(lia) eq_refl) as (cf & W2 & C2).
  exists lev, cf. split; auto. rewrite (v_rc _ _ _ V). split; auto. rewrite PE in L1.
  constructor; cbn [s_levels s_rc s_cf]; auto.
  - intros p. unfold Spec.set. destruct (Nat.eqb p (pos c)); [lia|apply (v_ok _ _ _ V)].
  - intros c' C'. rewrite set_other by lia. apply (v_lo _ _ _ V). lia.
  - intros c' C'. rewrite set_other by lia. apply (v_hi _ _ _ V). lia.
  - rewrite set_other by lia. apply (v_last _ _ _ V).
  - replace (eob - c)%nat with (S (eob - S c)) by lia. cbn [link]. rewrite set_same. rewrite link_set by lia. reflexivity.
Qed.

Variables (slw slh : Z) (lo : option (list (list Z))).
Hypothesis SLW : 0 <= slw <= 3.
Hypothesis SLH : 0 <= slh <= 3.
Hypothesis EW : Z.of_nat tw = 2 ^ (slw + 2).
Hypothesis EH : Z.of_nat th = 2 ^ (slh + 2).
Hypothesis LO : lo_ok I ty lo.
Local Notation shift := (match cls with Spec.TX_CLASS_VERT => slw + 2 | _ => slh + 2 end).
Local Notation shift2 := (match cls with Spec.TX_CLASS_VERT => slh + 2 | _ => 0 end).
Local Notation mask := (match cls with Spec.TX_CLASS_VERT => Z.of_nat tw - 1 | _ => Z.of_nat th - 1 end).
Local Notation ctx0 := (Spec.txSzCtx I).
Local Notation actok := (ac_tok e (mcls ty) (mscan I ty) lo (Z.of_nat s) shift shift2 mask ctx0).
Local Notation actoks := (ac_toks e (mcls ty) (mscan I ty) lo (Z.of_nat s) shift shift2 mask ctx0).
Local Notation near Q p := (Spec.near I Q 15 (p / Spec.tw I) (p mod Spec.tw I) (Spec.mag_ref ty)).

Lemma near_pos : forall Q c, levels_ok Q -> (c < N)%nat -> 0 <= near Q (pos c) <= 45.
Proof.
  intros Q c QO C. rewrite (near_xy I ty TX TY AL) by (auto; lia).
  assert (NR : forall x y, 0 <= nbv I ty Q x y <= 15) by (intros; apply (nbv_range I ty TX TY AL); auto).
  unfold Spec.mag_ref. destruct cls; cbn [fold_right fst snd];
    match goal with |- 0 <= Z.min ?a 15 + (Z.min ?b 15 + (Z.min ?c 15 + 0)) <= 45 =>
      assert (0 <= a) by (apply NR); assert (0 <= b) by (apply NR); assert (0 <= c) by (apply NR); clear - H H0 H1; lia end.
Qed.
Lemma pos_nz : forall c, (0 < c < N)%nat -> pos c <> 0%nat.
Proof. intros c C E. apply (rc_nz c C). rewrite E. unfold stored_at, stored. destruct (scan_wh tx TX) as (W & _). rewrite Nat.mod_0_l, Nat.div_0_l by lia. lia. Qed.
Lemma br_ctx_eq : forall Q c, (0 < c < N)%nat -> levels_ok Q ->
  (if b2z (is2d (mcls ty)) <? (if is2d (mcls ty) then Z.lor (Z.of_nat (cy c)) (Z.of_nat (cx c)) else Z.of_nat (cy c)) then 14 else 7) +
  (if 12 <? near Q (pos c) then 6 else Z.shiftr (near Q (pos c) + 1) 1) = Spec.br_ctx I ty Q (pos c) /\
  0 <= Spec.br_ctx I ty Q (pos c) < 21.
Proof.
  intros Q c C QO. pose proof (near_pos Q c QO ltac:(lia)) as NP. rewrite hi_mag_ctx by (apply NP || assumption || lia).
  assert (MR : 0 <= Z.min ((near Q (pos c) + 1) / 2) 6 <= 6) by (split; [apply Z.min_glb; [apply Z.div_pos; lia|lia]|apply Z.le_min_r]).
  unfold Spec.br_ctx. set (m := Z.min ((near Q (pos c) + 1) / 2) 6) in *. clearbody m. clear NP.
  rewrite (proj2 (Nat.eqb_neq _ _) (pos_nz c C)). change (Spec.tw I) with tw.
  pose proof (cxy_2d I ty c) as C2. pose proof (cxy_h I ty c) as CH.
  unfold mcls. destruct cls; cbn [is2d b2z].
  - destruct C2 as [ -> -> ]; [discriminate|]. rewrite lor_gt1. destruct (_ && _); cbn [negb]; lia.
  - destruct CH as [ _ -> ]; auto. destruct (Nat.eqb_spec (pos c mod tw) 0) as [ -> |]; [change (0 <? Z.of_nat 0) with false; cbv iota; split; [ring|lia]|].
    rewrite (proj2 (Z.ltb_lt _ _)) by lia. lia.
  - destruct C2 as [ _ -> ]; [discriminate|]. destruct (Nat.eqb_spec (pos c / tw) 0) as [ -> |]; [change (0 <? Z.of_nat 0) with false; cbv iota; split; [ring|lia]|].
    set (q := (pos c / tw)%nat) in *. clearbody q. rewrite (proj2 (Z.ltb_lt _ _)) by lia. lia.
Qed.

Lemma ac_step : forall c st Q, (0 < c)%nat -> (S c < eob)%nat -> inv (S c) st Q ->
  sim cdf_of (inv c) (actok (Z.of_nat c) st) (Spec.read_level I ty c false Q).
Proof.
  intros c st Q C0 C V. unfold ac_tok. rewrite (scan_pos_spec I ty TX TY AL slw slh c ltac:(lia) ltac:(lia) ltac:(lia) EW EH).
  cbn [lift bind]. destruct (cxy I ty TX TY AL c ltac:(lia)) as (X & Y & PE). pose proof (geo_ranges I ty TX TY AL) as G.
  match goal with |- context [if ?b then _ else _] => replace b with true end.
  2:{ symmetry. rewrite !andb_true_iff, !Z.leb_le, !Z.ltb_lt. lia. }
  destruct (lo_ctx_spec I e txtp ty M TY AL (s_levels st) Q lo c (v_lv _ _ _ V) ltac:(lia)) as (hi & E1 & E2 & E3).
  { intros c' C'. apply (v_lo _ _ _ V). lia. }
  { apply (v_ok _ _ _ V). }
  { exact LO. }
  { intros _. apply pos_nz. lia. }
  rewrite E1. cbn [lift bind]. unfold lo_cdf. rewrite (proj2 (Z.leb_le _ _)), (proj2 (Z.ltb_lt _ _)) by apply E3. cbn [andb bind read].
  unfold Spec.read_level. change (Spec.scan I ty c) with (pos c). cbn [bind read].
  constructor; [cbn [cdf_of]; rewrite (m_chroma _ _ _ M); reflexivity|]. intros v VR. cbn [bind].
  destruct (Z.eqb_spec v 3) as [ -> |NE].
  - change (2 <? 3) with true. cbv iota. rewrite E2. destruct (br_ctx_eq Q c ltac:(lia) (v_ok _ _ _ V)) as [B1 B2].
    rewrite B1. unfold hi_cdf. rewrite (proj2 (Z.leb_le _ _)), (proj2 (Z.ltb_lt _ _)) by apply B2. cbn [andb bind].
    eapply sim_bind; [apply (hi_tok_spec I e txtp ty M TY)|]. intros t b [<- TR].
    rewrite big_level by lia.
    assert (RR : 0 <= s_rc st < 1024) by (rewrite (v_rc _ _ _ V); apply link_range; lia).
    rewrite big_tok by lia.
    destruct (store_step st Q c t V C ltac:(lia)) as (lev & cf & W1 & W2 & W3).
    rewrite (proj2 (Z.eqb_neq t 0)) in * by lia. rewrite W1. cbn [lift bind]. rewrite W2. cbn [lift bind]. constructor. auto.
  - rewrite (proj2 (Z.ltb_ge 2 v)) by lia. cbn [bind].
    rewrite (proj1 (small_level v ltac:(lia))).
    assert (RR : 0 <= s_rc st < 1024) by (rewrite (v_rc _ _ _ V); apply link_range; lia).
    rewrite small_tok by lia.
    destruct (store_step st Q c v V C ltac:(lia)) as (lev & cf & W1 & W2 & W3). rewrite W1. cbn [lift bind].
    rewrite to_coef_small by (destruct (v =? 0); lia). rewrite W2. cbn [lift bind]. constructor.
    destruct (Z.eqb_spec v 0) as [ -> |NZ]; [exact W3|]. rewrite (proj2 (Z.eqb_neq (v * 2048 + s_rc st) 0)) by lia. exact W3.
Qed.
Lemma ac_loop : forall A (R : A -> Spec.array -> Prop) (K : _ -> P A) n st Q, (S n < eob)%nat -> inv (S n) st Q ->
  (forall st' Q', inv 1 st' Q' -> sim cdf_of R (K st') (Spec.read_levels I ty 1 Q')) ->
  sim cdf_of R (bind (actoks n st) K) (Spec.read_levels I ty (S n) Q).
Proof.
  intros A R K n. induction n as [|n IH]; intros st Q C V H.
  - apply H. exact V.
  - cbn [ac_toks]. apply sim_assoc. change (Spec.read_levels I ty (S (S n)) Q) with
      (bind (Spec.read_level I ty (S n) false Q) (fun Q => Spec.read_levels I ty (S n) Q)).
    eapply sim_bind; [apply ac_step; auto; lia|]. intros st' Q' V'. apply IH; auto. lia.
Qed.

Definition tokens_post (r : Z * Z * list Z) (Q : Spec.array) : Prop :=
  let '(dc_tok, rc, cf) := r in
  dc_tok = Q 0%nat /\ rc = link Q 1 (eob - 1) /\ CF cf Q 1 /\ levels_ok Q /\
  (forall c, (eob <= c < N)%nat -> Q (pos c) = 0) /\ 1 <= Q (pos (eob - 1)).

Lemma base_eob_eq : (2 <= eob)%nat ->
  1 + b2z (Z.shiftl 2 (slw + slh) <? Z.of_nat (eob - 1)) + b2z (Z.shiftl 4 (slw + slh) <? Z.of_nat (eob - 1)) =
  Spec.base_eob_ctx I (eob - 1).
Proof.
  intros E2. unfold Spec.base_eob_ctx. change (Spec.tw I) with tw. change (Spec.th I) with th.
  rewrite (proj2 (Nat.eqb_neq _ _)) by lia.
  assert (A : Z.shiftl 2 (slw + slh) = Z.of_nat (N / 8) /\ Z.shiftl 4 (slw + slh) = Z.of_nat (N / 4)).
  { rewrite !Nat2Z.inj_div, Nat2Z.inj_mul, EW, EH. clear - SLW SLH.
    assert (A : slw = 0 \/ slw = 1 \/ slw = 2 \/ slw = 3) by lia. assert (B : slh = 0 \/ slh = 1 \/ slh = 2 \/ slh = 3) by lia.
    destruct A as [ -> |[ -> |[ -> | -> ]]]; destruct B as [ -> |[ -> |[ -> | -> ]]]; split; reflexivity. }
  destruct A as [ -> -> ]. assert (D : (N / 8 <= N / 4)%nat) by (apply Nat.div_le_compat_l; lia).
  set (a := (N / 8)%nat) in *. set (b := (N / 4)%nat) in *. clearbody a b.
  destruct (Nat.leb_spec (eob - 1) a), (Nat.leb_spec (eob - 1) b), (Z.ltb_spec (Z.of_nat a) (Z.of_nat (eob - 1))), (Z.ltb_spec (Z.of_nat b) (Z.of_nat (eob - 1))); cbn [b2z]; lia.
Qed.

Lemma inv_first : forall t rc, 1 <= t <= 15 -> (2 <= eob)%nat -> skipn N cf0 = skipn N cf0 -> (forall c, (c < N)%nat -> rd_at cf0 (rcof c) = Ok 0) ->
  rc = rcof (eob - 1) ->
  exists cf lev, wr_at cf0 rc (t * 2048) = Ok cf /\
    wr_at (repeat 0 (s * (XX cls tw th + 2))) (Z.of_nat (cx (eob - 1)) * Z.of_nat s + Z.of_nat (cy (eob - 1))) (lvl t) = Ok lev /\
    inv (eob - 1) (mkSt rc cf lev) (Spec.set (fun _ => 0) (pos (eob - 1)) t).
Proof.
  intros t rc T E2 _ Z0 ->. destruct (cxy I ty TX TY AL (eob - 1) ltac:(lia)) as (X & Y & PE).
  destruct (LV_set I ty TX TY AL _ _ _ _ t (LV_init I ty TX TY AL) X Y) as (lev & W1 & L1). rewrite PE in L1.
  destruct (CF_step cf0 (fun _ => 0) (eob - 1) t (t * 2048)) as (cf & W2 & C2).
  { split; auto. split; auto. intros c C. rewrite Z0 by auto. unfold cell. rewrite Z.eqb_refl, andb_false_r. reflexivity. }
  { lia. }
  { rewrite (proj2 (Z.eqb_neq t 0)) by lia. replace (eob - S (eob - 1))%nat with 0%nat by lia. cbn [link]. lia. }
  exists cf, lev. split; auto. split; auto. constructor; cbn [s_levels s_rc s_cf]; auto.
  - intros p. unfold Spec.set. destruct (Nat.eqb p _); lia.
  - intros c C. rewrite set_other by lia. reflexivity.
  - intros c C. rewrite set_other by lia. reflexivity.
  - rewrite set_same. lia.
  - replace (eob - (eob - 1))%nat with 1%nat by lia. cbn [link]. rewrite set_same. rewrite (proj2 (Z.eqb_neq t 0)) by lia. reflexivity.
Qed.

Lemma link_ext : forall Q Q' k c, (forall c', (c <= c' < c + k)%nat -> Q (pos c') = Q' (pos c')) -> link Q c k = link Q' c k.
Proof.
  intros Q Q' k. induction k as [|k IH]; intros c H; cbn [link]; auto. rewrite H by lia. rewrite (IH (S c)) by (intros; apply H; lia). reflexivity.
Qed.
(** the end: the DC coefficient *)
Lemma dc_step : forall st Q v, inv 1 st Q -> (2 <= eob)%nat -> 0 <= v <= 15 -> tokens_post (v, s_rc st, s_cf st) (Spec.set Q (pos 0) v).
Proof.
  intros st Q v V E2 VR. unfold tokens_post.
  split; [rewrite <- (pos_0 I ty TX TY AL) at 2; rewrite set_same; reflexivity|].
  split; [rewrite (v_rc _ _ _ V), link_set by lia; reflexivity|].
  split; [|split; [|split]].
  - destruct (v_cf _ _ _ V) as (L & SK & R). split; auto. split; auto. intros c C. rewrite R by auto. unfold cell.
    destruct (Nat.leb_spec 1 c); cbn [andb]; auto. rewrite set_other by lia. rewrite link_set by lia. reflexivity.
  - intros p. unfold Spec.set. destruct (Nat.eqb p (pos 0)); [lia|apply (v_ok _ _ _ V)].
  - intros c C. rewrite set_other by lia. apply (v_hi _ _ _ V). auto.
  - rewrite set_other by lia. apply (v_last _ _ _ V).
Qed.

Lemma mcls_2d : is2d (mcls ty) = match cls with Spec.TX_CLASS_2D => true | _ => false end.
Proof. unfold mcls. destruct cls; reflexivity. Qed.

Lemma class_toks_spec : (2 <= eob)%nat -> (forall c, (c < N)%nat -> rd_at cf0 (rcof c) = Ok 0) ->
  sim cdf_of tokens_post
    (class_toks e (mcls ty) (mscan I ty) lo (Z.of_nat s) shift shift2 mask ctx0 (Z.of_nat (eob - 1)) (slw + slh) cf0
       (repeat 0 (s * (XX cls tw th + 2))))
    (Spec.read_all_levels I ty eob).
Proof.
  intros E2 Z0. unfold class_toks, Spec.read_all_levels, Spec.read_level. rewrite base_eob_eq by auto.
  change (Spec.scan I ty (eob - 1)) with (pos (eob - 1)). cbn [bind read].
  constructor; [cbn [cdf_of]; rewrite (m_chroma _ _ _ M); reflexivity|]. intros v VR. cbn [bind].
  rewrite (scan_pos_spec I ty TX TY AL slw slh (eob - 1) ltac:(lia) ltac:(lia) ltac:(lia) EW EH). cbn [lift bind].
  assert (REST : forall t lt, 1 <= t <= 15 -> u8 lt = lvl t ->
    sim cdf_of tokens_post
      (bind (lift (wr_at cf0 (rcof (eob - 1)) (to_coef e (Z.shiftl t 11)))) (fun cf =>
       bind (lift (wr_at (repeat 0 (s * (XX cls tw th + 2))) (Z.of_nat (cx (eob - 1)) * Z.of_nat s + Z.of_nat (cy (eob - 1))) (u8 lt))) (fun levels =>
       bind (actoks (Z.to_nat (Z.of_nat (eob - 1) - 1)) (mkSt (rcof (eob - 1)) cf levels)) (fun s0 =>
       bind (lift (if is2d (mcls ty) then Ok (0, 0) else get_lo_ctx (s_levels s0) 0 (mcls ty) lo 0 0 (Z.of_nat s))) (fun cm =>
       let (ctx, mag) := cm in
       bind (lo_cdf e ctx0 ctx) (fun c =>
       bind (read c 3) (fun dc_tok =>
       if dc_tok =? 3 then
         bind (lift (if is2d (mcls ty) then
             obind (rd_at (s_levels s0) (0 * Z.of_nat s + 1)) (fun v1 =>
             obind (rd_at (s_levels s0) (1 * Z.of_nat s + 0)) (fun v2 =>
             obind (rd_at (s_levels s0) (1 * Z.of_nat s + 1)) (fun v3 => Ok (v1 + v2 + v3)))) else Ok mag)) (fun mag =>
         bind (hi_cdf e ctx0 (if 12 <? Z.land mag 63 then 6 else Z.shiftr (Z.land mag 63 + 1) 1)) (fun c =>
         bind (decode_hi_tok c) (fun dc_tok => Ret (dc_tok, s_rc s0, s_cf s0))))
       else Ret (dc_tok, s_rc s0, s_cf s0))))))))
      (Spec.read_levels I ty (eob - 1) (Spec.set (fun _ => 0) (pos (eob - 1)) t))).
  { intros t lt TR LT. destruct (inv_first t (rcof (eob - 1)) TR E2 eq_refl Z0 eq_refl) as (cf & lev & W1 & W2 & V).
    rewrite shiftl_mul by lia. change (2 ^ 11) with 2048. rewrite to_coef_small by lia. rewrite W1. cbn [lift bind]. rewrite LT, W2. cbn [lift bind].
    replace (Z.to_nat (Z.of_nat (eob - 1) - 1)) with (eob - 2)%nat by lia.
    replace (eob - 1)%nat with (S (eob - 2)) at 2 by lia. apply ac_loop; [lia| |].
    { replace (S (eob - 2)) with (eob - 1)%nat by lia. exact V. }
    clear V. intros st Q V. cbn [Spec.read_levels]. unfold Spec.read_level. change (Spec.scan I ty 0) with (pos 0).
    assert (P0 := pos_0 I ty TX TY AL). assert (SE : seen I ty Q 0) by (intros c' C'; apply (v_lo _ _ _ V); lia).
    assert (X0 : cx 0 = 0%nat /\ cy 0 = 0%nat).
    { destruct (scan_wh tx TX) as (W & _). unfold Geo.cx, Geo.cy, px, py. rewrite P0.
      destruct cls; rewrite Nat.mod_0_l, Nat.div_0_l by lia; auto. }
    destruct X0 as [X0 Y0].
    assert (BB : Spec.br_ctx I ty Q (pos 0) = Z.min ((near Q (pos 0) + 1) / 2) 6).
    { unfold Spec.br_ctx. rewrite P0. reflexivity. }
    pose proof (near_pos Q 0 (v_ok _ _ _ V) ltac:(lia)) as NP.
    assert (TAIL : forall hi, Z.land hi 63 = near Q (pos 0) -> forall m, m = mkSt (s_rc st) (s_cf st) (s_levels st) ->
      sim cdf_of tokens_post
        (bind (hi_cdf e ctx0 (if 12 <? Z.land hi 63 then 6 else Z.shiftr (Z.land hi 63 + 1) 1)) (fun c =>
         bind (decode_hi_tok c) (fun dc_tok => Ret (dc_tok, s_rc st, s_cf st))))
        (bind (bind (Spec.read_br I 4 (Spec.br_ctx I ty Q (pos 0)) 3) (fun level => Ret (Spec.set Q (pos 0) level))) (fun Q => Ret Q))).
    { intros hi HE _ _. rewrite HE. rewrite hi_mag_ctx by lia. rewrite BB.
      assert (MR : 0 <= Z.min ((near Q (pos 0) + 1) / 2) 6 <= 6) by (split; [apply Z.min_glb; [apply Z.div_pos; lia|lia]|apply Z.le_min_r]).
      set (mm := Z.min ((near Q (pos 0) + 1) / 2) 6) in *.
      unfold hi_cdf. rewrite (proj2 (Z.leb_le 0 mm)), (proj2 (Z.ltb_lt mm 21)) by lia. cbn [andb bind].
      apply sim_assoc_r. eapply sim_bind; [apply (hi_tok_spec I e txtp ty M TY)|]. intros a b [<- AB]. constructor. apply dc_step; auto. lia. }
    cbn [bind read].
    assert (GO : forall ctx (mg : outcome Z), ctx = Spec.base_ctx I ty Q (pos 0) -> 0 <= ctx < 41 ->
      (exists hi, mg = Ok hi /\ Z.land hi 63 = near Q (pos 0)) ->
      sim cdf_of tokens_post
        (bind (lo_cdf e ctx0 ctx) (fun c =>
         bind (read c 3) (fun dc_tok =>
         if dc_tok =? 3 then
           bind (lift mg) (fun mag =>
           bind (hi_cdf e ctx0 (if 12 <? Z.land mag 63 then 6 else Z.shiftr (Z.land mag 63 + 1) 1)) (fun c =>
           bind (decode_hi_tok c) (fun dc_tok => Ret (dc_tok, s_rc st, s_cf st))))
         else Ret (dc_tok, s_rc st, s_cf st))))
        (Rd (Spec.coeff_base ctx0 (Spec.ptype I) (Spec.base_ctx I ty Q (pos 0))) 3 (fun v0 => bind (bind (Ret v0) (fun level =>
           bind (if 2 <? level then Spec.read_br I 4 (Spec.br_ctx I ty Q (pos 0)) level else Ret level) (fun level => Ret (Spec.set Q (pos 0) level))))
           (fun Q => Ret Q)))).
    { intros ctx mg CE CR (hi & HM & HE). unfold lo_cdf. rewrite (proj2 (Z.leb_le 0 ctx)), (proj2 (Z.ltb_lt ctx 41)) by lia. cbn [andb bind read].
      constructor; [cbn [cdf_of]; rewrite (m_chroma _ _ _ M), CE; reflexivity|]. intros w WR. cbn [bind].
      destruct (Z.eqb_spec w 3) as [ -> |NE].
      - rewrite HM. cbn [lift bind]. change (2 <? 3) with true. cbv iota. apply TAIL with (m := mkSt (s_rc st) (s_cf st) (s_levels st)); auto.
      - rewrite (proj2 (Z.ltb_ge 2 w)) by lia. cbn [bind]. constructor. apply dc_step; auto. lia. }
    rewrite mcls_2d. destruct (class_eq cls) as [CE|CE].
    - rewrite CE. cbn [lift bind]. apply GO; [|lia|].
      + unfold Spec.base_ctx. rewrite CE, P0. destruct (scan_wh tx TX) as (W & _). change (Spec.tw I) with tw.
        rewrite Nat.mod_0_l, Nat.div_0_l by lia. reflexivity.
      + pose proof (nb_read I ty TX TY AL (s_levels st) Q 0) as NB. rewrite X0, Y0 in NB. unfold step_ok in NB.
        pose proof (near_xy I ty TX TY AL Q 15 0 (Spec.mag_ref ty) (v_ok _ _ _ V) ltac:(lia) ltac:(lia)) as NX. rewrite X0, Y0 in NX.
        unfold Spec.mag_ref in NX. rewrite CE in *. cbn [fold_right fst snd] in NX.
        pose proof (NB 0%nat 1%nat (v_lv _ _ _ V) ltac:(lia) SE ltac:(lia)) as R1. pose proof (NB 1%nat 0%nat (v_lv _ _ _ V) ltac:(lia) SE ltac:(lia)) as R2.
        pose proof (NB 1%nat 1%nat (v_lv _ _ _ V) ltac:(lia) SE ltac:(lia)) as R3.
        cbn [Nat.add] in R1, R2, R3, NX. change (Z.of_nat 0) with 0 in *. change (Z.of_nat 1) with 1 in *.
        rewrite Z.mul_0_l, !Z.add_0_l in R1, R2, R3. change (0 * Z.of_nat (str Spec.TX_CLASS_2D th) + 1) with (0 + 1).
        change (0 + 1) with 1 in *. rewrite R1, R2, R3. cbn [obind]. eexists. split; [reflexivity|].
        unfold Spec.mag_ref. rewrite CE. rewrite NX.
        assert (NR : forall x y, 0 <= nbv I ty Q x y <= 15) by (intros; apply (nbv_range I ty TX TY AL); apply (v_ok _ _ _ V)).
        rewrite mag_hi by auto. ring.
    - replace (match cls with Spec.TX_CLASS_2D => true | _ => false end) with false by (destruct cls; congruence).
      destruct (lo_ctx_spec I e txtp ty M TY AL (s_levels st) Q lo 0 (v_lv _ _ _ V) ltac:(lia) SE (v_ok _ _ _ V) LO) as (hi & E1 & E3 & E4).
      { intros. congruence. }
      rewrite X0, Y0 in E1. change (Z.of_nat 0) with 0 in E1. change (0 * Z.of_nat s + 0) with 0 in E1. rewrite E1. cbn [lift bind].
      apply (GO _ (Ok hi)); auto. exists hi. auto. }
  destruct (Z.eqb_spec v 2) as [ -> |NE].
  - change (2 <? 2 + 1) with true. change (2 + 1) with 3. cbv iota.
    destruct (br_ctx_eq (fun _ => 0) (eob - 1) ltac:(lia)) as [B1 B2]. { intros p. lia. }
    rewrite near_zero in B1 by lia. change (if 12 <? 0 then 6 else Z.shiftr (0 + 1) 1) with 0 in B1. rewrite Z.add_0_r in B1.
    match goal with |- context [hi_cdf e ctx0 ?x] => replace x with (Spec.br_ctx I ty (fun _ => 0) (pos (eob - 1))) end.
    2:{ rewrite <- B1. rewrite mcls_2d. destruct cls; cbn [b2z]; rewrite ?(Z.lor_comm (Z.of_nat (cx (eob - 1)))); auto;
        destruct (Z.ltb_spec 0 (Z.of_nat (cy (eob - 1)))), (Z.eqb_spec (Z.of_nat (cy (eob - 1))) 0); cbn [negb]; lia. }
    unfold hi_cdf at 1. rewrite (proj2 (Z.leb_le _ _)), (proj2 (Z.ltb_lt _ _)) by apply B2. cbn [andb bind].
    apply sim_assoc. apply sim_assoc_r. eapply sim_bind; [apply (hi_tok_spec I e txtp ty M TY)|]. intros t b [<- TR]. cbn [bind].
    apply (REST t (t + Z.shiftl 3 6)); [lia|]. apply big_level. auto.
  - rewrite (proj2 (Z.ltb_ge 2 (v + 1))) by lia. cbn [bind]. apply (REST (v + 1) ((v + 1) * 0x41)); [lia|]. apply small_level. lia.
Qed.
End LOOP.

Theorem toks_spec : forall I e txtp ty eob cf0, matches I e txtp -> (ty < 16)%nat -> allowed (Spec.i_tx I) ty = true ->
  (Spec.i_lossless I = true -> ty = 0%nat) ->
  (1 <= eob <= scan_w (Spec.i_tx I) * scan_h (Spec.i_tx I))%nat ->
  (scan_w (Spec.i_tx I) * scan_h (Spec.i_tx I) <= length cf0)%nat ->
  (forall k, (k < scan_w (Spec.i_tx I) * scan_h (Spec.i_tx I))%nat -> nth k cf0 0 = 0) ->
  sim cdf_of (tokens_post I ty eob cf0) (read_toks e (type_num I ty) (Z.of_nat eob - 1) cf0) (Spec.read_all_levels I ty eob).
Proof.
  intros I e txtp ty eob cf0 M TY AL LL EOB CFL Z0. pose proof (m_tx _ _ _ M) as TX.
  assert (RZ : forall c, (c < scan_w (Spec.i_tx I) * scan_h (Spec.i_tx I))%nat -> rd_at cf0 (stored_at (Spec.i_tx I) (pos I ty c)) = Ok 0).
  { intros c C. destruct (stored_facts (Spec.i_tx I) (pos I ty c) TX (pos_lt I ty TX TY AL c C)) as (k & -> & K & _).
    rewrite rd_at_nat with (d := 0) by lia. rewrite Z0 by auto. reflexivity. }
  destruct (dims I ty TX TY AL) as (slw & slh & t_dim & T & SW & SH & RW & RH & EW & EH & FW & FH & _).
  destruct (tx_facts _ TX) as (t' & T' & _ & _ & _ & _ & CT & _). rewrite T in T'. injection T' as <-.
  unfold read_toks. rewrite (m_etx _ _ _ M), T. cbn [lift bind]. rewrite CT. cbn [lift bind].
  assert (TC : rd_at tx_type_class (type_num I ty) = Ok (mcls ty)).
  { unfold type_num. destruct (Spec.i_lossless I); [rewrite LL by auto; reflexivity|]. apply class_of_g. auto. }
  rewrite TC. cbn [lift bind]. rewrite <- SW, <- SH.
  change ((Z.of_nat (Nat.min (log2w (Spec.i_tx I)) (log2h (Spec.i_tx I))) - 2 + (Z.of_nat (Nat.max (log2w (Spec.i_tx I)) (log2h (Spec.i_tx I))) - 2) + 1) / 2)
    with (Spec.txSzCtx I).
  destruct (Z.eqb_spec (Z.of_nat eob - 1) 0) as [E|E].
  - assert (eob = 1%nat) by lia. subst eob. clear E. unfold Spec.read_all_levels, Spec.read_level. cbn [Nat.sub].
    assert (POST : forall t, 1 <= t <= 15 -> tokens_post I ty 1 cf0 (t, 0, cf0) (Spec.set (fun _ => 0) (pos I ty 0) t)).
    { intros t TR. unfold tokens_post. split; [unfold Spec.set; rewrite (pos_0 I ty TX TY AL); reflexivity|].
      split; [reflexivity|]. split; [|split; [|split]].
      - split; auto. split; auto. intros c C. rewrite RZ by auto. unfold cell. destruct (Nat.leb_spec 1 c), (Nat.ltb_spec c 1); cbn [andb]; auto; lia.
      - intros p. unfold Spec.set. destruct (Nat.eqb p _); lia.
      - intros c C. unfold Spec.set. destruct (Nat.eqb_spec (pos I ty c) (pos I ty 0)) as [EQ|]; auto.
        apply (pos_inj I ty TX TY AL) in EQ; lia.
      - cbn [Nat.sub]. unfold Spec.set. rewrite Nat.eqb_refl. lia. }
    change (Spec.scan I ty 0) with (pos I ty 0). cbn [bind read]. constructor; [cbn [cdf_of]; rewrite (m_chroma _ _ _ M); reflexivity|].
    intros v V. cbn [bind]. cbn [Spec.read_levels]. destruct (Z.eqb_spec v 2) as [ -> |NE].
    + change (2 <? 2 + 1) with true. cbv iota. change (2 + 1) with 3. apply sim_assoc_r.
      replace (Spec.br_ctx I ty (fun _ => 0) (pos I ty 0)) with 0.
      2:{ unfold Spec.br_ctx. rewrite near_zero by lia. rewrite (pos_0 I ty TX TY AL). reflexivity. }
      change (hi_cdf e (Spec.txSzCtx I) 0) with (Ret (R := cdf) (C_br_tok (Z.min (Spec.txSzCtx I) 3) (chroma e) 0)). cbn [bind].
      eapply sim_bind; [apply (hi_tok_spec I e txtp ty M TY)|]. intros t b [<- TR]. cbn [bind]. constructor. apply POST. lia.
    + rewrite (proj2 (Z.ltb_ge 2 (v + 1))) by lia. cbn [bind]. constructor. rewrite (Z.add_comm 1). apply POST. lia.
  - replace (Z.of_nat eob - 1) with (Z.of_nat (eob - 1)) by lia.
    pose proof (geo_ranges I ty TX TY AL) as (GX & GY & GS & _ & _).
    assert (RUN : forall lo, lo_ok I ty lo -> sim cdf_of (tokens_post I ty eob cf0)
      (class_toks e (mcls ty) (mscan I ty) lo (Z.of_nat (str (Spec.get_tx_class ty) (scan_h (Spec.i_tx I))))
        (match Spec.get_tx_class ty with Spec.TX_CLASS_VERT => slw + 2 | _ => slh + 2 end)
        (match Spec.get_tx_class ty with Spec.TX_CLASS_VERT => slh + 2 | _ => 0 end)
        (match Spec.get_tx_class ty with Spec.TX_CLASS_VERT => Z.of_nat (scan_w (Spec.i_tx I)) - 1 | _ => Z.of_nat (scan_h (Spec.i_tx I)) - 1 end)
        (Spec.txSzCtx I) (Z.of_nat (eob - 1)) (slw + slh) cf0
        (repeat 0 (str (Spec.get_tx_class ty) (scan_h (Spec.i_tx I)) * (XX (Spec.get_tx_class ty) (scan_w (Spec.i_tx I)) (scan_h (Spec.i_tx I)) + 2))))
      (Spec.read_all_levels I ty eob)).
    { intros lo LO. apply (class_toks_spec I e txtp ty M TX TY AL eob EOB cf0 CFL slw slh lo RW RH EW EH LO); auto. lia. }
    rewrite FW, FH. unfold mcls, mscan, lo_ok in RUN. unfold mcls. destruct (Spec.get_tx_class ty) eqn:CE; cbn [str XX] in *.
    + destruct (lo_table (Spec.i_tx I) TX) as (t & LT1 & LT2). rewrite LT1. cbn [lift bind]. rewrite scan_table by auto. cbn [lift bind].
      rewrite (proj2 (Z.leb_le _ _)) by nia.
      replace (Z.to_nat (Z.of_nat (scan_h (Spec.i_tx I)) * (Z.of_nat (scan_w (Spec.i_tx I)) + 2))) with (scan_h (Spec.i_tx I) * (scan_w (Spec.i_tx I) + 2))%nat by lia.
      apply RUN. intros _. exists t. auto.
    + rewrite (proj2 (Z.leb_le _ _)) by nia.
      replace (Z.to_nat (16 * (Z.of_nat (scan_h (Spec.i_tx I)) + 2))) with (16 * (scan_h (Spec.i_tx I) + 2))%nat by lia.
      apply RUN. intros; discriminate.
    + rewrite (proj2 (Z.leb_le _ _)) by nia.
      replace (Z.to_nat (16 * (Z.of_nat (scan_w (Spec.i_tx I)) + 2))) with (16 * (scan_w (Spec.i_tx I) + 2))%nat by lia.
      apply RUN. intros; discriminate.
Qed.

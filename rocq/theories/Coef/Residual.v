(** Signs, Golomb codes and dequantisation. *)
From Coq Require Import ZArith List Bool Lia Permutation.
From Verif Require Import Base.CInt Base.Lemmas Itx.ScanTables Itx.Txfm2d Itx.Spec2d Itx.Proofs2d Itx.ScanProofs
  Coef.Prog Coef.Model Coef.Ctx Coef.Types Coef.Geo Coef.Tokens Coef.Tokens2.
From Verif Require Coef.Spec.
Import ListNotations.
Open Scope Z_scope.

(** The quantizers of the code and of the specification. *)
Record quant (I : Spec.info) (e : env) : Prop := {
  q_bpc : e_bpc e = Spec.i_BitDepth I; q_bpc_r : Spec.i_BitDepth I = 8 \/ Spec.i_BitDepth I = 10 \/ Spec.i_BitDepth I = 12;
  q_dq : e_dq e = (Spec.i_dc_q I, Spec.i_ac_q I);
  (* dav1d_dq_tbl: at most 1828, 7312 and 29247 *)
  q_dc_r : 0 <= Spec.i_dc_q I /\ Spec.i_dc_q I * 14 < 2 ^ (7 + Spec.i_BitDepth I);
  q_ac_r : 0 <= Spec.i_ac_q I /\ Spec.i_ac_q I * 14 < 2 ^ (7 + Spec.i_BitDepth I);
  q_qm : match e_qm e, Spec.i_qm I with
         | Some l, Some m => forall p, (p < scan_w (Spec.i_tx I) * scan_h (Spec.i_tx I))%nat ->
             rd_at l (stored_at (Spec.i_tx I) p) = Ok (m p) /\ 0 <= m p <= 255
         | None, None => True
         | _, _ => False
         end }.

(** *** Golomb codes *)
Lemma golomb_len_sim : forall n z, (n + z = 32)%nat ->
  sim cdf_of (fun a b => a = Z.of_nat b) (golomb_len n (Z.of_nat z)) (Spec.golomb_zeros n z).
Proof.
  induction n as [|n IH]; intros z E; cbn [golomb_len Spec.golomb_zeros bind read]; (constructor; [reflexivity|]); intros b B; cbn [bind].
  - rewrite (proj2 (Z.ltb_ge (Z.of_nat z) 32)) by lia. rewrite andb_false_r. constructor. reflexivity.
  - rewrite (proj2 (Z.ltb_lt (Z.of_nat z) 32)) by lia. rewrite andb_true_r.
    destruct (Z.eqb_spec b 0) as [ -> |NE].
    + change (0 =? 1) with false. cbv iota. replace (Z.of_nat z + 1) with (Z.of_nat (S z)) by lia. apply IH. lia.
    + rewrite (proj2 (Z.eqb_eq b 1)) by lia. constructor. reflexivity.
Qed.
Lemma golomb_val_sim : forall n v w, 0 < w -> v = u32 w ->
  sim cdf_of (fun a b => a = u32 b /\ 0 < b) (golomb_val n v) (Spec.golomb_bits n w).
Proof.
  induction n as [|n IH]; intros v w V ->; cbn [golomb_val Spec.golomb_bits].
  - constructor. auto.
  - cbn [bind read]. constructor; [reflexivity|]. intros b Bb. cbn [bind]. apply IH; [lia|].
    rewrite shiftl_mul by lia. change (2 ^ 1) with 2. unfold u32.
    rewrite Z.add_mod_idemp_l by lia. rewrite Z.mul_comm. rewrite <- Z.add_mod_idemp_l by lia. rewrite Z.mul_mod_idemp_r by lia.
    rewrite Z.add_mod_idemp_l by lia. reflexivity.
Qed.
Lemma golomb_sim : sim cdf_of (fun a b => a = u32 (b - 1) /\ 0 < b) read_golomb Spec.golomb.
Proof.
  unfold read_golomb, Spec.golomb. eapply sim_bind; [apply (golomb_len_sim 32 0); reflexivity|]. intros a b ->.
  rewrite Nat2Z.id. apply sim_ret_r. eapply sim_bind; [apply golomb_val_sim; [lia|reflexivity]|].
  intros x y [-> Y]. constructor. split; auto. unfold u32. apply Zminus_mod_idemp_l.
Qed.

(** *** One coefficient *)
Lemma denom : forall tx, (tx < 19)%nat -> exists c, rd_at tx_ctx (Z.of_nat tx) = Ok c /\ 0 <= Z.max 0 (c - 2) <= 2 /\
  2 ^ Z.max 0 (c - 2) = (let n := (width tx * height tx)%nat in if Nat.ltb 1024 n then 4 else if Nat.ltb 256 n then 2 else 1).
Proof.
  intros tx H. do 19 (destruct tx as [|tx]; [eexists; split; [reflexivity|]; split; [vm_compute; split; discriminate|vm_compute; reflexivity]|]). lia.
Qed.

Lemma fits_small : forall x, -2 ^ 31 <= x < 2 ^ 31 -> fits_int x = true.
Proof. intros x X. unfold fits_int, INT_MIN, INT_MAX. apply andb_true_iff. rewrite !Z.leb_le. lia. Qed.

Section RES.
Set Default Proof Using "All".
Variables (I : Spec.info) (e : env) (txtp : Z) (ty : nat).
Hypothesis M : matches I e txtp.
Hypothesis QU : quant I e.
Local Notation tx := (Spec.i_tx I).
Local Notation tw := (scan_w tx).
Local Notation th := (scan_h tx).
Local Notation N := (tw * th)%nat.
Local Notation pos := (pos I ty).
Local Notation rcof c := (stored_at tx (pos c)).
Hypothesis TX : (tx < 19)%nat.
Hypothesis TY : (ty < 16)%nat.
Hypothesis AL : allowed tx ty = true.
Local Notation top := (2 ^ (7 + Spec.i_BitDepth I)).
Local Notation qm := (if type_num I ty <? IDTX then e_qm e else None).
Variable dq_shift : Z.
Hypothesis SH : 0 <= dq_shift <= 2.
Hypothesis DEN : 2 ^ dq_shift = Spec.dqDenom I.

(** the coefficient at [p] if its level is [v] *)
Definition dqz (p : nat) (v : Z) : Z :=
  let q := if Nat.eqb p 0 then Spec.i_dc_q I else Spec.i_ac_q I in
  let q2 := match Spec.i_qm I with
            | Some m => if Nat.ltb ty 9 && negb (Spec.i_lossless I) then (q * m p + 16) / 32 else q
            | None => q
            end in
  let dq := (Z.abs v * q2) mod 2 ^ 24 / Spec.dqDenom I in
  let dq := if v <? 0 then - dq else dq in
  Z.max (- top) (Z.min (top - 1) dq).
Lemma Dequant_dqz : forall Q i j, Spec.Dequant I ty Q i j = dqz (i * tw + j) (Q (i * tw + j)%nat).
Proof. reflexivity. Qed.

Lemma top_r : 32768 <= top <= 524288.
Proof. destruct (q_bpc_r _ _ QU) as [ -> |[ -> | -> ]]; vm_compute; split; discriminate. Qed.
Lemma cf_max_eq : cf_max e = top - 1.
Proof. unfold cf_max. rewrite (q_bpc _ _ QU). destruct (q_bpc_r _ _ QU) as [ -> |[ -> | -> ]]; vm_compute; reflexivity. Qed.
Lemma dqz_0 : forall p, dqz p 0 = 0.
Proof.
  intros p. unfold dqz. change (Z.abs 0) with 0. rewrite Z.mul_0_l. change (0 mod 2 ^ 24) with 0. change (0 <? 0) with false.
  rewrite <- DEN. rewrite Z.div_0_l by (pose proof (pow2_pos dq_shift ltac:(lia)); lia). pose proof top_r. lia.
Qed.
Lemma dqz_coef : forall p v, to_coef e (dqz p v) = dqz p v.
Proof.
  intros p v. assert (R : - top <= dqz p v <= top - 1) by (unfold dqz; pose proof top_r; lia).
  unfold to_coef. rewrite (q_bpc _ _ QU). destruct (q_bpc_r _ _ QU) as [E|[E|E]]; rewrite E in *.
  - change (8 =? 8) with true. cbv iota. unfold s16. apply sN_id; [lia|]. change (2 ^ (7 + 8)) with 32768 in R. lia.
  - change (10 =? 8) with false. cbv iota. unfold s32. apply sN_id; [lia|]. change (2 ^ (7 + 10)) with 131072 in R. lia.
  - change (12 =? 8) with false. cbv iota. unfold s32. apply sN_id; [lia|]. change (2 ^ (7 + 12)) with 524288 in R. lia.
Qed.

Lemma wrap24 : forall a, Z.land (u32 a) 0xffffff = a mod 2 ^ 24.
Proof.
  intros a. change 0xffffff with (2 ^ 24 - 1). rewrite land_ones_mod by lia. unfold u32. change (2 ^ 32) with (2 ^ 24 * 2 ^ 8).
  rewrite Z.rem_mul_r by lia. rewrite (Z.mul_comm (2 ^ 24)), Z.mod_add by lia. apply Z.mod_mod. lia.
Qed.
Lemma wrap20 : forall a, Z.land (u32 a) 0xfffff = a mod 2 ^ 20.
Proof.
  intros a. change 0xfffff with (2 ^ 20 - 1). rewrite land_ones_mod by lia. unfold u32. change (2 ^ 32) with (2 ^ 20 * 2 ^ 12).
  rewrite Z.rem_mul_r by lia. rewrite (Z.mul_comm (2 ^ 20)), Z.mod_add by lia. apply Z.mod_mod. lia.
Qed.

Lemma wrap_u : forall a b, (u32 a + b) mod 2 ^ 20 = (a + b) mod 2 ^ 20.
Proof.
  intros a b. rewrite <- (Z.add_mod_idemp_l (u32 a)), <- (Z.add_mod_idemp_l a) by lia. f_equal. f_equal. unfold u32.
  change (2 ^ 32) with (2 ^ 20 * 2 ^ 12). rewrite Z.rem_mul_r by lia. rewrite (Z.mul_comm (2 ^ 20)), Z.mod_add by lia. apply Z.mod_mod. lia.
Qed.
(** the magnitude: clipped *)
Lemma clip_eq : forall x sign lev, 0 <= x -> 0 <= lev -> (lev = 0 -> x = 0) -> 0 <= sign <= 1 ->
  (if sign =? 1 then - Z.min x (top - 1 + sign) else Z.min x (top - 1 + sign)) =
  Z.max (- top) (Z.min (top - 1) (if (if sign =? 1 then - lev else lev) <? 0 then - x else x)).
Proof.
  intros x sign lev X L XL S. pose proof top_r as T. set (t := top) in *. clearbody t.
  assert (E : sign = 0 \/ sign = 1) by lia. destruct E as [ -> | -> ]; cbn [Z.eqb Pos.eqb].
  - rewrite (proj2 (Z.ltb_ge lev 0)) by lia. lia.
  - destruct (Z.ltb_spec (- lev) 0); [lia|]. rewrite XL by lia. lia.
Qed.

Definition one_post (p : nat) (sign : Z) (a : Z * Z) (level : Z) : Prop :=
  0 < level /\ fst a = level mod 2 ^ 20 /\
  (if sign =? 1 then - snd a else snd a) = dqz p (if sign =? 1 then - (level mod 2 ^ 20) else level mod 2 ^ 20).

Lemma dequant_sim : forall p tok sign q, (p < N)%nat -> 1 <= tok <= 15 -> 0 <= sign <= 1 ->
  q = (if Nat.eqb p 0 then Spec.i_dc_q I else Spec.i_ac_q I) ->
  sim cdf_of (one_post p sign) (dequant e qm dq_shift (stored_at tx p) tok q sign)
    (if 14 <? tok then bind Spec.golomb (fun x => Ret (x + 14)) else Ret tok).
Proof.
  intros p tok sign q P T S QE. pose proof (q_qm _ _ QU) as QM. pose proof top_r as TR.
  assert (QR : 0 <= q /\ q * 14 < top) by (rewrite QE; destruct (Nat.eqb p 0); [apply (q_dc_r _ _ QU)|apply (q_ac_r _ _ QU)]).
  assert (DP : 0 < Spec.dqDenom I) by (rewrite <- DEN; apply pow2_pos; lia).
  set (q2 := match Spec.i_qm I with
            | Some m => if Nat.ltb ty 9 && negb (Spec.i_lossless I) then (q * m p + 16) / 32 else q
            | None => q end).
  assert (DQ : forall lev, 0 <= lev -> dqz p (if sign =? 1 then - lev else lev) =
    (if sign =? 1 then - Z.min ((lev * q2) mod 2 ^ 24 / Spec.dqDenom I) (top - 1 + sign)
     else Z.min ((lev * q2) mod 2 ^ 24 / Spec.dqDenom I) (top - 1 + sign))).
  { intros lev L. unfold dqz. rewrite <- QE. fold q2.
    replace (Z.abs (if sign =? 1 then - lev else lev)) with lev by (destruct (sign =? 1); lia).
    symmetry. apply clip_eq; auto.
    - apply Z.div_pos; auto. apply Z.mod_pos_bound. lia.
    - intros ->. rewrite Z.mul_0_l. change (0 mod 2 ^ 24) with 0. apply Z.div_0_l. lia. }
  assert (QMC : (exists l m, qm = Some l /\ Spec.i_qm I = Some m /\ rd_at l (stored_at tx p) = Ok (m p) /\ 0 <= m p <= 255 /\ q2 = (q * m p + 16) / 32) \/
                (qm = None /\ q2 = q)).
  { unfold q2, type_num. destruct (e_qm e) as [l|], (Spec.i_qm I) as [m|]; try tauto.
    - destruct (QM p P) as [Q1 Q2]. destruct (Spec.i_lossless I); cbn [negb].
      + right. rewrite andb_false_r. auto.
      + unfold IDTX. destruct (Nat.ltb_spec ty 9), (Z.ltb_spec (Z.of_nat ty) 9); try lia; cbn [andb]; [left; exists l, m; auto 6|right; auto].
    - right. split; [destruct (_ <? _); reflexivity|reflexivity]. }
  clearbody q2. destruct QMC as [(l & m & EQ & EM & RQ & MR & Q2)|[EQ Q2]].
  - rewrite EQ. unfold dequant. rewrite RQ. cbn [lift bind].
    assert (MB : 0 <= q * m p <= q * 255) by nia.
    replace (fits_int (q * m p + 16)) with true by (symmetry; apply fits_small; lia).
    rewrite shiftr_div by lia. change (2 ^ 5) with 32. rewrite <- Q2.
    assert (Q2R : 0 <= q2 <= q * 8 + 1) by (rewrite Q2; split; [apply Z.div_pos; lia|]; lia).
    destruct (Z.eqb_spec tok 15) as [ -> |NE].
    + change (14 <? 15) with true. cbv iota. apply sim_assoc. eapply sim_bind; [apply golomb_sim|].
      intros a b [-> B]. cbn [bind]. constructor. rewrite wrap20, wrap24, wrap_u. replace (b - 1 + 15) with (b + 14) by ring.
      pose proof (Z.mod_pos_bound (b + 14) (2 ^ 20) ltac:(lia)) as LB.
      split; [lia|]. split; [reflexivity|]. cbn [snd]. rewrite DQ by lia. rewrite cf_max_eq, shiftr_div, DEN by lia.
      rewrite (Z.mul_comm q2). reflexivity.
    + rewrite (proj2 (Z.ltb_ge 14 tok)) by lia. cbn [bind].
      assert (B1 : 0 <= q2 * tok <= 0xffffff) by nia.
      rewrite u32_id by lia. rewrite (proj2 (Z.leb_le _ _)) by lia. cbn [bind]. constructor. split; [lia|].
      rewrite (Z.mod_small tok) by lia. split; [reflexivity|]. cbn [snd]. rewrite DQ by lia. rewrite cf_max_eq, shiftr_div, DEN by lia.
      rewrite (Z.mul_comm tok), (Z.mod_small (q2 * tok)) by lia. reflexivity.
  - rewrite EQ. unfold dequant. subst q2. destruct (Z.eqb_spec tok 15) as [ -> |NE].
    + change (14 <? 15) with true. cbv iota. eapply sim_bind; [apply golomb_sim|].
      intros a b [-> B]. cbn [bind]. constructor. rewrite wrap20, wrap24, wrap_u. replace (b - 1 + 15) with (b + 14) by ring.
      pose proof (Z.mod_pos_bound (b + 14) (2 ^ 20) ltac:(lia)) as LB.
      split; [lia|]. split; [reflexivity|]. cbn [snd]. rewrite DQ by lia. rewrite cf_max_eq, shiftr_div, DEN by lia.
      rewrite (Z.mul_comm q). reflexivity.
    + rewrite (proj2 (Z.ltb_ge 14 tok)) by lia.
      assert (B1 : 0 <= q * tok < top) by nia. rewrite u32_id by lia. rewrite shiftr_div by lia.
      assert (B2 : 0 <= q * tok / 2 ^ dq_shift <= top - 1).
      { split; [apply Z.div_pos; [lia|]; rewrite DEN; lia|]. rewrite DEN. assert (q * tok / Spec.dqDenom I <= q * tok); [|lia].
        apply Z.div_le_upper_bound; [lia|]. nia. }
      rewrite cf_max_eq. rewrite (proj2 (Z.leb_le _ _)) by lia. constructor. split; [lia|].
      rewrite (Z.mod_small tok) by lia. split; [reflexivity|]. cbn [snd]. rewrite DQ by lia.
      rewrite (Z.mul_comm tok), (Z.mod_small (q * tok)) by lia. rewrite <- DEN. rewrite Z.min_l by lia. reflexivity.
Qed.

(** *** The walk over the coefficients *)
Variable eob : nat.
Hypothesis EOB : (1 <= eob <= N)%nat.
Variable cf0 : list Z.
Hypothesis CFL : (N <= length cf0)%nat.
Variable Q0 : Spec.array.
Hypothesis QOK : levels_ok Q0.
Local Notation link := (link I ty Q0).

Definition walk (c : nat) (cf : list Z) (s : Spec.acc) : Prop :=
  length cf = length cf0 /\ skipn N cf = skipn N cf0 /\
  (forall c', (c' < N)%nat -> rd_at cf (rcof c') =
     Ok (if Nat.ltb c' c then dqz (pos c') (Spec.a_quant s (pos c')) else cell I ty eob Q0 1 c')) /\
  (forall c', (c <= c' < N)%nat -> Spec.a_quant s (pos c') = Q0 (pos c')) /\
  0 <= Spec.a_culLevel s <= Z.of_nat c * 2 ^ 20.

Lemma set_other' : forall (Q : Spec.array) c c' v, (c < N)%nat -> (c' < N)%nat -> c <> c' -> Spec.set Q (pos c) v (pos c') = Q (pos c').
Proof. exact (set_other I e txtp ty M TX TY AL eob EOB cf0 CFL). Qed.
Lemma set_same' : forall (Q : Spec.array) c v, Spec.set Q (pos c) v (pos c) = v.
Proof. intros. unfold Spec.set. rewrite Nat.eqb_refl. reflexivity. Qed.

Lemma walk_step : forall c cf s lv lev cat, (c < N)%nat -> walk c cf s -> 0 <= lev < 2 ^ 20 ->
  exists cf', wr_at cf (rcof c) (dqz (pos c) lv) = Ok cf' /\
    walk (S c) cf' (Spec.mkAcc (Spec.set (Spec.a_quant s) (pos c) lv) (Spec.a_culLevel s + lev) cat).
Proof.
  intros c cf s lv lev cat C (L & SK & R & A & CU) LR.
  destruct (wr_rc I e txtp ty M TX TY AL eob EOB cf0 CFL cf c (dqz (pos c) lv) C L) as (cf' & W1 & W2 & W3 & W4).
  exists cf'. split; auto. split; auto. split; [congruence|]. cbn [Spec.a_quant Spec.a_culLevel]. split; [|split].
  - intros c' C'. rewrite W4 by auto. destruct (Nat.eqb_spec c' c) as [ -> |D].
    + rewrite (proj2 (Nat.ltb_lt c (S c))) by lia. rewrite set_same'. reflexivity.
    + rewrite R by auto. rewrite set_other' by lia. destruct (Nat.ltb_spec c' c), (Nat.ltb_spec c' (S c)); try lia; reflexivity.
  - intros c' C'. rewrite set_other' by lia. apply A. lia.
  - lia.
Qed.
Lemma silent : forall c cf s, (c < N)%nat -> walk c cf s -> Q0 (pos c) = 0 ->
  exists s', Spec.read_sign I ty c s = Ret s' /\ walk (S c) cf s' /\
    Spec.a_culLevel s' = Spec.a_culLevel s /\ Spec.a_dcCategory s' = Spec.a_dcCategory s.
Proof.
  intros c cf s C W Z0. destruct W as (L & SK & R & A & CU). unfold Spec.read_sign. change (Spec.scan I ty c) with (pos c).
  rewrite (A c) by lia. rewrite Z0. cbn [Z.eqb negb bind]. change (14 <? 0) with false. cbv iota. cbn [bind].
  eexists. split; [reflexivity|]. change (0 <? 0) with false. rewrite andb_false_r. change (0 mod 2 ^ 20) with 0. change (0 =? 1) with false. cbv iota.
  cbn [Spec.a_culLevel Spec.a_dcCategory Spec.a_quant]. split; [|split; [lia|reflexivity]].
  split; auto. split; auto. cbn [Spec.a_quant Spec.a_culLevel]. split; [|split].
  - intros c' C'. rewrite R by auto. destruct (Nat.eq_dec c' c) as [ -> |D].
    + rewrite set_same', dqz_0. rewrite (proj2 (Nat.ltb_lt c (S c))), Nat.ltb_irrefl by lia. unfold cell. rewrite Z0, Z.eqb_refl, andb_false_r. reflexivity.
    + rewrite set_other' by lia. destruct (Nat.ltb_spec c' c), (Nat.ltb_spec c' (S c)); try lia; reflexivity.
  - intros c' C'. rewrite set_other' by lia. apply A. lia.
  - lia.
Qed.
Lemma silent_tail : forall k c cf s, (1 <= c)%nat -> (c + k = eob)%nat -> walk c cf s -> link c k = 0 ->
  exists s', Spec.read_signs I ty (seq c k) s = Ret s' /\ walk eob cf s' /\
    Spec.a_culLevel s' = Spec.a_culLevel s /\ Spec.a_dcCategory s' = Spec.a_dcCategory s.
Proof.
  induction k as [|k IH]; intros c cf s C E W LK; cbn [seq Spec.read_signs].
  - assert (c = eob) by lia. subst c. exists s. auto.
  - cbn [Tokens2.link] in LK. destruct (Z.eqb_spec (Q0 (pos c)) 0) as [Z0|NZ].
    2:{ exfalso. apply (rc_nz I e txtp ty M TX TY AL eob EOB cf0 CFL c); auto. lia. }
    destruct (silent c cf s ltac:(lia) W Z0) as (s1 & E1 & W1 & C1 & D1). rewrite E1. cbn [bind].
    destruct (IH (S c) cf s1 ltac:(lia) ltac:(lia) W1 LK) as (s' & E2 & W2 & C2 & D2). exists s'. split; auto. split; auto. split; congruence.
Qed.

Definition walk_post (cat : Z) (r : Z * list Z) (s : Spec.acc) : Prop :=
  fst r = Spec.a_culLevel s /\ walk eob (snd r) s /\ Spec.a_dcCategory s = cat.

Lemma ac_coefs_sim : forall k n c cf s, (1 <= c)%nat -> (c + k = eob)%nat -> (k <= n)%nat -> walk c cf s -> link c k <> 0 ->
  sim cdf_of (walk_post (Spec.a_dcCategory s)) (ac_coefs e qm dq_shift n (link c k) (Spec.a_culLevel s) cf)
    (Spec.read_signs I ty (seq c k) s).
Proof.
  induction k as [|k IH]; intros n c cf s C E NK W LK; [cbn in LK; congruence|].
  cbn [seq Spec.read_signs Tokens2.link] in *. destruct (Z.eqb_spec (Q0 (pos c)) 0) as [Z0|NZ].
  - destruct (silent c cf s ltac:(lia) W Z0) as (s1 & E1 & W1 & C1 & D1). rewrite E1. cbn [bind]. rewrite <- C1, <- D1.
    apply IH; auto; lia.
  - destruct n as [|n]; [lia|]. cbn [ac_coefs]. unfold Spec.read_sign. change (Spec.scan I ty c) with (pos c).
    pose proof W as (L & SK & R & A & CU). rewrite (A c) by lia. rewrite (proj2 (Z.eqb_neq _ 0) NZ). cbn [negb].
    rewrite (proj2 (Nat.eqb_neq c 0)) by lia. cbn [bind read]. constructor; [reflexivity|]. intros sign SR. cbn [bind].
    pose proof (QOK (pos c)) as QR. rewrite R by lia. rewrite Nat.ltb_irrefl. cbn [lift bind].
    assert (CE : cell I ty eob Q0 1 c = Q0 (pos c) * 2048 + link (S c) k).
    { unfold cell. rewrite (proj2 (Nat.leb_le 1 c)), (proj2 (Nat.ltb_lt c eob)), (proj2 (Z.eqb_neq _ 0) NZ) by lia. cbn [andb negb].
      replace (eob - S c)%nat with k by lia. reflexivity. }
    pose proof (link_range I e txtp ty M TX TY AL eob EOB cf0 CFL Q0 k (S c) ltac:(lia)) as LR.
    rewrite CE. rewrite u32_id by lia. change (Z.shiftl 15 11) with 30720.
    replace (if 30720 <=? Q0 (pos c) * 2048 + link (S c) k then 15 else Z.shiftr (Q0 (pos c) * 2048 + link (S c) k) 11) with (Q0 (pos c)).
    2:{ rewrite shiftr_div by lia. change (2 ^ 11) with 2048. rewrite Z.div_add_l by lia. rewrite Z.div_small by lia.
        destruct (Z.leb_spec 30720 (Q0 (pos c) * 2048 + link (S c) k)); lia. }
    assert (P0 : Nat.eqb (pos c) 0 = false).
    { apply Nat.eqb_neq. intros P0. rewrite <- (pos_0 I ty TX TY AL) in P0. apply (pos_inj I ty TX TY AL) in P0; lia. }
    apply sim_assoc_r. eapply sim_bind.
    { apply (dequant_sim (pos c) (Q0 (pos c)) sign); [apply (pos_lt I ty TX TY AL); lia|lia|lia|rewrite P0, (q_dq _ _ QU); reflexivity]. }
    intros [tok dq] level (LP & TE & DE). cbn [fst snd] in *. cbn [bind].
    rewrite DE, dqz_coef.
    pose proof (Z.mod_pos_bound level (2 ^ 20) ltac:(lia)) as LB.
    destruct (walk_step c cf s (if sign =? 1 then - (level mod 2 ^ 20) else level mod 2 ^ 20) (level mod 2 ^ 20)
      (if Nat.eqb (pos c) 0 && (0 <? level) then if sign =? 1 then 1 else 2 else Spec.a_dcCategory s) ltac:(lia) W LB) as (cf' & WR & W').
    rewrite WR. cbn [lift bind].
    assert (NL : (N <= 1024)%nat) by (destruct (scan_wh tx TX) as (B1 & B2 & _); nia).
    rewrite TE. rewrite u32_id by lia.
    replace (Z.land (Q0 (pos c) * 2048 + link (S c) k) 0x3ff) with (link (S c) k).
    2:{ change 0x3ff with (2 ^ 10 - 1). rewrite land_ones_mod by lia. change (2 ^ 10) with 1024.
        replace (Q0 (pos c) * 2048 + link (S c) k) with (link (S c) k + (Q0 (pos c) * 2) * 1024) by ring. rewrite Z.mod_add by lia.
        rewrite Z.mod_small by lia. reflexivity. }
    rewrite P0 in *. cbn [andb] in *.
    destruct (Z.eqb_spec (link (S c) k) 0) as [L0|LN].
    + destruct (silent_tail k (S c) cf' _ ltac:(lia) ltac:(lia) W' L0) as (s' & E2 & W2 & C2 & D2). rewrite E2. constructor.
      cbn [Spec.a_culLevel Spec.a_dcCategory] in C2, D2. split; [cbn [fst]; congruence|]. split; auto.
    + match type of W' with walk _ _ ?s' => change (Spec.a_culLevel s + level mod 2 ^ 20) with (Spec.a_culLevel s');
        change (Spec.a_dcCategory s) with (Spec.a_dcCategory s') end.
      apply IH; auto; lia.
Qed.

(** all of it *)
Definition res_post (r : Z * list Z) (s : Spec.acc) : Prop :=
  fst r = ctx_byte (Some (Z.min 63 (Spec.a_culLevel s), Spec.a_dcCategory s)) /\ walk eob (snd r) s /\ 0 <= Spec.a_dcCategory s <= 2.

Lemma res_byte : forall cul cat, 0 <= cul -> 0 <= cat <= 2 -> Z.lor (Z.min cul 63) (cat_code cat) = ctx_byte (Some (Z.min 63 cul, cat)).
Proof.
  intros cul cat C CC. cbn [ctx_byte]. rewrite (Z.min_comm 63). set (m := Z.min cul 63). assert (MR : 0 <= m < 64) by lia.
  destruct (cat_codes cat CC) as [ -> |[ -> | -> ]].
  - rewrite Z.lor_comm. change 0x40 with (1 * 2 ^ 6). rewrite lor_shift_add by lia. lia.
  - rewrite Z.lor_0_r. lia.
  - rewrite Z.lor_comm. change 0x80 with (2 * 2 ^ 6). rewrite lor_shift_add by lia. lia.
Qed.

Lemma residual_sim : forall dc_tok rc cf, dc_tok = Q0 0%nat -> rc = link 1 (eob - 1) -> CF I ty eob cf0 cf Q0 1 -> 1 <= Q0 (pos (eob - 1)) ->
  sim cdf_of res_post (residual e qm dq_shift dc_tok rc cf) (Spec.read_signs I ty (seq 0 eob) (Spec.mkAcc Q0 0 0)).
Proof.
  intros dc_tok rc cf -> -> (L & SK & R) LAST.
  assert (P0 := pos_0 I ty TX TY AL).
  assert (W0 : walk 0 cf (Spec.mkAcc Q0 0 0)).
  { split; auto. split; auto. cbn [Spec.a_quant Spec.a_culLevel]. split; [|split; [auto|lia]]. intros c' C'. exact (R c' C'). }
  assert (ES : seq 0 eob = 0%nat :: seq 1 (eob - 1)) by (replace eob with (S (eob - 1)) at 1 by lia; reflexivity).
  rewrite ES. cbn [Spec.read_signs]. unfold residual.
  assert (LEN : length cf = length cf0) by auto.
  destruct (Z.eqb_spec (Q0 0%nat) 0) as [Z0|NZ].
  - destruct (silent 0 cf _ ltac:(lia) W0 ltac:(rewrite P0; auto)) as (s1 & E1 & W1 & C1 & D1). rewrite E1. cbn [bind].
    cbn [Spec.a_culLevel Spec.a_dcCategory] in C1, D1.
    assert (LN : link 1 (eob - 1) <> 0).
    { assert (EL : (eob <> 1)%nat) by (intros EE; rewrite EE in LAST; cbn [Nat.sub] in LAST; rewrite P0 in LAST; lia).
      assert (G : forall k c, (1 <= c)%nat -> (c + k = eob)%nat -> (1 <= k)%nat -> link c k <> 0).
      { induction k as [|k IH]; intros c C CK K; [lia|]. cbn [Tokens2.link]. destruct (Z.eqb_spec (Q0 (pos c)) 0) as [ZZ|].
        - destruct k as [|k]; [replace c with (eob - 1)%nat in ZZ by lia; lia|apply IH; lia].
        - apply (rc_nz I e txtp ty M TX TY AL eob EOB cf0 CFL). lia. }
      apply G; lia. }
    apply sim_assoc. apply sim_ret_r. eapply sim_bind.
    { replace 0 with (Spec.a_culLevel s1) at 1. apply (ac_coefs_sim (eob - 1) (length cf) 1 cf s1); auto; lia. }
    intros [cul cf'] s (H1 & H2 & H3). cbn [fst snd] in *. cbn [bind]. constructor. rewrite D1 in H3.
    split; [|split; [auto|rewrite H3; lia]]. cbn [fst]. rewrite H3, H1. change (Z.shiftl 1 6) with (cat_code 0).
    apply res_byte; [|lia]. destruct H2 as (_ & _ & _ & _ & H2). lia.
  - rewrite (m_etx _ _ _ M).
    pose proof (dc_sign_ctx_spec I e txtp M) as DS. rewrite (m_etx _ _ _ M) in DS. rewrite DS. cbn [lift bind].
    unfold Spec.read_sign at 1. change (Spec.scan I ty 0) with (pos 0). rewrite P0. cbn [Spec.a_quant]. rewrite (proj2 (Z.eqb_neq _ 0) NZ). cbn [negb Nat.eqb bind read].
    constructor; [cbn [cdf_of]; rewrite (m_chroma _ _ _ M); reflexivity|]. intros sign SR. cbn [bind].
    pose proof (QOK 0%nat) as QR. apply sim_assoc. apply sim_assoc_r. eapply sim_bind.
    { replace 0 with (stored_at tx 0) at 1.
      2:{ unfold stored_at, stored. destruct (scan_wh tx TX) as (B1 & B2 & _). rewrite Nat.mod_0_l, Nat.div_0_l by lia. lia. }
      apply (dequant_sim 0 (Q0 0%nat) sign); [lia|lia|lia|rewrite (q_dq _ _ QU); reflexivity]. }
    intros [tok dq] level (LP & TE & DE). cbn [fst snd] in *. cbn [bind andb].
    rewrite DE, dqz_coef. pose proof (Z.mod_pos_bound level (2 ^ 20) ltac:(lia)) as LB.
    destruct (walk_step 0 cf _ (if sign =? 1 then - (level mod 2 ^ 20) else level mod 2 ^ 20) (level mod 2 ^ 20)
      (if (0 <? level) then if sign =? 1 then 1 else 2 else 0) ltac:(lia) W0 LB) as (cf' & WR & W').
    rewrite P0 in *. replace (stored_at tx 0) with 0 in WR.
    2:{ unfold stored_at, stored. destruct (scan_wh tx TX) as (B1 & B2 & _). rewrite Nat.mod_0_l, Nat.div_0_l by lia. lia. }
    rewrite WR. cbn [lift bind]. cbn [Spec.a_culLevel Spec.a_quant Spec.a_dcCategory] in *.
    rewrite (proj2 (Z.ltb_lt 0 level)) in * by lia.
    assert (CC : 0 <= (if sign =? 1 then 1 else 2) <= 2) by (destruct (sign =? 1); lia).
    assert (CD : Z.land (sign - 1) (Z.shiftl 2 6) = cat_code (if sign =? 1 then 1 else 2)).
    { assert (EE : sign = 0 \/ sign = 1) by lia. destruct EE as [ -> | -> ]; reflexivity. }
    rewrite CD. set (cat := if sign =? 1 then 1 else 2) in *. clearbody cat.
    destruct (Z.eqb_spec (link 1 (eob - 1)) 0) as [L0|LN].
    + destruct (silent_tail (eob - 1) 1 cf' _ ltac:(lia) ltac:(lia) W' L0) as (s' & E2 & W2 & C2 & D2). rewrite E2. cbn [bind]. constructor.
      cbn [Spec.a_culLevel Spec.a_dcCategory] in C2, D2. unfold res_post. cbn [fst snd]. rewrite C2, D2.
      split; [|auto]. rewrite TE. rewrite Z.add_0_l. apply res_byte; [lia|auto].
    + apply sim_assoc. apply sim_ret_r. eapply sim_bind.
      { match type of W' with walk _ _ ?s' => replace tok with (Spec.a_culLevel s') by (cbn [Spec.a_culLevel]; lia) end.
        apply (ac_coefs_sim (eob - 1) (length cf') 1 cf' _); auto; try lia. destruct W' as (L' & _). lia. }
      intros [cul cf2] s (H1 & H2 & H3). cbn [fst snd Spec.a_dcCategory] in *. cbn [bind]. constructor.
      split; [|split; [auto|rewrite H3; lia]]. cbn [fst]. rewrite H3, H1. apply res_byte; [|lia].
      destruct H2 as (_ & _ & _ & _ & H2). lia.
Qed.
End RES.

(** Whole programs of decode calls: safety, agreement with the specification,
    over-read detection; the composite readers of msac.h / msac.c. *)
From Coq Require Import ZArith List Bool Lia.
From Verif Require Import Base.CInt Base.Lemmas GetBits.Spec GetBits.Proofs.
From Verif Require Import Msac.Model Msac.Spec Msac.Window Msac.Cdf Msac.SpecRun Msac.Proofs.
Import ListNotations.
Open Scope Z_scope.

(** Programs making at most [n] calls, all with legal arguments as long as
    earlier results are in range. *)
Inductive wfp {A} (shape : list Z) : nat -> dp A -> Prop :=
| wfp_ret : forall n a, wfp shape n (DRet a)
| wfp_do : forall n o k, op_ok shape o -> (forall v, res_ok o v -> wfp shape n (k v)) ->
    wfp shape (S n) (DDo o k).

Lemma wfp_le : forall A shape n (p : dp A), wfp shape n p -> forall n', (n <= n')%nat -> wfp shape n' p.
Proof.
  intros A shape n p H. induction H; intros n' Hn; [constructor|].
  destruct n'; [lia|]. constructor; auto. intros. apply H1; auto. lia.
Qed.

Lemma overrun_run : forall W buf sz shape A n (p : dp A), win W -> wfp shape n p ->
  forall m cdfs, overrun W buf sz m -> cdfs_ok shape cdfs ->
  INT_MIN + 15 * (Z.of_nat n + 1) <= ms_cnt m ->
  exists a m' cdfs', drun W p m cdfs = Ok (a, m', cdfs') /\ overrun W buf sz m' /\ cdfs_ok shape cdfs'.
Proof.
  intros W buf sz shape A n p HW H. induction H as [n a|n o k Ho Hk IH]; intros m cdfs Hov Hcs Hbud.
  - exists a, m, cdfs. auto.
  - destruct (step_ok W buf sz shape o m cdfs HW (proj1 Hov) Hcs Ho)
      as (u & v & val & cdfs' & A1 & A2 & A3 & A4 & A5 & A6).
    pose proof Hov as [(_ & _ & _ & Hr & _) _].
    destruct (norm_overrun W buf sz m v u HW Hov ltac:(lia) ltac:(lia) ltac:(lia) ltac:(lia))
      as (m' & B1 & B2 & B3 & B4).
    specialize (A5 m' B1).
    destruct (IH val A3 m' cdfs' B2 A4 ltac:(lia)) as (a & m2 & cdfs2 & C1 & C2 & C3).
    exists a, m2, cdfs2. split; [|auto]. cbn [drun]. rewrite A5. exact C1.
Qed.

(** The specification's decoder alone: SymbolMaxBits never grows. *)
Lemma spec_step : forall buf sz dis shape o s cdfs, 0 <= sz -> swf sz s -> cdfs_ok shape cdfs -> op_ok shape o ->
  exists val s' cdfs', sstep (stream_bit buf sz) dis o s (spec_cdfs shape cdfs) = (val, s', spec_cdfs shape cdfs') /\
    res_ok o val /\ swf sz s' /\ cdfs_ok shape cdfs' /\ SymbolMaxBits s' <= SymbolMaxBits s.
Proof.
  intros buf sz dis shape o s cdfs Hsz Hs Hcs Ho.
  (* a C context with the same value and range *)
  set (m := {| ms_buf := []; ms_pos := 0; ms_end := 0; ms_dif := SymbolValue s * 2 ^ (32 - 16);
               ms_rng := SymbolRange s; ms_cnt := 0; ms_upd := negb dis |}).
  pose proof Hs as (Hr & Hv & Hm & Hb).
  assert (Hsane : sane 32 [] 0 m).
  { unfold sane, m. cbn [ms_buf ms_end ms_pos ms_rng ms_dif ms_cnt ms_upd].
    rewrite Z.div_mul by (change (2 ^ (32 - 16)) with 65536; lia).
    change (2 ^ (32 - 16)) with 65536. change (2 ^ 32) with 4294967296.
    repeat split; lia. }
  assert (Hc : ms_dif m / 2 ^ (32 - 16) = SymbolValue s).
  { unfold m. cbn [ms_dif]. apply Z.div_mul. change (2 ^ (32 - 16)) with 65536; lia. }
  destruct (step_ok 32 [] 0 shape o m cdfs (or_introl eq_refl) Hsane Hcs Ho)
    as (u & v & val & cdfs' & A1 & A2 & A3 & A4 & A5 & A6).
  rewrite Hc in *. specialize (A6 (stream_bit buf sz) s eq_refl eq_refl).
  change (ms_upd m) with (negb dis) in A6. rewrite negb_involutive in A6.
  destruct (renorm_swf buf sz s u v Hsz Hs A1 A2) as [B1 B2].
  exists val. eexists. exists cdfs'. split; [exact A6|]. split; [exact A3|]. split; [exact B1|].
  split; [exact A4|]. lia.
Qed.

Lemma spec_run : forall buf sz dis shape A n (p : dp A), 0 <= sz -> wfp shape n p ->
  forall s cdfs, swf sz s -> cdfs_ok shape cdfs ->
  exists a s' cdfs', srun_dp (stream_bit buf sz) dis p s (spec_cdfs shape cdfs) = Some (a, s', spec_cdfs shape cdfs') /\
    swf sz s' /\ cdfs_ok shape cdfs' /\ SymbolMaxBits s' <= SymbolMaxBits s.
Proof.
  intros buf sz dis shape A n p Hsz H. induction H as [n a|n o k Ho Hk IH]; intros s cdfs Hs Hcs.
  - exists a, s, cdfs. split; [reflexivity|]. split; [auto|]. split; [auto|]. lia.
  - destruct (spec_step buf sz dis shape o s cdfs Hsz Hs Hcs Ho) as (val & s1 & cdfs' & A6 & A3 & B1 & A4 & B2).
    destruct (IH val A3 _ cdfs' B1 A4) as (a & s2 & cdfs2 & C1 & C2 & C3 & C4).
    exists a, s2, cdfs2. cbn [srun_dp]. rewrite A6. split; [exact C1|]. split; [exact C2|]. split; [exact C3|].
    lia.
Qed.

Theorem run_ok : forall W buf sz shape A n (p : dp A), win W -> Forall is_byte buf -> 0 <= sz <= zlen buf ->
  wfp shape n p -> forall m s cdfs, good W buf sz m s -> cdfs_ok shape cdfs ->
  INT_MIN + 15 * (Z.of_nat n + 1) <= ms_cnt m ->
  exists a m' cdfs', drun W p m cdfs = Ok (a, m', cdfs') /\ sane W buf sz m' /\ cdfs_ok shape cdfs' /\
  exists a2 s2 c2, srun_dp (stream_bit buf sz) (negb (ms_upd m)) p s (spec_cdfs shape cdfs) = Some (a2, s2, c2) /\
    ((good W buf sz m' s2 /\ a = a2 /\ c2 = spec_cdfs shape cdfs') \/
     (overrun W buf sz m' /\ SymbolMaxBits s2 <= -16)).
Proof.
  intros W buf sz shape A n p HW Hb Hsz H. induction H as [n a|n o k Ho Hk IH]; intros m s cdfs G Hcs Hbud.
  - exists a, m, cdfs. split; [reflexivity|]. split; [eapply good_sane; eauto|]. split; [auto|].
    exists a, s, (spec_cdfs shape cdfs). split; [reflexivity|]. left. auto.
  - destruct (good_sane W buf sz m s HW G) as (Hs & Hcl & Htop).
    destruct (step_ok W buf sz shape o m cdfs HW Hs Hcs Ho)
      as (u & v & val & cdfs' & A1 & A2 & A3 & A4 & A5 & A6).
    assert (Hrng : ms_rng m = SymbolRange s) by apply G.
    specialize (A6 (stream_bit buf sz) s ltac:(auto) ltac:(auto)). rewrite Htop in A1, A2.
    pose proof (good_swf _ _ _ _ _ G) as Hswf.
    assert (Hrr : SymbolRange s <= 65535) by apply Hswf.
    destruct (norm_good W buf sz m s v u HW Hb Hsz G A1 ltac:(lia)) as (m' & B1 & B2 & B3 & B4 & B5).
    destruct (renorm_swf buf sz s u v ltac:(lia) Hswf A1 ltac:(lia)) as [W1 W2].
    set (s' := renorm (stream_bit buf sz) (with_uv s u v)) in *.
    specialize (A5 m' B1). cbn [drun srun_dp]. rewrite A5, A6. cbn [obind].
    destruct (Z.leb_spec (-15) (SymbolMaxBits s')) as [Q|Q].
    + destruct (IH val A3 m' s' cdfs' (B4 Q) A4 ltac:(lia))
        as (a & m2 & c2 & C1 & C2 & C3 & D). exists a, m2, c2.
      split; [exact C1|]. split; [exact C2|]. split; [exact C3|]. rewrite <- B2. exact D.
    + specialize (B5 Q). specialize (Hk val A3).
      destruct (overrun_run W buf sz shape A n (k val) HW Hk m' cdfs' B5 A4 ltac:(lia))
        as (a & m2 & c2 & C1 & C2 & C3).
      destruct (spec_run buf sz (negb (ms_upd m)) shape A n (k val) ltac:(lia) Hk s' cdfs' W1 A4)
        as (a2 & s2 & cs2 & D1 & D2 & D3 & D4).
      exists a, m2, c2. split; [exact C1|]. split; [apply C2|]. split; [exact C3|].
      exists a2, s2, (spec_cdfs shape cs2). split; [exact D1|]. right. split; [exact C2|]. lia.
Qed.

(** * Composite readers *)

Section Composite.
Variable b : Z -> Z.
Variable dis : bool.

(** AV1 spec 8.2.5 read_literal(n): L(n). *)
Fixpoint literal_loop (n : nat) (x : Z) (s : sym) : Z * sym :=
  match n with
  | O => (x, s)
  | S n => let '(v, s) := read_bool b s in literal_loop n (2 * x + v) s
  end.
Definition read_literal (n : Z) (s : sym) : Z * sym := literal_loop (Z.to_nat n) 0 s.

(** AV1 spec 4.10.10 NS(n). *)
Definition read_NS (n : Z) (s : sym) : Z * sym :=
  let w := Z.log2 n + 1 in
  let m := 2 ^ w - n in
  let '(v, s) := read_literal (w - 1) s in
  if v <? m then (v, s)
  else let '(extra_bit, s) := read_literal 1 s in (2 * v - m + extra_bit, s).

(** AV1 spec 5.11.58 decode_subexp_bool and friends. *)
Definition inverse_recenter (r v : Z) : Z :=
  if 2 * r <? v then v else if v mod 2 =? 1 then r - (v + 1) / 2 else r + v / 2.
Fixpoint decode_subexp_bool (fuel : nat) (numSyms k i mk : Z) (s : sym) : option (Z * sym) :=
  match fuel with
  | O => None
  | S fuel =>
    let b2 := if i =? 0 then k else k + i - 1 in
    let a := 2 ^ b2 in
    if numSyms <=? mk + 3 * a then
      let '(v, s) := read_NS (numSyms - mk) s in Some (v + mk, s)
    else
      let '(more, s) := read_literal 1 s in
      if more =? 1 then decode_subexp_bool fuel numSyms k (i + 1) (mk + a) s
      else let '(v, s) := read_literal b2 s in Some (v + mk, s)
  end.
Definition decode_unsigned_subexp_with_ref_bool (mx k r : Z) (s : sym) : option (Z * sym) :=
  match decode_subexp_bool 20 mx k 0 0 s with
  | None => None
  | Some (v, s) =>
    Some (if 2 * r <=? mx then inverse_recenter r v else mx - 1 - inverse_recenter (mx - 1 - r) v, s)
  end.

(** AV1 spec 5.11.39, the coeff_br loop: up to four increments of 0..3
    (COEFF_BASE_RANGE / (BR_CDF_SIZE - 1) = 4), stopping at the first
    increment below 3, on top of the base level 3. *)
Fixpoint coeff_br_loop (fuel : nat) (i : Z) (level : Z) (s : sym) (cdfs : list (list Z))
  : Z * sym * list (list Z) :=
  match fuel with
  | O => (level, s, cdfs)
  | S fuel =>
    let '(coeff_br, s, cdfs) := sstep b dis (DSym i 3) s cdfs in
    if coeff_br <? 3 then (level + coeff_br, s, cdfs)
    else coeff_br_loop fuel i (level + coeff_br) s cdfs
  end.

Lemma srun_dbind : forall A B (p : dp A) (f : A -> dp B) s c,
  srun_dp b dis (dbind p f) s c =
  match srun_dp b dis p s c with Some (a, s, c) => srun_dp b dis (f a) s c | None => None end.
Proof.
  induction p; intros; cbn [dbind srun_dp]; auto.
  destruct (sstep b dis o s c) as [[v s'] c']. apply H.
Qed.

(** Every boolean read is 0 or 1. *)
Lemma search_bool_range : forall R c u v val,
  search 2 [2 ^ 14; 2 ^ 15; 0] 2 R c R (-1) = (u, v, val) -> 0 <= c -> 0 <= val <= 1.
Proof.
  intros R c u v val H Hc. cbn [search] in H.
  change (Z.to_nat (-1 + 1)) with 0%nat in H. change (Z.to_nat (-1 + 1 + 1)) with 1%nat in H.
  change (nth 1 [2 ^ 14; 2 ^ 15; 0] 0) with (2 ^ 15) in H.
  match type of H with (if ?t then _ else _) = _ => destruct t end.
  - match type of H with (if ?t then _ else _) = _ => destruct t eqn:E end.
    + exfalso. replace (2 ^ 15 - 2 ^ 15) with 0 in E by lia. change (0 / 2 ^ 6) with 0 in E.
      rewrite Z.mul_0_r in E. change (0 / 2 ^ (7 - 6)) with 0 in E. lia.
    + inversion H. lia.
  - inversion H. lia.
Qed.
Lemma read_bool_ok : forall s, 0 <= SymbolValue s -> 0 <= fst (read_bool b s) <= 1.
Proof.
  intros s Hs. unfold read_bool, read_symbol_raw. change (Z.to_nat 2) with 2%nat.
  destruct (search 2 [2 ^ 14; 2 ^ 15; 0] 2 (SymbolRange s) (SymbolValue s) (SymbolRange s) (-1)) as [[u v] val] eqn:E.
  cbn [fst]. eapply search_bool_range; eauto.
Qed.
End Composite.

Section Composite2.
Variable buf : list Z.
Variable sz : Z.
Hypothesis Hsz : 0 <= sz.
Variable dis : bool.
Notation b := (stream_bit buf sz).

Lemma read_bool_swf : forall s, swf sz s -> swf sz (snd (read_bool b s)) /\ 0 <= fst (read_bool b s) <= 1.
Proof.
  intros s Hs. pose proof Hs as (Hr & Hv & _).
  split; [|apply read_bool_ok; lia].
  destruct (pick 1 (SymbolRange s) (SymbolValue s) [16384; 0] (cdf_ok_bool 16384 ltac:(lia)) Hr Hv)
    as (u & v & val & A1 & A2 & A3 & A4 & A5 & _).
  pose proof (read_raw_pick b s (spec_cdf 1 [16384; 0]) 1 u v val A2) as RP.
  change (1 + 1) with 2 in RP. change (spec_cdf 1 [16384; 0]) with [2 ^ 14; 2 ^ 15; 0] in RP.
  unfold read_bool. rewrite RP. cbn [snd]. apply renorm_swf; auto.
Qed.

Lemma literal_range : forall n x s, swf sz s -> 0 <= x ->
  swf sz (snd (literal_loop b n x s)) /\
  x * 2 ^ Z.of_nat n <= fst (literal_loop b n x s) < (x + 1) * 2 ^ Z.of_nat n.
Proof.
  induction n; intros x s Hs Hx; cbn [literal_loop].
  - cbn [fst snd]. change (2 ^ Z.of_nat 0) with 1. split; auto. lia.
  - destruct (read_bool_swf s Hs) as [A B]. destruct (read_bool b s) as [v s'].
    cbn [fst snd] in A, B. destruct (IHn (2 * x + v) s' A ltac:(lia)) as [C D].
    split; auto. rewrite Nat2Z.inj_succ, Z.pow_succ_r by lia.
    assert (0 < 2 ^ Z.of_nat n) by (apply pow2_pos; lia). nia.
Qed.

Lemma bools_loop_spec : forall n x s c, swf sz s -> 0 <= x -> (x + 1) * 2 ^ Z.of_nat n <= 2 ^ 32 ->
  srun_dp b dis (decode_bools_loop n x) s c =
  Some (fst (literal_loop b n x s), snd (literal_loop b n x s), c).
Proof.
  induction n; intros x s c Hs Hx Hb; [reflexivity|].
  cbn [decode_bools_loop literal_loop]. unfold dop_. cbn [dbind srun_dp sstep].
  destruct (read_bool_swf s Hs) as [A B]. destruct (read_bool b s) as [v s'].
  cbn [fst snd] in A, B. rewrite Nat2Z.inj_succ, Z.pow_succ_r in Hb by lia.
  assert (P : 0 < 2 ^ Z.of_nat n) by (apply pow2_pos; lia).
  assert (E : Z.lor (u32 (Z.shiftl x 1)) v = 2 * x + v).
  { rewrite shiftl_mul by lia. rewrite u32_id by nia. rewrite lor_shift_add by lia. lia. }
  rewrite E. apply IHn; [auto|lia|]. nia.
Qed.

Lemma bools_spec : forall n s c, swf sz s -> 0 <= n <= 32 ->
  srun_dp b dis (decode_bools n) s c = Some (fst (read_literal b n s), snd (read_literal b n s), c).
Proof.
  intros. unfold decode_bools, read_literal. apply bools_loop_spec; [auto|lia|].
  assert (2 ^ Z.of_nat (Z.to_nat n) <= 2 ^ 32) by (apply Z.pow_le_mono_r; lia). lia.
Qed.

Lemma literal_swf : forall n s, 0 <= n -> swf sz s ->
  swf sz (snd (read_literal b n s)) /\ 0 <= fst (read_literal b n s) < 2 ^ n.
Proof.
  intros n s Hn Hs. destruct (literal_range (Z.to_nat n) 0 s Hs ltac:(lia)) as [A B].
  split; auto. rewrite Z2Nat.id in B by lia. unfold read_literal. lia.
Qed.

Lemma literal_1 : forall s, read_literal b 1 s = (fst (read_bool b s), snd (read_bool b s)).
Proof.
  intros. unfold read_literal. change (Z.to_nat 1) with 1%nat. cbn [literal_loop].
  destruct (read_bool b s) as [v s']. cbn [fst snd]. f_equal; lia.
Qed.

Lemma uniform_spec : forall n s c, swf sz s -> 2 <= n < 2 ^ 30 ->
  srun_dp b dis (decode_uniform n) s c = Some (fst (read_NS b n s), snd (read_NS b n s), c).
Proof.
  intros n s c Hs Hn. unfold decode_uniform, read_NS, ulog2.
  replace (negb (0 <? n)) with false by lia.
  assert (L : 1 <= Z.log2 n < 30).
  { split; [change 1 with (Z.log2 2); apply Z.log2_le_mono; lia|apply Z.log2_lt_pow2; lia]. }
  set (l := Z.log2 n + 1) in *.
  replace (negb ((1 <? l) && (l <? 31))) with false by lia.
  pose proof (Z.log2_spec n ltac:(lia)) as [S1 S2].
  replace (Z.succ (Z.log2 n)) with l in S2 by lia.
  assert (P : 2 ^ l = 2 * 2 ^ (l - 1)) by (rewrite <- Z.pow_succ_r by lia; f_equal; lia).
  replace (Z.log2 n) with (l - 1) in S1 by lia.
  assert (P30 : 2 ^ (l - 1) <= 2 ^ 29) by (apply Z.pow_le_mono_r; lia).
  change (2 ^ 29) with 536870912 in P30.
  rewrite shiftl_mul by lia. rewrite Z.mul_1_l.
  rewrite u32_id by (change (2 ^ 32) with 4294967296; lia).
  rewrite srun_dbind, bools_spec by (auto; lia).
  destruct (literal_swf (l - 1) s ltac:(lia) Hs) as [A B].
  destruct (read_literal b (l - 1) s) as [v s']. cbn [fst snd] in *.
  destruct (Z.ltb_spec v (2 ^ l - n)).
  - cbn [srun_dp fst snd]. rewrite s32_id by lia. reflexivity.
  - unfold dop_. cbn [dbind srun_dp sstep]. rewrite literal_1.
    destruct (read_bool_swf s' A) as [C D]. destruct (read_bool b s') as [v2 s2]. cbn [fst snd srun_dp] in *.
    f_equal. f_equal. f_equal.
    rewrite shiftl_mul by lia. change (2 ^ 1) with 2.
    rewrite (u32_id (v * 2)) by (change (2 ^ 32) with 4294967296; lia).
    rewrite (u32_id (v * 2 - _)) by (change (2 ^ 32) with 4294967296; lia).
    rewrite u32_id by (change (2 ^ 32) with 4294967296; lia).
    rewrite s32_id by lia. lia.
Qed.

Lemma literal_loop_app : forall n m x s,
  literal_loop b (n + m) x s = literal_loop b m (fst (literal_loop b n x s)) (snd (literal_loop b n x s)).
Proof.
  induction n; intros; cbn [Nat.add literal_loop fst snd]; auto.
  destruct (read_bool b s) as [v s']. apply IHn.
Qed.
(** L(1 + n) read as a first bit and n further bits. *)
Lemma literal_loop_lin : forall n x s,
  literal_loop b n x s = (x * 2 ^ Z.of_nat n + fst (literal_loop b n 0 s), snd (literal_loop b n 0 s)).
Proof.
  induction n; intros x s; cbn [literal_loop].
  - change (2 ^ Z.of_nat 0) with 1. cbn [fst snd]. f_equal; lia.
  - destruct (read_bool b s) as [v s']. rewrite (IHn (2 * x + v)), (IHn (2 * 0 + v)). cbn [fst snd].
    f_equal. rewrite Nat2Z.inj_succ, Z.pow_succ_r by lia. lia.
Qed.
Lemma literal_cons : forall n s, 0 <= n ->
  read_literal b (1 + n) s =
  (fst (read_bool b s) * 2 ^ n + fst (read_literal b n (snd (read_bool b s))),
   snd (read_literal b n (snd (read_bool b s)))).
Proof.
  intros n s Hn. unfold read_literal. rewrite Z2Nat.inj_add by lia. change (Z.to_nat 1) with 1%nat.
  cbn [Nat.add literal_loop]. destruct (read_bool b s) as [v s']. cbn [fst snd].
  rewrite literal_loop_lin. rewrite Z2Nat.id by lia. replace (2 * 0 + v) with v by lia. reflexivity.
Qed.
Lemma literal_snoc : forall n s, 0 <= n ->
  read_literal b (n + 1) s =
  (2 * fst (read_literal b n s) + fst (read_bool b (snd (read_literal b n s))),
   snd (read_bool b (snd (read_literal b n s)))).
Proof.
  intros n s Hn. unfold read_literal. rewrite Z2Nat.inj_add by lia. change (Z.to_nat 1) with 1%nat.
  rewrite literal_loop_app. cbn [literal_loop].
  destruct (read_bool b (snd (literal_loop b (Z.to_nat n) 0 s))) as [v s']. reflexivity.
Qed.

Lemma inv_recenter_spec : forall r v, 0 <= r < 2 ^ 20 -> 0 <= v < 2 ^ 20 ->
  inv_recenter r v = inverse_recenter r v.
Proof.
  intros r v Hr Hv. change (2 ^ 20) with 1048576 in *. unfold inv_recenter, inverse_recenter.
  rewrite shiftl_mul, !shiftr_div by lia. change (2 ^ 1) with 2.
  rewrite (u32_id (r * 2)) by (change (2 ^ 32) with 4294967296; lia).
  rewrite (Z.mul_comm r 2). destruct (Z.ltb_spec (2 * r) v); auto.
  change 1 with (2 ^ 1 - 1) at 1. rewrite land_ones_mod by lia. change (2 ^ 1) with 2.
  rewrite (u32_id (v + 1)) by (change (2 ^ 32) with 4294967296; lia).
  destruct (Z.eqb_spec (v mod 2) 0); destruct (Z.eqb_spec (v mod 2) 1); try lia.
  - rewrite u32_id by (change (2 ^ 32) with 4294967296; lia). lia.
  - rewrite u32_id by (change (2 ^ 32) with 4294967296; lia). lia.
Qed.

Lemma inverse_recenter_range : forall r v mx, 0 <= r < mx -> 2 * r <= mx -> 0 <= v < mx ->
  0 <= inverse_recenter r v < mx.
Proof.
  intros. unfold inverse_recenter. destruct (Z.ltb_spec (2 * r) v); [lia|].
  destruct (Z.eqb_spec (v mod 2) 1); lia.
Qed.

Lemma subexp_bool_spec : forall k s c, swf sz s -> 0 <= k <= 10 -> forall ref, 0 <= ref < 8 * 2 ^ k ->
  exists v s', decode_unsigned_subexp_with_ref_bool b (8 * 2 ^ k) k ref s = Some (v, s') /\
    0 <= v < 8 * 2 ^ k /\
    srun_dp b dis (decode_subexp ref (8 * 2 ^ k) k) s c = Some (v, s', c).
Proof.
  intros k s c Hs Hk ref Href.
  assert (P0 : 1 <= 2 ^ k <= 1024).
  { split; [pose proof (pow2_pos k ltac:(lia)); lia|].
    change 1024 with (2 ^ 10). apply Z.pow_le_mono_r; lia. }
  assert (P1 : 2 ^ (k + 1) = 2 * 2 ^ k) by (rewrite Z.pow_add_r by lia; lia).
  assert (P2 : 2 ^ (k + 2) = 4 * 2 ^ k) by (rewrite Z.pow_add_r by lia; change (2 ^ 2) with 4; lia).
  (* the coded value on both sides *)
  assert (V : exists v s', decode_subexp_bool b 20 (8 * 2 ^ k) k 0 0 s = Some (v, s') /\ 0 <= v < 8 * 2 ^ k /\
    srun_dp b dis (decode_subexp ref (8 * 2 ^ k) k) s c =
      Some (if ref * 2 <=? 8 * 2 ^ k then s32 (inv_recenter ref v)
            else s32 (u32 (8 * 2 ^ k - 1 - inv_recenter (8 * 2 ^ k - 1 - ref) v)), s', c)).
  { unfold decode_subexp.
    replace (negb (Z.shiftr (8 * 2 ^ k) k =? 8)) with false.
    2:{ rewrite shiftr_div by lia. rewrite Z.div_mul by lia. reflexivity. }
    cbn [decode_subexp_bool]. change (0 =? 0) with true. cbv iota.
    replace (8 * 2 ^ k <=? 0 + 3 * 2 ^ k) with false by lia.
    rewrite literal_1. rewrite srun_dbind. unfold dop_ at 1. cbn [srun_dp sstep].
    destruct (read_bool_swf s Hs) as [A1 B1]. destruct (read_bool b s) as [v1 s1]. cbn [fst snd] in *.
    assert (C1 : v1 = 0 \/ v1 = 1) by lia. destruct C1 as [-> | ->].
    - (* first bit zero *)
      change (0 =? 1) with false. change (z2b 0) with false. cbv iota. cbn [dbind srun_dp].
      rewrite srun_dbind, bools_spec by (auto; lia).
      destruct (literal_swf k s1 ltac:(lia) A1) as [A2 B2].
      destruct (read_literal b k s1) as [x s2]. cbn [fst snd] in *.
      exists (x + 0), s2. split; [reflexivity|]. split; [lia|].
      rewrite (u32_id (x + 0)) by (change (2 ^ 32) with 4294967296; lia). reflexivity.
    - change (1 =? 1) with true. change (z2b 1) with true. cbv iota.
      change (0 + 1 =? 0) with false. cbv iota.
      replace (k + (0 + 1) - 1) with k by lia.
      replace (8 * 2 ^ k <=? 0 + 2 ^ k + 3 * 2 ^ k) with false by lia.
      rewrite literal_1. rewrite !srun_dbind. unfold dop_ at 1. cbn [srun_dp sstep].
      destruct (read_bool_swf s1 A1) as [A2 B2]. destruct (read_bool b s1) as [v2 s2]. cbn [fst snd] in *.
      assert (C2 : v2 = 0 \/ v2 = 1) by lia. destruct C2 as [-> | ->].
      + change (0 =? 1) with false. change (z2b 0) with false. cbv iota. cbn [dbind srun_dp].
        rewrite !srun_dbind, bools_spec by (auto; lia).
        destruct (literal_swf k s2 ltac:(lia) A2) as [A3 B3].
        destruct (read_literal b k s2) as [x s3]. cbn [fst snd] in *.
        exists (x + (0 + 2 ^ k)), s3. split; [reflexivity|]. split; [lia|].
        rewrite shiftl_mul, Z.mul_1_l by lia.
        rewrite (u32_id (2 ^ k)) by (change (2 ^ 32) with 4294967296; lia).
        rewrite (u32_id (x + _)) by (change (2 ^ 32) with 4294967296; lia). 
        replace (x + (0 + 2 ^ k)) with (x + 2 ^ k) by lia. reflexivity.
      + change (1 =? 1) with true. change (z2b 1) with true. cbv iota.
        change (0 + 1 + 1 =? 0) with false. cbv iota.
        replace (k + (0 + 1 + 1) - 1) with (k + 1) by lia. rewrite P1.
        replace (8 * 2 ^ k <=? 0 + 2 ^ k + 2 ^ k + 3 * (2 * 2 ^ k)) with true by lia.
        unfold read_NS.
        replace (8 * 2 ^ k - (0 + 2 ^ k + 2 ^ k)) with (6 * 2 ^ k) by lia.
        assert (LG : Z.log2 (6 * 2 ^ k) = k + 2).
        { apply Z.log2_unique; [lia|]. unfold Z.succ. rewrite !Z.pow_add_r by lia.
          change (2 ^ 2) with 4. change (2 ^ 1) with 2. lia. }
        rewrite LG. replace (k + 2 + 1 - 1) with (1 + (k + 1)) by lia.
        assert (P3 : 2 ^ (k + 2 + 1) = 8 * 2 ^ k) by (rewrite !Z.pow_add_r by lia; change (2 ^ 2) with 4; change (2 ^ 1) with 2; lia).
        rewrite P3. replace (8 * 2 ^ k - 6 * 2 ^ k) with (2 * 2 ^ k) by lia.
        rewrite literal_cons by lia.
        rewrite !srun_dbind. unfold dop_ at 1. cbn [srun_dp sstep].
        destruct (read_bool_swf s2 A2) as [A3 B3]. destruct (read_bool b s2) as [v3 s3]. cbn [fst snd] in *.
        destruct (literal_swf (k + 1) s3 ltac:(lia) A3) as [A4 B4]. rewrite P1 in *.
        cbn [dbind srun_dp]. rewrite !srun_dbind. rewrite bools_spec by (auto; lia).
        rewrite shiftl_mul, Z.mul_1_l by lia.
        assert (C3 : v3 = 0 \/ v3 = 1) by lia. destruct C3 as [-> | ->].
        * replace (k + (0 + 1)) with (k + 1) by lia. rewrite P1.
          destruct (read_literal b (k + 1) s3) as [x s4]. cbn [fst snd] in *.
          replace (0 * (2 * 2 ^ k) + x <? 2 * 2 ^ k) with true by lia.
          exists (0 * (2 * 2 ^ k) + x + (0 + 2 ^ k + 2 ^ k)), s4. split; [reflexivity|]. split; [lia|].
          rewrite (u32_id (2 * 2 ^ k)) by (change (2 ^ 32) with 4294967296; lia).
          rewrite (u32_id (x + _)) by (change (2 ^ 32) with 4294967296; lia).
          replace (0 * (2 * 2 ^ k) + x + (0 + 2 ^ k + 2 ^ k)) with (x + 2 * 2 ^ k) by lia. reflexivity.
        * replace (k + (1 + 1)) with (k + 1 + 1) by lia.
          assert (P2' : 2 ^ (k + 1 + 1) = 4 * 2 ^ k) by (rewrite <- P2; f_equal; lia).
          rewrite P2'. rewrite (literal_snoc (k + 1)) by lia.
          destruct (read_literal b (k + 1) s3) as [y s4] eqn:EY. cbn [fst snd] in *.
          replace (1 * (2 * 2 ^ k) + y <? 2 * 2 ^ k) with false by lia.
          rewrite literal_1.
          destruct (read_bool_swf s4 A4) as [A5 B5]. destruct (read_bool b s4) as [e s5]. cbn [fst snd] in *.
          exists (2 * (1 * (2 * 2 ^ k) + y) - 2 * 2 ^ k + e + (0 + 2 ^ k + 2 ^ k)), s5.
          split; [reflexivity|]. split; [lia|].
          rewrite (u32_id (4 * 2 ^ k)) by (change (2 ^ 32) with 4294967296; lia).
          rewrite (u32_id (2 * y + e + _)) by (change (2 ^ 32) with 4294967296; lia).
          replace (2 * (1 * (2 * 2 ^ k) + y) - 2 * 2 ^ k + e + (0 + 2 ^ k + 2 ^ k))
            with (2 * y + e + 4 * 2 ^ k) by lia. reflexivity. }
  destruct V as (v & s' & V1 & V2 & V3).
  unfold decode_unsigned_subexp_with_ref_bool. rewrite V1.
  eexists. exists s'. split; [reflexivity|]. rewrite V3. rewrite (Z.mul_comm ref 2).
  assert (P20 : 2 ^ 20 = 1048576) by reflexivity.
  destruct (Z.leb_spec (2 * ref) (8 * 2 ^ k)).
  - rewrite inv_recenter_spec by lia.
    pose proof (inverse_recenter_range ref v (8 * 2 ^ k) ltac:(lia) ltac:(lia) ltac:(lia)).
    split; [lia|]. rewrite s32_id by lia. reflexivity.
  - rewrite inv_recenter_spec by lia.
    pose proof (inverse_recenter_range (8 * 2 ^ k - 1 - ref) v (8 * 2 ^ k) ltac:(lia) ltac:(lia) ltac:(lia)).
    split; [lia|]. rewrite u32_id by (change (2 ^ 32) with 4294967296; lia).
    rewrite s32_id by lia. reflexivity.
Qed.
End Composite2.

Lemma hi_tok_spec : forall buf sz dis shape i s cdfs, 0 <= sz -> swf sz s -> cdfs_ok shape cdfs ->
  0 <= i < zlen shape -> nthZ shape i = 3 ->
  srun_dp (stream_bit buf sz) dis (decode_hi_tok i) s (spec_cdfs shape cdfs) =
  Some (coeff_br_loop (stream_bit buf sz) dis 4 i 3 s (spec_cdfs shape cdfs)).
Proof.
  intros buf sz dis shape i s cdfs Hsz Hs Hc Hi Hn.
  assert (Ho : op_ok shape (DSym i 3)) by (split; auto).
  unfold decode_hi_tok, dop_. cbn [dbind srun_dp coeff_br_loop].
  destruct (spec_step buf sz dis shape _ s cdfs Hsz Hs Hc Ho) as (v1 & s1 & c1 & -> & R1 & W1 & K1 & _).
  cbn [res_ok] in R1. destruct (Z.eqb_spec v1 3).
  2:{ replace (v1 <? 3) with true by lia. reflexivity. }
  subst v1. change (3 <? 3) with false. cbv iota. cbn [srun_dp].
  destruct (spec_step buf sz dis shape _ s1 c1 Hsz W1 K1 Ho) as (v2 & s2 & c2 & -> & R2 & W2 & K2 & _).
  cbn [res_ok] in R2. destruct (Z.eqb_spec v2 3).
  2:{ replace (v2 <? 3) with true by lia. reflexivity. }
  subst v2. change (3 <? 3) with false. cbv iota. cbn [srun_dp].
  destruct (spec_step buf sz dis shape _ s2 c2 Hsz W2 K2 Ho) as (v3 & s3 & c3 & -> & R3 & W3 & K3 & _).
  cbn [res_ok] in R3. destruct (Z.eqb_spec v3 3).
  2:{ replace (v3 <? 3) with true by lia. reflexivity. }
  subst v3. change (3 <? 3) with false. cbv iota. cbn [srun_dp].
  destruct (spec_step buf sz dis shape _ s3 c3 Hsz W3 K3 Ho) as (v4 & s4 & c4 & -> & R4 & W4 & K4 & _).
  destruct (v4 <? 3); reflexivity.
Qed.

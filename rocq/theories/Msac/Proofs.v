(** The C entropy decoder against the specification's symbol decoder, for
    arbitrary (interactive) sequences of decode calls. *)
From Coq Require Import ZArith List Bool Lia.
From Verif Require Import Base.CInt Base.Lemmas GetBits.Spec GetBits.Proofs.
From Verif Require Import Msac.Model Msac.Spec Msac.Window Msac.Cdf Msac.SpecRun.
Import ListNotations.
Open Scope Z_scope.

(** State of the specification's decoder alone. *)
Definition swf (sz : Z) (s : sym) : Prop :=
  32768 <= SymbolRange s <= 65535 /\ 0 <= SymbolValue s < SymbolRange s /\
  SymbolMaxBits s <= 8 * sz - 15 /\ bit_pos s = Z.min (8 * sz - SymbolMaxBits s) (8 * sz).

Lemma good_swf : forall W buf sz m s, good W buf sz m s -> swf sz s.
Proof. intros W buf sz m s (?&?&?&?&?&?&?&?&?&?). unfold swf. repeat split; lia. Qed.

Lemma renorm_swf : forall buf sz s u v, 0 <= sz -> swf sz s ->
  0 <= v <= SymbolValue s -> SymbolValue s < u <= SymbolRange s ->
  let s' := renorm (stream_bit buf sz) (with_uv s u v) in
  swf sz s' /\ SymbolMaxBits s - 15 <= SymbolMaxBits s' <= SymbolMaxBits s.
Proof.
  intros buf sz s u v Hsz (Hr & Hv & Hm & Hb) H1 H2 s'.
  assert (Huv : 1 <= u - v <= 65535) by lia.
  destruct (log2_16 _ Huv) as (L & X & R).
  destruct (renorm_value buf sz (with_uv s u v) Hsz) as (S1 & S2 & S3 & S4);
    cbn [with_uv SymbolRange SymbolMaxBits bit_pos]; try lia.
  cbn [with_uv SymbolRange SymbolMaxBits SymbolValue bit_pos] in S1, S2, S3, S4. fold s' in S1, S2, S3, S4.
  set (d := 15 - Z.log2 (u - v)) in *.
  pose proof (f_n_range _ (ib_range buf sz) (8 * sz - SymbolMaxBits s) d ltac:(lia)) as Fd.
  destruct (shift_in (SymbolValue s - v) (u - v) _ _ ltac:(lia) Fd) as [I1 I2].
  split; [|lia]. unfold swf. split; [rewrite S1; exact R|]. split; [rewrite S1, S2; exact I1|].
  split; [lia|exact S4].
Qed.

(** The interval search, on both sides. *)
Lemma pick : forall n R c cdf, cdf_ok n cdf -> 32768 <= R <= 65535 -> 0 <= c < R ->
  exists u v val,
    sym_loop 17 cdf c (R / 256) n R UINT_MAX = Ok (u, v, val) /\
    search (Z.to_nat (n + 1)) (spec_cdf n cdf) (n + 1) R c R (-1) = (u, v, val) /\
    0 <= val <= n /\ 0 <= v <= c /\ c < u <= R /\
    v = bound n (R / 256) cdf val /\
    u = (if val =? 0 then R else bound n (R / 256) cdf (val - 1)).
Proof.
  intros n R c cdf Hok HR Hc. pose proof Hok as (Hn & _).
  destruct (search_loop n R c cdf Hok HR ltac:(lia) 17 (Z.to_nat (n + 1)) (-1) R)
    as (u & v & val & A1 & A2 & A3 & A4 & A5 & A6 & A7); try lia; auto.
  exists u, v, val. repeat split; auto; lia.
Qed.

Lemma read_raw_pick : forall b s cdf n u v val,
  search (Z.to_nat (n + 1)) cdf (n + 1) (SymbolRange s) (SymbolValue s) (SymbolRange s) (-1) = (u, v, val) ->
  read_symbol_raw b s cdf (n + 1) = (val, renorm b (with_uv s u v)).
Proof. intros. unfold read_symbol_raw. rewrite H. auto. Qed.

Lemma pow_W : forall W, win W -> 2 ^ W = 65536 * 2 ^ (W - 16) /\ 0 < 2 ^ (W - 16) /\ 0 <= W - 16 < W.
Proof.
  intros W HW. split; [|split].
  - change 65536 with (2 ^ 16). rewrite <- Z.pow_add_r by (destruct HW; lia). f_equal; lia.
  - apply pow2_pos. destruct HW; lia.
  - destruct HW; lia.
Qed.

Lemma sub_win : forall W m v c, win W -> 0 <= ms_dif m < 2 ^ W -> ms_dif m / 2 ^ (W - 16) = c ->
  0 <= v <= c -> v <= 65535 ->
  shlW W v (W - 16) = Ok (v * 2 ^ (W - 16)) /\
  uW W (ms_dif m - v * 2 ^ (W - 16)) = ms_dif m - v * 2 ^ (W - 16).
Proof.
  intros W m v c HW Hd Hc Hv Hv'. destruct (pow_W W HW) as (PW & P16 & Hw).
  destruct (div_bounds (ms_dif m) _ v (c + 1) P16 ltac:(lia)) as [D1 D2].
  assert (0 <= v * 2 ^ (W - 16)) by (apply Z.mul_nonneg_nonneg; lia).
  rewrite shlW_ok by auto. unfold uW. rewrite !Z.mod_small by lia. auto.
Qed.

(** decode_symbol_adapt, given the selected interval. *)
Lemma sym_pick : forall W buf sz m cdf n, win W -> sane W buf sz m -> cdf_ok n cdf ->
  let c := ms_dif m / 2 ^ (W - 16) in
  exists u v val,
    search (Z.to_nat (n + 1)) (spec_cdf n cdf) (n + 1) (ms_rng m) c (ms_rng m) (-1) = (u, v, val) /\
    0 <= val <= n /\ 0 <= v <= c /\ c < u <= ms_rng m /\
    decode_symbol_adapt W m cdf n =
      (let! m' := ctx_norm W m (ms_dif m - v * 2 ^ (W - 16)) (u - v) in
       let! cdf' := (if ms_upd m then adapt cdf val n else Ok cdf) in
       Ok (val, cdf', m'))%outcome.
Proof.
  intros W buf sz m cdf n HW (Hb & He & Hp & Hr & Hd & Hdr & Hcw) Hok c.
  destruct (pow_W W HW) as (PW & P16 & Hw).
  assert (Hc : 0 <= c < ms_rng m) by (split; [apply Z.div_pos; lia|exact Hdr]).
  destruct (pick n (ms_rng m) c cdf Hok Hr Hc) as (u & v & val & A1 & A2 & A3 & A4 & A5 & A6 & A7).
  exists u, v, val. split; [exact A2|]. split; [exact A3|]. split; [exact A4|]. split; [exact A5|].
  unfold decode_symbol_adapt. rewrite !shiftr_div by lia. fold c. change (2 ^ 8) with 256.
  pose proof Hok as (Hn & Hl & Hv & Hm & Hcn).
  rewrite (u32_id c) by (change (2 ^ 32) with 4294967296; lia).
  replace (n <=? 15) with true by lia. rewrite rd_nthZ by lia. cbn [obind].
  replace (nthZ cdf n <=? 32) with true by lia. rewrite A1. cbn [obind].
  replace (u <=? ms_rng m) with true by lia.
  destruct (sub_win W m v c HW Hd eq_refl ltac:(lia) ltac:(lia)) as [E1 E2].
  rewrite E1. cbn [obind]. rewrite E2. rewrite (u32_id (u - v)) by (change (2 ^ 32) with 4294967296; lia).
  reflexivity.
Qed.

(** The boolean decoders select one of the two intervals of [f; 0]. *)
Lemma cdf_ok_bool : forall f, 0 <= f <= 32767 -> cdf_ok 1 [f; 0].
Proof.
  intros f Hf. unfold cdf_ok. split; [lia|]. split; [unfold zlen; simpl; lia|]. split; [|split].
  - intros i Hi. assert (i = 0) by lia. subst. exact Hf.
  - intros; lia.
  - change (nthZ [f; 0] 1) with 0. lia.
Qed.
Lemma spec_cdf_bool : forall f, spec_cdf 1 [f; 0] = [2 ^ 15 - f; 2 ^ 15; 0].
Proof. reflexivity. Qed.

Lemma bool_pick : forall W buf sz m cdf, win W -> sane W buf sz m -> cdf_ok 1 cdf ->
  let f := nthZ cdf 0 in
  let c := ms_dif m / 2 ^ (W - 16) in
  exists u v val,
    search (Z.to_nat (1 + 1)) (spec_cdf 1 cdf) (1 + 1) (ms_rng m) c (ms_rng m) (-1) = (u, v, val) /\
    0 <= val <= 1 /\ 0 <= v <= c /\ c < u <= ms_rng m /\
    decode_bool W m f =
      (let! m' := ctx_norm W m (ms_dif m - v * 2 ^ (W - 16)) (u - v) in Ok (val, m'))%outcome.
Proof.
  intros W buf sz m cdf HW (Hb & He & Hp & Hr & Hd & Hdr & Hcw) Hok f c.
  destruct (pow_W W HW) as (PW & P16 & Hw).
  assert (Hc : 0 <= c < ms_rng m) by (split; [apply Z.div_pos; lia|exact Hdr]).
  assert (Hf : 0 <= f <= 32767) by (destruct Hok as (_ & _ & Hv & _); apply Hv; lia).
  destruct (pick 1 (ms_rng m) c cdf Hok Hr Hc) as (u & v & val & A1 & A2 & A3 & A4 & A5 & A6 & A7).
  exists u, v, val. 
  split; [exact A2|]. split; [exact A3|]. split; [exact A4|]. split; [exact A5|].
  assert (R8 : 0 <= ms_rng m / 256 <= 255) by (clear - Hr; lia).
  pose proof (bound_range 1 (ms_rng m / 256) cdf 0 Hok R8 ltac:(lia)) as BR.
  pose proof (bound_first 1 (ms_rng m) cdf Hok Hr) as BF.
  set (B := bound 1 (ms_rng m / 256) cdf 0) in *.
  unfold decode_bool. rewrite (shiftr_div (ms_dif m)) by lia. fold c.
  replace (c <? ms_rng m) with true by lia.
  assert (EB : u32 (Z.shiftr (u32 (Z.shiftr (ms_rng m) 8 * Z.shiftr f EC_PROB_SHIFT)) (7 - EC_PROB_SHIFT) + EC_MIN_PROB) = B).
  { unfold EC_PROB_SHIFT, EC_MIN_PROB. rewrite !shiftr_div by lia. change (2 ^ 8) with 256.
    change (2 ^ 6) with 64. change (2 ^ (7 - 6)) with 2.
    assert (F6 : 0 <= f / 64 <= 511) by (clear - Hf; lia).
    pose proof (mul_bound _ _ _ _ R8 F6) as MB.
    rewrite (u32_id (ms_rng m / 256 * (f / 64))) by (change (2 ^ 32) with 4294967296; lia).
    unfold B, bound in *. fold f in BR, BF |- *.
    rewrite u32_id; [lia|]. change (2 ^ 32) with 4294967296. lia. }
  rewrite EB. unfold bool_tail.
  assert (BW : B * 2 ^ (W - 16) < 2 ^ W) by (rewrite PW; apply Z.mul_lt_mono_pos_r; lia).
  assert (B0 : 0 <= B * 2 ^ (W - 16)) by (apply Z.mul_nonneg_nonneg; lia).
  rewrite shlW_ok by auto. rewrite Z.mod_small by lia. cbn [obind].
  assert (CMP : (B * 2 ^ (W - 16) <=? ms_dif m) = (B <=? c)).
  { destruct (Z.leb_spec B c) as [Q|Q].
    - destruct (div_bounds (ms_dif m) _ B (c + 1) P16 ltac:(unfold c in *; lia)) as [D1 D2]. lia.
    - destruct (div_bounds (ms_dif m) _ 0 B P16 ltac:(unfold c in *; lia)) as [D1 D2]. lia. }
  rewrite CMP.
  destruct (Z.leb_spec B c) as [Q|Q]; unfold b2z.
  - (* first symbol *)
    assert (val = 0).
    { destruct (Z.eq_dec val 0); auto. assert (val = 1) by lia. subst val.
      change (1 =? 0) with false in A7. cbv iota in A7. change (1 - 1) with 0 in A7.
      fold B in A7. lia. }
    subst val. rewrite Z.eqb_refl in A7. subst u. fold B in A6. subst v.
    rewrite !Z.mul_1_l.
    unfold uW. rewrite (Z.mod_small (B * _)) by lia.
    destruct (div_bounds (ms_dif m) _ B (c + 1) P16 ltac:(unfold c in *; lia)) as [D1 D2].
    rewrite Z.mod_small by lia.
    replace (u32 (B + u32 (u32 (ms_rng m - u32 (2 * B))))) with (ms_rng m - B).
    2:{ unfold u32. rewrite Zmod_mod. rewrite Zplus_mod_idemp_r.
        rewrite (Z.mod_small (2 * B)) by (change (2 ^ 32) with 4294967296; lia).
        rewrite Z.mod_small; [lia|]. change (2 ^ 32) with 4294967296; lia. }
    reflexivity.
  - assert (val = 1).
    { destruct (Z.eq_dec val 1); auto. assert (val = 0) by lia. subst val.
      fold B in A6. lia. }
    subst val. change (1 =? 0) with false in A7. cbv iota in A7. change (1 - 1) with 0 in A7. fold B in A7.
    rewrite bound_last in A6 by auto. subst u v.
    rewrite !Z.mul_0_l. unfold uW. rewrite (Z.mod_small 0) by lia. rewrite !Z.sub_0_r.
    rewrite Z.mod_small by lia.
    rewrite (u32_id 0) by lia. rewrite Z.add_0_r.
    rewrite (u32_id B) by (change (2 ^ 32) with 4294967296; lia). reflexivity.
Qed.

Lemma equi_bool : forall W m, 32768 <= ms_rng m <= 65535 -> decode_bool_equi W m = decode_bool W m 16384.
Proof.
  intros W m Hr. unfold decode_bool_equi, decode_bool, EC_PROB_SHIFT, EC_MIN_PROB.
  replace (u32 (u32 (Z.shiftl (Z.shiftr (ms_rng m) 8) 7) + 4)) with
    (u32 (Z.shiftr (u32 (Z.shiftr (ms_rng m) 8 * Z.shiftr 16384 6)) (7 - 6) + 4)); [reflexivity|].
  f_equal. f_equal. rewrite (shiftr_div 16384) by lia. rewrite !shiftr_div, shiftl_mul by lia.
  change (2 ^ 8) with 256. change (16384 / 2 ^ 6) with 256. change (2 ^ 7) with 128. change (2 ^ (7 - 6)) with 2.
  assert (0 <= ms_rng m / 256 <= 255) by lia.
  rewrite !u32_id by (change (2 ^ 32) with 4294967296; lia). lia.
Qed.

(** * Calls on well-formed arguments *)

(** [shape]: the number n_symbols of each CDF array. *)
Definition op_ok (shape : list Z) (o : dop) : Prop :=
  match o with
  | DEqui => True
  | DBool f => 0 <= f <= 32767
  | DBoolAdapt i => 0 <= i < zlen shape /\ nthZ shape i = 1
  | DSym i n => 0 <= i < zlen shape /\ nthZ shape i = n
  end.
(** Range of the result of a call. *)
Definition res_ok (o : dop) (v : Z) : Prop :=
  match o with DSym _ n => 0 <= v <= n | _ => 0 <= v <= 1 end.

Definition cdfs_ok (shape : list Z) (cdfs : list (list Z)) : Prop := Forall2 cdf_ok shape cdfs.
Fixpoint spec_cdfs (shape : list Z) (cdfs : list (list Z)) : list (list Z) :=
  match shape, cdfs with
  | n :: shape, c :: cdfs => spec_cdf n c :: spec_cdfs shape cdfs
  | _, _ => []
  end.

Lemma cdfs_nth : forall shape cdfs i, cdfs_ok shape cdfs -> 0 <= i < zlen shape ->
  exists c, rd_at cdfs i = Ok c /\ cdf_ok (nthZ shape i) c /\
    nth_cdf (spec_cdfs shape cdfs) i = spec_cdf (nthZ shape i) c /\
    forall c', cdf_ok (nthZ shape i) c' ->
      exists cdfs', wr_at cdfs i c' = Ok cdfs' /\ cdfs_ok shape cdfs' /\
        spec_cdfs shape cdfs' = set_cdf (spec_cdfs shape cdfs) (Z.to_nat i) (spec_cdf (nthZ shape i) c').
Proof.
  intros shape cdfs i H. unfold rd_at, wr_at, nth_cdf, nthZ, zlen.
  intros Hi. replace (i <? 0) with false by lia. 
  assert (HL : length cdfs = length shape) by (clear - H; induction H; simpl; auto).
  replace ((0 <=? i) && (i <? Z.of_nat (length cdfs))) with true by lia.
  assert (Hk : (Z.to_nat i < length shape)%nat) by lia. clear Hi HL.
  revert Hk. generalize (Z.to_nat i) as k. clear i.
  induction H as [|n c shape cdfs Hc Hrest IH]; intros k Hk; [simpl in Hk; lia|].
  destruct k.
  - exists c. simpl. split; [reflexivity|]. split; [exact Hc|]. split; [reflexivity|]. intros c' Hc'.
    eexists. split; [reflexivity|]. split; [constructor; auto|reflexivity].
  - simpl in Hk. destruct (IH k ltac:(lia)) as (c0 & A & B & C & D).
    exists c0. simpl. split; [exact A|]. split; [exact B|]. split; [exact C|].
    intros c' Hc'. destruct (D c' Hc') as (cdfs' & E & F & G).
    inversion E; subst. eexists. split; [reflexivity|]. split; [constructor; auto|]. simpl. f_equal. auto.
Qed.

(** One call: the C decoder takes some interval [v, u); the specification's
    decoder takes the same one whenever it has the same value and range. *)
Lemma step_ok : forall W buf sz shape o m cdfs, win W -> sane W buf sz m -> cdfs_ok shape cdfs -> op_ok shape o ->
  let c := ms_dif m / 2 ^ (W - 16) in
  exists u v val cdfs',
    0 <= v <= c /\ c < u <= ms_rng m /\ res_ok o val /\ cdfs_ok shape cdfs' /\
    (forall m', ctx_norm W m (ms_dif m - v * 2 ^ (W - 16)) (u - v) = Ok m' ->
       dstep W o m cdfs = Ok (val, m', cdfs')) /\
    (forall b s, SymbolRange s = ms_rng m -> SymbolValue s = c ->
       sstep b (negb (ms_upd m)) o s (spec_cdfs shape cdfs) =
         (val, renorm b (with_uv s u v), spec_cdfs shape cdfs')).
Proof.
  intros W buf sz shape o m cdfs HW Hs Hcs Ho c. destruct o as [|f|i|i n]; cbn [op_ok] in Ho.
  - destruct (bool_pick W buf sz m [16384; 0] HW Hs (cdf_ok_bool 16384 ltac:(lia))) as (u & v & val & A1 & A2 & A3 & A4 & A5).
    exists u, v, val, cdfs. split; [exact A3|]. split; [exact A4|]. split; [exact A2|]. split; [exact Hcs|]. split.
    + intros m' E. cbn [dstep]. rewrite equi_bool by (destruct Hs as (_&_&_&?&_); auto).
      change (nthZ [16384; 0] 0) with 16384 in A5. rewrite A5, E. reflexivity.
    + intros b s E1 E2. cbn [sstep]. unfold read_bool.
      pose proof (read_raw_pick b s [2 ^ 15 - 16384; 2 ^ 15; 0] 1 u v val) as RP.
      rewrite E1, E2 in RP. rewrite spec_cdf_bool in A1. specialize (RP A1). change (1 + 1) with 2 in RP.
      change (2 ^ 15 - 16384) with (2 ^ 14) in RP. rewrite RP. reflexivity.
  - destruct (bool_pick W buf sz m [f; 0] HW Hs (cdf_ok_bool f Ho)) as (u & v & val & A1 & A2 & A3 & A4 & A5).
    exists u, v, val, cdfs. split; [exact A3|]. split; [exact A4|]. split; [exact A2|]. split; [exact Hcs|]. split.
    + intros m' E. cbn [dstep]. change (nthZ [f; 0] 0) with f in A5. rewrite A5, E. reflexivity.
    + intros b s E1 E2. cbn [sstep].
      pose proof (read_raw_pick b s [2 ^ 15 - f; 2 ^ 15; 0] 1 u v val) as RP.
      rewrite E1, E2 in RP. rewrite spec_cdf_bool in A1. specialize (RP A1). change (1 + 1) with 2 in RP.
      rewrite RP. reflexivity.
  - destruct Ho as [Hi Hn].
    destruct (cdfs_nth shape cdfs i Hcs Hi) as (cdf & B1 & B2 & B3 & B4). rewrite Hn in *.
    pose proof B2 as (_ & Hl & Hv & _ & Hcn).
    set (p := nthZ cdf 0) in *. pose proof (Hv 0 ltac:(lia)) as Hp. fold p in Hp.
    destruct (bool_pick W buf sz m cdf HW Hs B2) as (u & v & val & A1 & A2 & A3 & A4 & A5).
    assert (SC : search (Z.to_nat (1 + 1)) (spec_cdf 1 cdf) (1 + 1) (ms_rng m) c (ms_rng m) (-1) = (u, v, val)).
    { exact A1. }
    (* adapted array *)
    assert (AD : exists cdf', cdf_ok 1 cdf' /\
      (forall m', ctx_norm W m (ms_dif m - v * 2 ^ (W - 16)) (u - v) = Ok m' ->
        decode_bool_adapt W m cdf = Ok (val, cdf', m')) /\
      spec_cdf 1 cdf' = if negb (ms_upd m) then spec_cdf 1 cdf else adapt_cdf (spec_cdf 1 cdf) 2 val).
    { unfold decode_bool_adapt. rewrite rd_nthZ by lia. cbn [obind]. rewrite A5.
      destruct (ms_upd m); cbn [negb].
      - rewrite rd_nthZ by lia. cbn [obind]. rewrite (shiftr_div (nthZ cdf 1) 4) by lia; fold p. change (2 ^ 4) with 16.
        set (cnt := nthZ cdf 1) in *.
        replace (4 + cnt / 16) with (the_rate 1 cnt) by (unfold the_rate; change (b2z (2 <? 1)) with 0; lia).
        pose proof (the_rate_range 1 cnt Hcn) as Hr.
        set (x := if z2b val then u16 (p + Z.shiftr (32768 - p) (the_rate 1 cnt)) else u16 (p - Z.shiftr p (the_rate 1 cnt))).
        assert (Ex : x = upd_entry (the_rate 1 cnt) (0 <? val) p).
        { unfold x. pose proof (upd_entry_range (the_rate 1 cnt) (0 <? val) p Hr Hp) as UR.
          replace (z2b val) with (0 <? val) by (unfold z2b; lia).
          rewrite !shiftr_div by lia. unfold upd_entry in *.
          destruct (0 <? val); apply u16_id; change (2 ^ 16) with 65536; lia. }
        destruct (wr_nthZ cdf 0 x ltac:(lia)) as (c1 & W1 & W2 & W3).
        destruct (wr_nthZ c1 1 (u16 (cnt + b2z (cnt <? 32))) ltac:(lia)) as (c2 & V1 & V2 & V3).
        exists c2. destruct (adapted_ok 1 cdf c2 val B2 A2 ltac:(lia)) as [K1 K2].
        + intros j Hj. rewrite V3 by auto. destruct (Z.eqb_spec j 1).
          * fold cnt. rewrite u16_id; auto. change (2 ^ 16) with 65536. unfold b2z. destruct (cnt <? 32); lia.
          * rewrite W3 by auto. destruct (Z.eqb_spec j 0).
            { subst j. change (0 <? 1) with true. cbv iota. rewrite Ex. reflexivity. }
            replace (j <? 1) with false by lia. auto.
        + split; [exact K1|]. split; [|exact K2].
          intros m' E. rewrite E. cbn [obind]. unfold x in W1. rewrite W1. cbn [obind]. rewrite V1. reflexivity.
      - exists cdf. split; [exact B2|]. split; auto. intros m' E. rewrite E. reflexivity. }
    destruct AD as (cdf' & K1 & K2 & K3). destruct (B4 cdf' K1) as (cdfs' & C1 & C2 & C3).
    exists u, v, val, cdfs'. split; [exact A3|]. split; [exact A4|]. split; [exact A2|]. split; [exact C2|]. split.
    + intros m' E. cbn [dstep]. rewrite B1. cbn [obind]. rewrite (K2 m' E). cbn [obind]. rewrite C1. reflexivity.
    + intros b s E1 E2. cbn [sstep]. rewrite B3. unfold read_symbol.
      pose proof (read_raw_pick b s (spec_cdf 1 cdf) 1 u v val) as RP.
      rewrite E1, E2 in RP. specialize (RP SC). change (1 + 1) with 2 in RP.
      rewrite RP, C3, K3. reflexivity.
  - destruct Ho as [Hi Hn].
    destruct (cdfs_nth shape cdfs i Hcs Hi) as (cdf & B1 & B2 & B3 & B4). rewrite Hn in *.
    destruct (sym_pick W buf sz m cdf n HW Hs B2) as (u & v & val & A1 & A2 & A3 & A4 & A5).
    assert (AD : exists cdf', cdf_ok n cdf' /\ (if ms_upd m then adapt cdf val n else Ok cdf) = Ok cdf' /\
      spec_cdf n cdf' = if negb (ms_upd m) then spec_cdf n cdf else adapt_cdf (spec_cdf n cdf) (n + 1) val).
    { destruct (ms_upd m); cbn [negb].
      - destruct (adapt_ok n cdf val B2 A2) as (cdf' & Q1 & Q2 & Q3 & Q4). exists cdf'. auto.
      - exists cdf. auto. }
    destruct AD as (cdf' & K1 & K2 & K3). destruct (B4 cdf' K1) as (cdfs' & C1 & C2 & C3).
    exists u, v, val, cdfs'. split; [exact A3|]. split; [exact A4|]. split; [exact A2|]. split; [exact C2|]. split.
    + intros m' E. cbn [dstep]. rewrite B1. cbn [obind]. rewrite A5, E. cbn [obind]. rewrite K2. cbn [obind].
      rewrite C1. reflexivity.
    + intros b s E1 E2. cbn [sstep]. rewrite B3. unfold read_symbol.
      rewrite read_raw_pick with (u := u) (v := v) (val := val).
      * rewrite C3, K3. reflexivity.
      * rewrite E1, E2. exact A1.
Qed.

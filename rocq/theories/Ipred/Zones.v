(** The edges used by the three zones of directional prediction. *)
From Coq Require Import ZArith List Bool Lia.
From Verif Require Import Base.CInt Base.Lemmas Base.Loop Cdef.Block Mc.Blocks Ipred.Model Ipred.Kernels Ipred.Arrays Ipred.Dir.
From Verif Require Ipred.Spec.
Import ListNotations.
Open Scope Z_scope.

(** * One edge *)
Section One.
  Variables (bd n m mx : Z) (e : Z -> Z) (s : Z) (u en : bool).
  Hypothesis Hd : depth bd.
  Hypothesis Hn : 4 <= n <= 64.
  Hypothesis Hm : 4 <= m <= 64.
  Hypothesis Hmx : 1 <= mx.
  Hypothesis HP : forall i, pixel bd (e i).
  Hypothesis tail : forall i, 2 * n - 1 <= i -> e i = e (2 * n - 1).
  Hypothesis edge : mx < n -> forall i, mx - 1 <= i -> e i = e (mx - 1).
  Hypothesis Hs : 0 <= s <= 3.
  Hypothesis Hu : u = true -> s = 0 /\ n + m <= 16.
  Notation to := (n + Z.min n m).
  Definition SA (p : Z) : Z :=
    if en && u then Spec.upsample bd (n + m) (if en then Spec.edge_filter (Z.min n mx + m + 1) s e else e) p
    else if en then Spec.edge_filter (Z.min n mx + m + 1) s e p else e p.
  Lemma SA_up : en = true -> u = true -> forall p, 0 <= p <= 2 * (n + m) - 2 -> upv bd e (-1) to p = SA p.
  Proof.
    intros E1 E2 p Hp. unfold SA. rewrite E1, E2. cbn [andb]. rewrite (up_eq bd n m mx e) by assumption. apply spec_upsample_ext; [|lia|lia].
    intros i Hi. unfold Spec.edge_filter. rewrite (proj1 (Hu E2)). reflexivity.
  Qed.
  Lemma SA_flt : en = true -> u = false -> s <> 0 -> forall p, 0 <= p < n + m -> fkern s (fun j => e (iclip (p - 2 + j) (-1) (to - 1))) = SA p.
  Proof. intros E1 E2 E3 p Hp. unfold SA. rewrite E1, E2. cbn [andb]. apply (flt_eq n m mx e); (assumption || lia). Qed.
  Lemma SA_none : en && u = false -> (if en then s else 0) = 0 -> forall p, SA p = e p.
  Proof. intros E1 E2 p. unfold SA. rewrite E1. destruct en; [|reflexivity]. rewrite E2. reflexivity. Qed.

  (** The samples that zones 1 and 3 read: [T] up to [maxb] *)
  Definition line_ok (T : Z -> Z) (maxb : Z) : Prop :=
    0 <= maxb /\ (forall k, 0 <= k <= maxb -> pixel bd (T k)) /\
    let last := (n + m - 1) * 2 ^ (b2z (en && u)) in
    forall f b, 0 <= b -> val T maxb (Z.land f 62) b = if b <? last then Spec.interp SA b ((f / 2) mod 32) else SA last.
  Lemma line_same : forall T, (forall k, 0 <= k <= (n + m - 1) * 2 ^ (b2z (en && u)) -> pixel bd (T k) /\ T k = SA k) -> line_ok T ((n + m - 1) * 2 ^ (b2z (en && u))).
  Proof.
    intros T HT. set (mb := (n + m - 1) * 2 ^ (b2z (en && u))) in *.
    assert (M0 : 0 <= mb) by (unfold mb; destruct (en && u); cbn [b2z]; [change (2 ^ 1) with 2|change (2 ^ 0) with 1]; lia). split; [exact M0|].
    split; [intros k Hk; apply HT; exact Hk|]. intros last f b Hb. unfold val. change last with mb. destruct (Z.ltb_spec b mb).
    - rewrite mix_interp. apply interp_ext; apply HT; lia.
    - apply HT. lia.
  Qed.
  Lemma line_none : en && u = false -> (if en then s else 0) = 0 -> line_ok e (to - 1).
  Proof.
    intros E1 E2. split; [lia|]. split; [intros; apply HP|]. intros last f b Hb. unfold last. rewrite E1. cbn [b2z]. change (2 ^ 0) with 1. rewrite Z.mul_1_r.
    unfold val. pose proof (SA_none E1 E2) as SN. rewrite SN. destruct (Z_le_gt_dec m n) as [l|l].
    - rewrite Z.min_r by lia. destruct (b <? n + m - 1); [|reflexivity]. rewrite mix_interp. apply interp_ext; symmetry; apply SN.
    - rewrite Z.min_l by lia. replace (n + n - 1) with (2 * n - 1) by lia. destruct (Z.ltb_spec b (2 * n - 1)), (Z.ltb_spec b (n + m - 1)); try lia.
      + rewrite mix_interp. apply interp_ext; symmetry; apply SN.
      + symmetry. apply interp_const; rewrite SN; apply tail; lia.
      + symmetry. apply tail. lia.
  Qed.
End One.

(** * Edges read backwards and from another place *)
Lemma upv_rev : forall bd g e N from to to' p, (forall k, g (iclip k from (to - 1)) = e (iclip (N - 1 - k) (-1) (to' - 1))) ->
  upv bd g from to (2 * N - 2 - p) = upv bd e (-1) to' p.
Proof.
  intros bd g e N from to to' p HG. unfold upv. destruct (Z.odd p) eqn:O.
  - apply Z.odd_spec in O. destruct O as (q & ->). replace (2 * N - 2 - (2 * q + 1)) with ((N - 2 - q) * 2 + 1) by ring.
    destruct (odd_even (N - 2 - q)) as (_ & _ & -> & ->). replace (2 * q + 1) with (q * 2 + 1) by ring. destruct (odd_even q) as (_ & _ & _ & ->).
    rewrite ukern_rev. unfold ukern. rewrite !HG. do 2 f_equal.
    replace (N - 1 - (N - 2 - q + (3 - 0) - 1)) with (q + 0 - 1) by ring. replace (N - 1 - (N - 2 - q + (3 - 1) - 1)) with (q + 1 - 1) by ring.
    replace (N - 1 - (N - 2 - q + (3 - 2) - 1)) with (q + 2 - 1) by ring. replace (N - 1 - (N - 2 - q + (3 - 3) - 1)) with (q + 3 - 1) by ring. reflexivity.
  - assert (EV : Z.even p = true) by (rewrite <- Z.negb_odd, O; reflexivity). apply Z.even_spec in EV. destruct EV as (q & ->).
    replace (2 * N - 2 - 2 * q) with ((N - 1 - q) * 2) by ring. destruct (odd_even (N - 1 - q)) as (-> & -> & _).
    replace (2 * q) with (q * 2) by ring. destruct (odd_even q) as (_ & -> & _). rewrite HG. do 2 f_equal. ring.
Qed.
Lemma upv_shift : forall bd g e from to to' p, (forall k, g (iclip k from (to - 1)) = e (iclip (k - 1) (-1) (to' - 1))) ->
  upv bd g from to (p + 2) = upv bd e (-1) to' p.
Proof.
  intros bd g e from to to' p HG. unfold upv. replace (Z.odd (p + 2)) with (Z.odd p) by (rewrite Z.odd_add; change (Z.odd 2) with false; apply eq_sym, xorb_false_r).
  replace ((p + 2) / 2) with (p / 2 + 1) by lia. destruct (Z.odd p).
  - unfold ukern. rewrite !HG. replace (p / 2 + 1 + 0 - 1 - 1) with (p / 2 + 0 - 1) by ring. replace (p / 2 + 1 + 1 - 1 - 1) with (p / 2 + 1 - 1) by ring.
    replace (p / 2 + 1 + 2 - 1 - 1) with (p / 2 + 2 - 1) by ring. replace (p / 2 + 1 + 3 - 1 - 1) with (p / 2 + 3 - 1) by ring. reflexivity.
  - rewrite HG. do 2 f_equal. ring.
Qed.
Lemma fkern_back : forall s g e N from to to' p, 1 <= s <= 3 -> (forall k, g (iclip k from (to - 1)) = e (iclip (N - 1 - k) (-1) (to' - 1))) ->
  fkern s (fun j => g (iclip (N - 1 - p - 2 + j) from (to - 1))) = fkern s (fun j => e (iclip (p - 2 + j) (-1) (to' - 1))).
Proof.
  intros s g e N from to to' p Hs HG. rewrite fkern_rev by exact Hs. apply fkern_ext; [exact Hs|]. intros j Hj. rewrite HG. do 2 f_equal. ring.
Qed.
Lemma rev_clip : forall N from to k, from <= to -> N - 1 - iclip k from to = iclip (N - 1 - k) (N - 1 - to) (N - 1 - from).
Proof.
  intros N from to k H. unfold iclip. destruct (Z.ltb_spec k from), (Z.ltb_spec (N - 1 - k) (N - 1 - to)); try lia; destruct (Z.ltb_spec to k); try lia;
    destruct (Z.ltb_spec (N - 1 - from) (N - 1 - k)); lia.
Qed.
Lemma shift_clip : forall from to k, iclip k from to - 1 = iclip (k - 1) (from - 1) (to - 1).
Proof. intros from to k. unfold iclip. destruct (Z.ltb_spec k from), (Z.ltb_spec (k - 1) (from - 1)); try lia. destruct (Z.ltb_spec to k), (Z.ltb_spec (to - 1) (k - 1)); lia. Qed.

Section Zones.
  Variables (bd lw lh : Z).
  Hypothesis Hd : depth bd.
  Hypothesis Hsz : size lw lh.
  Notation w := (2 ^ lw).
  Notation h := (2 ^ lh).
  Variable tl : Z -> outcome Z.
  Variables (mx my : Z) (sm en : bool) (a : Z).
  Hypothesis Ha : valid_angle a.

  (** ** Zone 1 *)
  Section Z1.
    Variable e : Z -> Z.
    Hypothesis HP : forall i, pixel bd (e i).
    Hypothesis Hmx : 1 <= mx.
    Hypothesis tail : forall i, 2 * w - 1 <= i -> e i = e (2 * w - 1).
    Hypothesis edge : mx < w -> forall i, mx - 1 <= i -> e i = e (mx - 1).
    Hypothesis Hin : forall k, -1 <= k < 2 * w -> tl (1 + k) = Ok (e k).
    Hypothesis Hlt : a < 90.
    Notation s := (Spec.strength w h sm (a - 90)).
    Notation u := (Spec.useUpsample w h sm (a - 90)).
    Lemma su : u = true -> s = 0 /\ w + h <= 16.
    Proof. intros E. split; [apply upsample_no_filter; exact E|apply (upsample_small w h sm (a - 90)); exact E]. Qed.
    Lemma z1_edge_ok : exists top T maxb, z1_edge bd w h tl (flags a sm en) = Ok (top, maxb, Spec.Dr_Intra_Derivative a * 2 ^ b2z (en && u), b2z (en && u)) /\
      (forall k, 0 <= k <= maxb -> top k = Ok (T k)) /\ line_ok bd w h mx e s u en T maxb.
    Proof.
      pose proof (w_range lw lh Hsz) as RW. pose proof (h_range lw lh Hsz) as RH. destruct (flags_ok a sm en Ha) as (F1 & F2 & F3).
      destruct (angle_z1 a Ha Hlt) as (A0 & D1 & D2). unfold z1_edge. rewrite F1, F2, F3. cbv zeta.
      destruct (Z.ltb_spec a 90); [|lia]. rewrite D1. cbn [obind].
      assert (EU : get_upsample (w + h) (90 - a) sm = u). { rewrite upsample_sel_eq by lia. rewrite <- upsample_opp. f_equal. lia. }
      assert (ES : get_filter_strength (w + h) (90 - a) sm = s). { rewrite strength_eq by lia. rewrite <- strength_opp. f_equal. lia. }
      rewrite EU, ES. clear EU ES.
      pose proof (strength_range w h sm (a - 90)) as RS. pose proof su as SU. set (ss := s) in *. set (uu := u) in *. clearbody ss uu.
      assert (IN : forall k, -1 <= k < w + Z.min w h -> tl (1 + k) = Ok (e k) /\ pixel bd (e k)) by (intros k Hk; split; [apply Hin; lia|apply HP]).
      destruct (en && uu) eqn:EU.
      - apply andb_prop in EU. destruct EU as (E1 & E2). destruct (SU E2) as (S0 & S1). cbn [b2z].
        destruct (upsample_edge_ok bd Hd (fun i => tl (1 + i)) e (-1) (w + Z.min w h) ltac:(lia) IN 128 0 (w + h) arr0 ltac:(lia) ltac:(lia) ltac:(lia)) as (out & -> & O1 & O2).
        cbn [obind]. eexists _, (upv bd e (-1) (w + Z.min w h)), _. split; [rewrite Z.shiftl_mul_pow2 by lia; reflexivity|]. split.
        + intros k Hk. apply rd1_ok; [lia|]. rewrite <- (Z.add_0_l k). rewrite O1 by lia. f_equal.
        + replace (2 * (w + h) - 2) with ((w + h - 1) * 2 ^ (b2z (en && uu))) by (rewrite E1, E2; cbn [andb b2z]; change (2 ^ 1) with 2; lia).
          apply line_same; try assumption. rewrite E1, E2. cbn [andb b2z]. change (2 ^ 1) with 2. intros k Hk. split.
          * apply upv_pixel with (inp := fun i => tl (1 + i)); [exact Hd|lia|exact IN].
          * apply SA_up; try assumption; try reflexivity; try lia.
      - cbn [b2z]. change (2 ^ 0) with 1. rewrite Z.mul_1_r. destruct (Z.eqb_spec (if en then ss else 0) 0) as [S0|S0].
        + exists (fun i => tl (1 + i)), e, (w + Z.min w h - 1). split; [reflexivity|]. split; [intros k Hk; apply Hin; lia|]. apply line_none; assumption.
        + destruct en eqn:EN; [|congruence]. cbn [andb] in EU.
          destruct (filter_edge_ok bd Hd (fun i => tl (1 + i)) e (-1) (w + Z.min w h) ltac:(lia) IN 128 0 (w + h) 0 (w + h) ss arr0 ltac:(lia) ltac:(lia) ltac:(lia) ltac:(lia)) as (out & -> & O1 & O2).
          cbn [obind]. eexists _, (fun k => fkern ss (fun j => e (iclip (k - 2 + j) (-1) (w + Z.min w h - 1)))), _. split; [reflexivity|]. split.
          * intros k Hk. apply rd1_ok; [lia|]. rewrite <- (Z.add_0_l k) at 1. rewrite O1 by lia. destruct (Z.leb_spec 0 k); [|lia]. destruct (Z.ltb_spec k (w + h)); [|lia]. reflexivity.
          * replace (w + h - 1) with ((w + h - 1) * 2 ^ (b2z (true && uu))) by (rewrite EU; cbn [andb b2z]; change (2 ^ 0) with 1; lia).
            apply line_same; try assumption. rewrite EU. cbn [andb b2z]. change (2 ^ 0) with 1. intros k Hk. split.
            -- apply fkern_pixel; [lia|]. intros; apply HP.
            -- apply SA_flt; try assumption; try reflexivity; lia.
    Qed.
  End Z1.

  (** ** Zone 3 *)
  Section Z3.
    Variable e : Z -> Z.
    Hypothesis HP : forall i, pixel bd (e i).
    Hypothesis Hmy : 1 <= my.
    Hypothesis tail : forall i, 2 * h - 1 <= i -> e i = e (2 * h - 1).
    Hypothesis edge : my < h -> forall i, my - 1 <= i -> e i = e (my - 1).
    Hypothesis Hin : forall k, -1 <= k < 2 * h -> tl (-(1 + k)) = Ok (e k).
    Hypothesis Hgt : 180 < a.
    Notation s := (Spec.strength w h sm (a - 180)).
    Notation u := (Spec.useUpsample w h sm (a - 180)).
    Lemma su3 : u = true -> s = 0 /\ h + w <= 16.
    Proof. intros E. split; [apply upsample_no_filter; exact E|]. pose proof (upsample_small w h sm (a - 180) E). lia. Qed.
    Lemma z3_edge_ok : exists lft T maxb, z3_edge bd w h tl (flags a sm en) = Ok (lft, maxb, Spec.Dr_Intra_Derivative (270 - a) * 2 ^ b2z (en && u), b2z (en && u)) /\
      (forall k, 0 <= k <= maxb -> lft (- k) = Ok (T k)) /\ line_ok bd h w my e s u en T maxb.
    Proof.
      pose proof (w_range lw lh Hsz) as RW. pose proof (h_range lw lh Hsz) as RH. destruct (flags_ok a sm en Ha) as (F1 & F2 & F3).
      destruct (angle_z3 a Ha Hgt) as (A0 & (D1 & D2) & _). unfold z3_edge. rewrite F1, F2, F3. cbv zeta.
      destruct (Z.ltb_spec 180 a); [|lia]. rewrite D1. cbn [obind].
      assert (EU : get_upsample (w + h) (a - 180) sm = u) by (apply upsample_sel_eq; lia).
      assert (ES : get_filter_strength (w + h) (a - 180) sm = s) by (apply strength_eq; lia).
      rewrite EU, ES. clear EU ES.
      pose proof (strength_range w h sm (a - 180)) as RS. pose proof su3 as SU. set (ss := s) in *. set (uu := u) in *. clearbody ss uu.
      set (g := fun i => e (w + h - 1 - i)). set (from := Z.max (w - h) 0).
      assert (IN : forall k, from <= k < w + h + 1 -> tl (-(w + h) + k) = Ok (g k) /\ pixel bd (g k)).
      { intros k Hk. unfold from in Hk. split; [|apply HP]. unfold g. rewrite <- Hin by lia. f_equal. lia. }
      assert (HG : forall k, g (iclip k from (w + h + 1 - 1)) = e (iclip (w + h - 1 - k) (-1) (h + Z.min h w - 1))).
      { intros k. unfold g. rewrite rev_clip by (unfold from; lia). do 2 f_equal; unfold from; lia. }
      destruct (en && uu) eqn:EU.
      - apply andb_prop in EU. destruct EU as (E1 & E2). destruct (SU E2) as (S0 & S1). cbn [b2z].
        destruct (upsample_edge_ok bd Hd (fun i => tl (-(w + h) + i)) g from (w + h + 1) ltac:(unfold from; lia) IN 128 0 (w + h) arr0 ltac:(lia) ltac:(lia) ltac:(lia)) as (out & -> & O1 & O2).
        cbn [obind]. eexists _, (upv bd e (-1) (h + Z.min h w)), _. split; [rewrite Z.shiftl_mul_pow2 by lia; reflexivity|]. cbv beta. split.
        + intros k Hk. apply rd1_ok; [lia|]. rewrite <- (upv_rev bd g e (w + h) from (w + h + 1) _ k HG). rewrite <- O1 by lia. f_equal.
        + replace (2 * (w + h) - 2) with ((h + w - 1) * 2 ^ (b2z (en && uu))) by (rewrite E1, E2; cbn [andb b2z]; change (2 ^ 1) with 2; lia).
          apply line_same; try assumption. rewrite E1, E2. cbn [andb b2z]. change (2 ^ 1) with 2. intros k Hk. split.
          * rewrite <- (upv_rev bd g e (w + h) from (w + h + 1) _ k HG). apply upv_pixel with (inp := fun i => tl (-(w + h) + i)); [exact Hd|unfold from; lia|exact IN].
          * apply SA_up; try assumption; try reflexivity; try lia.
      - cbn [b2z]. change (2 ^ 0) with 1. rewrite Z.mul_1_r. destruct (Z.eqb_spec (if en then ss else 0) 0) as [S0|S0].
        + exists (fun i => tl (-1 + i)), e, (h + Z.min w h - 1). split; [reflexivity|]. split; [intros k Hk; rewrite <- Hin by lia; f_equal; lia|].
          rewrite (Z.min_comm w h). apply line_none; assumption.
        + destruct en eqn:EN; [|congruence]. cbn [andb] in EU.
          destruct (filter_edge_ok bd Hd (fun i => tl (-(w + h) + i)) g from (w + h + 1) ltac:(unfold from; lia) IN 128 0 (w + h) 0 (w + h) ss arr0 ltac:(lia) ltac:(lia) ltac:(lia) ltac:(lia)) as (out & -> & O1 & O2).
          cbn [obind]. eexists _, (fun k => fkern ss (fun j => e (iclip (k - 2 + j) (-1) (h + Z.min h w - 1)))), _. split; [reflexivity|]. cbv beta. split.
          * intros k Hk. apply rd1_ok; [lia|]. rewrite <- (fkern_back ss g e (w + h) from (w + h + 1) _ k ltac:(lia) HG).
            replace (w + h - 1 + - k) with (0 + (w + h - 1 - k)) by lia. rewrite O1 by lia.
            destruct (Z.leb_spec 0 (w + h - 1 - k)); [|lia]. destruct (Z.ltb_spec (w + h - 1 - k) (w + h)); [|lia]. reflexivity.
          * replace (w + h - 1) with ((h + w - 1) * 2 ^ (b2z (true && uu))) by (rewrite EU; cbn [andb b2z]; change (2 ^ 0) with 1; lia).
            apply line_same; try assumption. rewrite EU. cbn [andb b2z]. change (2 ^ 0) with 1. intros k Hk. split.
            -- apply fkern_pixel; [lia|]. intros; apply HP.
            -- apply SA_flt; try assumption; try reflexivity; lia.
    Qed.
  End Z3.
End Zones.

(** Closed form of the noise stripes of the specification. *)
From Coq Require Import ZArith List Bool Lia.
From Verif Require Import Base.CInt Base.Lemmas Base.Loop Obu.FrameSpec Grain.Spec Grain.Arith Grain.Templates.
Import ListNotations.
Open Scope Z_scope.

(** The random register after [k] blocks, and the number of block [k]. *)
Definition regs (r0 k : Z) : Z := zfor 0 k (fun _ r => snd (random_number 8 r)) r0.
Definition rnd (r0 k : Z) : Z := fst (random_number 8 (regs r0 k)).
Lemma regs_0 : forall r0, regs r0 0 = r0.
Proof. intros. reflexivity. Qed.
Lemma regs_S : forall r0 k, 0 <= k -> regs r0 (k + 1) = snd (random_number 8 (regs r0 k)).
Proof. intros r0 k H. unfold regs. rewrite zfor_last by lia. reflexivity. Qed.
Lemma regs_range : forall r0 k, 0 <= r0 < 65536 -> 0 <= k -> 0 <= regs r0 k < 65536.
Proof.
  intros r0 k Hr Hk. unfold regs. apply (zfor_inv _ (fun _ r => 0 <= r < 65536)); [lia|exact Hr|].
  intros j r _ Hj. apply rng_ok; auto.
Qed.
Lemma rnd_range : forall r0 k, 0 <= r0 < 65536 -> 0 <= k -> 0 <= rnd r0 k < 256.
Proof. intros r0 k Hr Hk. unfold rnd. change 256 with (2 ^ 8). apply rng_ok; [auto|]. apply regs_range; assumption. Qed.

(** A rectangle assigned row by row. *)
Lemma fill_assign : forall (f : Z -> Z -> Z -> Z) H W c a0 y x,
  0 <= H -> 0 <= W ->
  zfor 0 H (fun i a => zfor 0 W (fun j a => assign a i (c + j) (f i j (a i (c + j)))) a) a0 y x =
  if (0 <=? y) && (y <? H) && (c <=? x) && (x <? c + W) then f y (x - c) (a0 y x) else a0 y x.
Proof.
  intros f H W c a0 y x HH HW.
  set (P := fun i (a : array2) => forall y x, a y x =
    if (0 <=? y) && (y <? i) && (c <=? x) && (x <? c + W) then f y (x - c) (a0 y x) else a0 y x).
  assert (G : P H (zfor 0 H (fun i a => zfor 0 W (fun j a => assign a i (c + j) (f i j (a i (c + j)))) a) a0)).
  2:{ apply G. }
  apply zfor_inv; [lia| |].
  - intros u w. destruct (Z.leb_spec 0 u), (Z.ltb_spec u 0); try lia; reflexivity.
  - intros i a Hi Ha.
    set (Q := fun j (b : array2) => forall y x, b y x =
      if (y =? i) && (c <=? x) && (x <? c + j) then f y (x - c) (a y x) else a y x).
    assert (GQ : Q W (zfor 0 W (fun j a => assign a i (c + j) (f i j (a i (c + j)))) a)).
    { apply zfor_inv; [lia| |].
      - intros u w. destruct (Z.eqb_spec u i), (Z.leb_spec c w), (Z.ltb_spec w (c + 0)); try lia; reflexivity.
      - intros j b Hj Hb u w. unfold assign. rewrite !Hb.
        destruct (Z.eqb_spec u i) as [->|]; cbn [andb].
        + destruct (Z.eqb_spec w (c + j)) as [->|].
          * rewrite Z.eqb_refl. destruct (Z.leb_spec c (c + j)), (Z.ltb_spec (c + j) (c + (j + 1))), (Z.ltb_spec (c + j) (c + j)); try lia.
            cbn [andb]. replace (c + j - c) with j by lia. reflexivity.
          * destruct (Z.leb_spec c w), (Z.ltb_spec w (c + j)), (Z.ltb_spec w (c + (j + 1))); try lia; reflexivity.
        + reflexivity. }
    intros u w. rewrite (GQ u w). rewrite !(Ha u w).
    destruct (Z.eqb_spec u i) as [->|]; cbn [andb].
    + destruct (Z.leb_spec 0 i), (Z.ltb_spec i i), (Z.ltb_spec i (i + 1)), (Z.leb_spec c w), (Z.ltb_spec w (c + W)); try lia; reflexivity.
    + destruct (Z.leb_spec 0 u), (Z.ltb_spec u i), (Z.ltb_spec u (i + 1)), (Z.leb_spec c w), (Z.ltb_spec w (c + W)); try lia; reflexivity.
Qed.

Section S.
Variable v : video.
Variable s : film_grain.

Definition reg0 (lumaNum : Z) : Z :=
  Z.lxor (Z.lxor (grain_seed s) (((lumaNum * 37 + 178) mod 256) * 256)) ((lumaNum * 173 + 105) mod 256).
Lemma reg0_range : forall n, 0 <= grain_seed s < 65536 -> 0 <= reg0 n < 65536.
Proof.
  intros n H. unfold reg0. change 65536 with (2 ^ 16) in *.
  apply lxor_range; [lia| |change (2 ^ 16) with 65536; lia]. apply lxor_range; [lia|exact H|]. change (2 ^ 16) with 65536. lia.
Qed.
(** Size of a block, of the overlap and of a grain block. *)
Definition bsz (sub : Z) : Z := if sub =? 1 then 16 else 32.
Definition ovl (sub : Z) : Z := if sub =? 1 then 1 else 2.
Definition goff (sub o : Z) : Z := if sub =? 1 then 6 + o else 9 + o * 2.
Definition blk (Grain : array2) (sx sy r i j : Z) : Z := Grain (goff sy (r mod 16) + i) (goff sx (r / 16) + j).
Definition nblocks : Z := ((frame_w v + 1) / 2 + 15) / 16.

Definition closed (Grain : array2) (sx sy n k i j : Z) : Z :=
  let g := blk Grain sx sy (rnd (reg0 n) k) i j in
  if (j <? ovl sx) && (overlap_flag s =? 1) && (0 <? k)
  then overlapped v sx j (blk Grain sx sy (rnd (reg0 n) (k - 1)) i (j + bsz sx)) g else g.

Lemma stripe_closed : forall Grain sx sy n k i j, 0 <= frame_w v -> 0 <= k < nblocks -> 0 <= i < bsz sy + ovl sy -> 0 <= j < bsz sx ->
  NoiseStripe v s Grain sx sy n i (k * bsz sx + j) = closed Grain sx sy n k i j.
Proof.
  intros Grain sx sy n k i j HW Hk Hi Hj. unfold NoiseStripe. cbv zeta. fold (reg0 n). fold nblocks.
  assert (H34 : forall t, (if t =? 1 then 17 else 34) = bsz t + ovl t) by (intros t; unfold bsz, ovl; destruct (t =? 1); reflexivity).
  rewrite !H34.
  match goal with |- fst (zfor 0 nblocks ?b _) _ _ = _ => set (body := b) end.
  set (Inv := fun m (st : array2 * Z) => snd st = regs (reg0 n) m /\
    (forall k i j, 0 <= k < m -> 0 <= i < bsz sy + ovl sy -> 0 <= j < bsz sx -> fst st i (k * bsz sx + j) = closed Grain sx sy n k i j) /\
    (0 < m -> forall i j, 0 <= i < bsz sy + ovl sy -> 0 <= j < ovl sx ->
       fst st i (m * bsz sx + j) = blk Grain sx sy (rnd (reg0 n) (m - 1)) i (j + bsz sx))).
  assert (B : bsz sx = 16 /\ ovl sx = 1 \/ bsz sx = 32 /\ ovl sx = 2) by (unfold bsz, ovl; destruct (sx =? 1); auto).
  assert (By : 0 <= bsz sy + ovl sy) by (unfold bsz, ovl; destruct (sy =? 1); lia).
  assert (G : Inv nblocks (zfor 0 nblocks body ((fun _ _ => 0), reg0 n))).
  { apply zfor_inv; [lia| |].
    - split; [reflexivity|]. split; [intros; lia|intros; lia].
    - intros m [a r] Hm (I1 & I2 & I3). cbn [fst snd] in *. subst r. unfold body.
      destruct (random_number 8 (regs (reg0 n) m)) as [rand r'] eqn:ER.
      assert (Er : rand = rnd (reg0 n) m) by (unfold rnd; rewrite ER; reflexivity).
      assert (Er' : r' = regs (reg0 n) (m + 1)) by (rewrite regs_S, ER by lia; reflexivity).
      assert (EC : 16 * m * (if sx =? 1 then 1 else 2) = m * bsz sx) by (unfold bsz; destruct (sx =? 1); lia).
      rewrite EC.
      set (F := fun i j old => let g := Grain ((if sy =? 1 then 6 + rand mod 16 else 9 + rand mod 16 * 2) + i)
                                             ((if sx =? 1 then 6 + rand / 16 else 9 + rand / 16 * 2) + j) in
                               if (j <? (if sx =? 1 then 1 else 2)) && (overlap_flag s =? 1) && (0 <? m) then overlapped v sx j old g else g).
      pose proof (fill_assign F (bsz sy + ovl sy) (bsz sx + ovl sx) (m * bsz sx) a) as FA.
      assert (FE : forall i j old, F i j old = if (j <? ovl sx) && (overlap_flag s =? 1) && (0 <? m)
                     then overlapped v sx j old (blk Grain sx sy (rnd (reg0 n) m) i j) else blk Grain sx sy (rnd (reg0 n) m) i j).
      { intros. unfold F, blk, goff, ovl. rewrite Er. reflexivity. }
      cbn [fst snd]. split; [exact Er'|]. split.
      + intros k' i' j' Hk' Hi' Hj'. cbn [fst]. etransitivity; [apply FA; lia|].
        destruct (Z.eq_dec k' m) as [->|Nk].
        * destruct (Z.leb_spec 0 i'), (Z.ltb_spec i' (bsz sy + ovl sy)), (Z.leb_spec (m * bsz sx) (m * bsz sx + j')),
            (Z.ltb_spec (m * bsz sx + j') (m * bsz sx + (bsz sx + ovl sx))); try lia. cbn [andb].
          replace (m * bsz sx + j' - m * bsz sx) with j' by lia. rewrite FE. unfold closed. cbv zeta.
          destruct (Z.ltb_spec j' (ovl sx)); cbn [andb]; [|reflexivity]. destruct (overlap_flag s =? 1); cbn [andb]; [|reflexivity].
          destruct (Z.ltb_spec 0 m); [|reflexivity]. rewrite I3 by lia. reflexivity.
        * assert (k' * bsz sx + j' < m * bsz sx) by (clear - B Hk' Hj' Nk Hm; destruct B as [(E & _)|(E & _)]; rewrite E in *; lia).
          destruct (Z.leb_spec (m * bsz sx) (k' * bsz sx + j')); [lia|]. rewrite !andb_false_r. cbn [andb]. apply I2; lia.
      + intros _ i' j' Hi' Hj'. cbn [fst]. etransitivity; [apply FA; lia|].
        destruct (Z.leb_spec 0 i'), (Z.ltb_spec i' (bsz sy + ovl sy)), (Z.leb_spec (m * bsz sx) ((m + 1) * bsz sx + j')),
          (Z.ltb_spec ((m + 1) * bsz sx + j') (m * bsz sx + (bsz sx + ovl sx))); try lia. cbn [andb].
        rewrite FE. replace ((m + 1) * bsz sx + j' - m * bsz sx) with (j' + bsz sx) by lia.
        destruct (Z.ltb_spec (j' + bsz sx) (ovl sx)); [lia|]. cbn [andb]. replace (m + 1 - 1) with m by lia. reflexivity. }
  destruct G as (_ & G & _). apply G; assumption.
Qed.
End S.

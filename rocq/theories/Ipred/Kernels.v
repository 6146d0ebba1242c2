(** The predictions that do not depend on a direction. *)
From Coq Require Import ZArith List Bool Lia.
From Verif Require Import Base.CInt Base.Lemmas Base.Loop Cdef.Block Ipred.Model.
From Verif Require Mc.Kernel Mc.Blocks Ipred.Spec.
Import ListNotations.
Open Scope Z_scope.
Notation depth := Mc.Kernel.depth.
Notation pixel := Mc.Kernel.pixel.
Notation filled := Mc.Blocks.filled.

Lemma depth_pow : forall bd, depth bd -> 2 ^ bd = 256 \/ 2 ^ bd = 1024 \/ 2 ^ bd = 4096.
Proof. intros bd [->|[->| ->]]; [left|right; left|right; right]; reflexivity. Qed.
Lemma pixel_max : forall bd v, depth bd -> pixel bd v -> 0 <= v <= 4095.
Proof. intros bd v H P. unfold pixel in P. destruct (depth_pow bd H) as [E|[E|E]]; rewrite E in P; lia. Qed.
Lemma px_id : forall bd v, depth bd -> pixel bd v -> px bd v = v.
Proof.
  intros bd v H P. unfold px, pixel in *. destruct H as [->|[->| ->]]; cbn [Z.eqb Pos.eqb].
  - apply u8_id. change (2 ^ 8) with 256 in *. lia.
  - apply u16_id. change (2 ^ 10) with 1024 in P. change (2 ^ 16) with 65536. lia.
  - apply u16_id. change (2 ^ 12) with 4096 in P. change (2 ^ 16) with 65536. lia.
Qed.
Lemma clip_pixel_eq : forall bd v, clip_pixel bd v = Spec.Clip1 bd v.
Proof. reflexivity. Qed.
Lemma clip_pixel_ok : forall bd v, depth bd -> pixel bd (Spec.Clip1 bd v).
Proof.
  intros bd v H. unfold pixel, Spec.Clip1, Spec.Clip3. destruct (depth_pow bd H) as [E|[E|E]]; rewrite E;
    destruct (Z.ltb_spec v 0); try lia; match goal with |- context [?a <? v] => destruct (Z.ltb_spec a v) end; lia.
Qed.

(** * Sums *)
Lemma sum_0 : forall f, Spec.sum 0 f = 0.
Proof. reflexivity. Qed.
Lemma sum_S : forall n f, 0 <= n -> Spec.sum (n + 1) f = Spec.sum n f + f n.
Proof. intros n f H. unfold Spec.sum. rewrite zfor_last by exact H. reflexivity. Qed.
Lemma sum_ext : forall n f g, 0 <= n -> (forall i, 0 <= i < n -> f i = g i) -> Spec.sum n f = Spec.sum n g.
Proof.
  intros n f g H. pattern n. apply natlike_ind; [| |exact H].
  - reflexivity.
  - intros m Hm IH E. unfold Z.succ. rewrite !sum_S by exact Hm. rewrite IH by (intros; apply E; lia). f_equal. apply E. lia.
Qed.
Lemma sum_range : forall n f m, 0 <= n -> (forall i, 0 <= i < n -> 0 <= f i <= m) -> 0 <= Spec.sum n f <= n * m.
Proof.
  intros n f m H. pattern n. apply natlike_ind; [| |exact H].
  - intros _. rewrite sum_0. lia.
  - intros k Hk IH E. unfold Z.succ. rewrite sum_S by exact Hk. pose proof (E k ltac:(lia)). assert (G : 0 <= Spec.sum k f <= k * m) by (apply IH; intros; apply E; lia). lia.
Qed.
Lemma sum_abs : forall n f m, 0 <= n -> (forall i, 0 <= i < n -> - m <= f i <= m) -> - (n * m) <= Spec.sum n f <= n * m.
Proof.
  intros n f m H. pattern n. apply natlike_ind; [| |exact H].
  - intros _. rewrite sum_0. lia.
  - intros k Hk IH E. unfold Z.succ. rewrite sum_S by exact Hk. pose proof (E k ltac:(lia)). assert (G : - (k * m) <= Spec.sum k f <= k * m) by (apply IH; intros; apply E; lia). lia.
Qed.
Lemma sum_loop : forall bd n (r : Z -> outcome Z) f s0, depth bd -> 0 <= n <= 64 -> 0 <= s0 <= 1000000 ->
  (forall i, 0 <= i < n -> r i = Ok (f i) /\ pixel bd (f i)) ->
  for_ 0 n (fun i dc => obind (r i) (fun v => Ok (u32 (dc + v)))) s0 = Ok (s0 + Spec.sum n f).
Proof.
  intros bd n r f s0 Hd Hn H0 H.
  destruct (for_inv _ (fun k (s : Z) => s = s0 + Spec.sum k f) (fun i dc => obind (r i) (fun v => Ok (u32 (dc + v)))) 0 n s0 ltac:(lia)) as (s & E & Q).
  - rewrite sum_0. lia.
  - intros k s Hk ->. destruct (H k Hk) as (-> & P). cbn [obind]. apply (pixel_max bd _ Hd) in P.
    assert (R : 0 <= Spec.sum k f <= k * 4095) by (apply sum_range; [lia|]; intros i Hi; apply (pixel_max bd _ Hd), H; lia).
    eexists. split; [reflexivity|]. rewrite sum_S by lia. rewrite u32_id by (change (2 ^ 32) with 4294967296; lia). lia.
  - rewrite E, Q. reflexivity.
Qed.

(** * Sizes *)
Definition side (l : Z) : Prop := 2 <= l <= 6.
Definition size (lw lh : Z) : Prop := side lw /\ side lh /\ lw - 2 <= lh <= lw + 2.
Lemma side_cases : forall l, side l -> l = 2 \/ l = 3 \/ l = 4 \/ l = 5 \/ l = 6.
Proof. intros l H. unfold side in H. lia. Qed.
Lemma side_pow : forall l, side l -> 4 <= 2 ^ l <= 64.
Proof. intros l H. destruct (side_cases l H) as [->|[->|[->|[->| ->]]]]; cbn; lia. Qed.
Lemma ctz_side : forall l, side l -> ctz (2 ^ l) = Ok l.
Proof. intros l H. destruct (side_cases l H) as [->|[->|[->|[->| ->]]]]; reflexivity. Qed.
Lemma half_eq : forall v, Z.shiftr v 1 = v / 2.
Proof. intros v. rewrite Z.shiftr_div_pow2 by lia. reflexivity. Qed.
Lemma side_half : forall l, side l -> 2 ^ l / 2 = 2 ^ (l - 1) /\ 2 <= 2 ^ (l - 1) <= 32 /\ 2 ^ l = 2 * 2 ^ (l - 1).
Proof. intros l H. destruct (side_cases l H) as [->|[->|[->|[->| ->]]]]; cbn; lia. Qed.

Definition wgt (l i : Z) : Z := Spec.at_ (Spec.Sm_Weights l) i.
Lemma weights_ok : forall l i, side l -> 0 <= i < 2 ^ l -> rd_at sm_weights (2 ^ l + i) = Ok (wgt l i) /\ 0 <= wgt l i <= 255.
Proof.
  assert (G : forall l, In l [2; 3; 4; 5; 6] -> forallb (fun k => let i := Z.of_nat k in
    match rd_at sm_weights (2 ^ l + i) with Ok v => (v =? wgt l i) && (0 <=? v) && (v <=? 255) | Undef => false end) (seq 0 (Z.to_nat (2 ^ l))) = true).
  { intros l H. cbn [In] in H. destruct H as [<-|[<-|[<-|[<-|[<-|[]]]]]]; vm_compute; reflexivity. }
  intros l i Hl Hi. assert (I : In l [2; 3; 4; 5; 6]) by (destruct (side_cases l Hl) as [->|[->|[->|[->| ->]]]]; cbn; tauto).
  specialize (G l I). rewrite forallb_forall in G. specialize (G (Z.to_nat i)). rewrite in_seq in G. cbv zeta in G. rewrite Z2Nat.id in G by lia.
  assert (J : (0 <= Z.to_nat i < 0 + Z.to_nat (2 ^ l))%nat) by lia. specialize (G J).
  destruct (rd_at sm_weights (2 ^ l + i)) as [v|]; [|discriminate G].
  apply andb_prop in G. destruct G as (G & G3). apply andb_prop in G. destruct G as (G1 & G2).
  apply Z.eqb_eq in G1. apply Z.leb_le in G2, G3. subst v. split; [reflexivity|lia].
Qed.
Lemma clip_id : forall bd v, pixel bd v -> Spec.Clip1 bd v = v.
Proof. intros bd v P. unfold pixel in P. unfold Spec.Clip1, Spec.Clip3. destruct (Z.ltb_spec v 0), (Z.ltb_spec (2 ^ bd - 1) v); lia. Qed.

Lemma round_eq : forall v n, 0 < n -> Z.shiftr (v + 2 ^ (n - 1)) n = Spec.Round2 v n.
Proof. intros v n H. unfold Spec.Round2. rewrite Z.shiftr_div_pow2 by lia. destruct (Z.eqb_spec n 0); [lia|reflexivity]. Qed.
Lemma mean_pixel : forall bd n v k, 0 < n -> 0 <= v -> v <= k * (2 ^ bd - 1) -> k = 2 ^ n -> pixel bd (Spec.Round2 v n).
Proof.
  intros bd n v k Hn H0 H1 ->. unfold pixel, Spec.Round2. destruct (Z.eqb_spec n 0) as [|_]; [lia|].
  assert (E : 2 ^ n = 2 * 2 ^ (n - 1)) by (rewrite <- Z.pow_succ_r by lia; f_equal; lia). pose proof (Z.pow_pos_nonneg 2 (n - 1) ltac:(lia) ltac:(lia)).
  split; [apply Z.div_pos; lia|]. apply Z.lt_succ_r, Z.div_lt_upper_bound; lia.
Qed.

Section Block.
  Variables (bd lw lh : Z).
  Hypothesis Hd : depth bd.
  Hypothesis Hs : size lw lh.
  Notation w := (2 ^ lw).
  Notation h := (2 ^ lh).
  Variable tl : Z -> outcome Z.
  Variables (A L : Z -> Z).

  Lemma w_range : 4 <= w <= 64.
  Proof. apply side_pow. apply Hs. Qed.
  Lemma h_range : 4 <= h <= 64.
  Proof. apply side_pow. apply Hs. Qed.

  Lemma st_ok : forall y x v d, 0 <= y < h -> 0 <= x < w -> pixel bd v -> st bd w h y x v d = Ok (set2 d y x v).
  Proof. intros y x v d Hy Hx P. unfold st. rewrite px_id by assumption. apply wr2_ok; assumption. Qed.
  Lemma block_ok : forall val u d, (forall y x, 0 <= y < h -> 0 <= x < w -> val y x = Ok (u y x) /\ pixel bd (u y x)) ->
    exists d', block bd w h val d = Ok d' /\ filled d d' w h 0 0 u.
  Proof.
    intros val u d H. pose proof w_range. pose proof h_range. unfold block.
    apply (map_rect h w (fun y x d => obind (val y x) (fun v => st bd w h y x v d)) u 0 0 d); [lia|lia|].
    intros y x e Hy Hx _. destruct (H y x Hy Hx) as (-> & P). cbn [obind]. rewrite st_ok by assumption. rewrite !Z.add_0_l. reflexivity.
  Qed.

  Definition has_top : Prop := forall i, 0 <= i < w -> tl (1 + i) = Ok (A i) /\ pixel bd (A i).
  Definition has_left : Prop := forall i, 0 <= i < h -> tl (-(1 + i)) = Ok (L i) /\ pixel bd (L i).
  Definition has_corner : Prop := tl 0 = Ok (A (-1)) /\ pixel bd (A (-1)).

  (** ** DC *)
  Lemma splat_ok : forall dc d, pixel bd dc -> exists d', splat_dc bd w h dc d = Ok d' /\ filled d d' w h 0 0 (fun _ _ => dc).
  Proof.
    intros dc d P. unfold splat_dc. replace (dc <=? _) with true.
    - apply block_ok. intros; split; [reflexivity|exact P].
    - symmetry. apply Z.leb_le. unfold pixel in P. destruct Hd as [->|[->| ->]]; cbn [Z.eqb Pos.eqb]; lia.
  Qed.
  Lemma dc_top_ok : has_top -> dc_gen_top w tl = Ok ((Spec.sum w A + w / 2) / 2 ^ lw).
  Proof.
    intros HT. pose proof w_range. unfold dc_gen_top. rewrite half_eq. pose proof (side_half lw (proj1 Hs)) as (E & R & _).
    rewrite (sum_loop bd w (fun i => tl (1 + i)) A (w / 2) Hd ltac:(lia) ltac:(lia) HT). cbn [obind].
    rewrite (ctz_side lw) by apply Hs. cbn [obind]. rewrite Z.shiftr_div_pow2 by (destruct Hs as ((? & ?) & _); lia). do 2 f_equal. lia.
  Qed.
  Lemma dc_left_ok : has_left -> dc_gen_left h tl = Ok ((Spec.sum h L + h / 2) / 2 ^ lh).
  Proof.
    intros HT. pose proof h_range. unfold dc_gen_left. rewrite half_eq. pose proof (side_half lh (proj1 (proj2 Hs))) as (E & R & _).
    rewrite (sum_loop bd h (fun i => tl (-(1 + i))) L (h / 2) Hd ltac:(lia) ltac:(lia) HT). cbn [obind].
    rewrite (ctz_side lh) by apply Hs. cbn [obind]. rewrite Z.shiftr_div_pow2 by (destruct Hs as (_ & (? & ?) & _); lia). do 2 f_equal. lia.
  Qed.
  Lemma avg_top : has_top -> pixel bd ((Spec.sum w A + w / 2) / 2 ^ lw).
  Proof.
    intros HT. pose proof w_range. pose proof (side_half lw (proj1 Hs)) as (E & R & EE).
    assert (S : 0 <= Spec.sum w A <= w * (2 ^ bd - 1)) by (apply sum_range; [lia|]; intros i Hi; apply HT; exact Hi).
    unfold pixel. split; [apply Z.div_pos; lia|]. apply Z.lt_succ_r, Z.div_lt_upper_bound; nia.
  Qed.
  Lemma avg_left : has_left -> pixel bd ((Spec.sum h L + h / 2) / 2 ^ lh).
  Proof.
    intros HT. pose proof h_range. pose proof (side_half lh (proj1 (proj2 Hs))) as (E & R & EE).
    assert (S : 0 <= Spec.sum h L <= h * (2 ^ bd - 1)) by (apply sum_range; [lia|]; intros i Hi; apply HT; exact Hi).
    unfold pixel. split; [apply Z.div_pos; lia|]. apply Z.lt_succ_r, Z.div_lt_upper_bound; nia.
  Qed.
  Definition dc_both : Z := (Spec.sum h L + Spec.sum w A + (w + h) / 2) / (w + h).
  Lemma dc_both_pixel : has_top -> has_left -> pixel bd dc_both.
  Proof.
    intros HT HL. pose proof w_range. pose proof h_range.
    assert (S : 0 <= Spec.sum w A <= w * (2 ^ bd - 1)) by (apply sum_range; [lia|]; intros i Hi; apply HT; exact Hi).
    assert (S' : 0 <= Spec.sum h L <= h * (2 ^ bd - 1)) by (apply sum_range; [lia|]; intros i Hi; apply HL; exact Hi).
    unfold pixel, dc_both. pose proof (Z.div_pos (w + h) 2 ltac:(lia) ltac:(lia)). assert ((w + h) / 2 < w + h) by (apply Z.div_lt; lia).
    split; [apply Z.div_pos; lia|]. apply Z.lt_succ_r, Z.div_lt_upper_bound; nia.
  Qed.
  Ltac dc_crush :=
    repeat match goal with |- context [2 ^ ?k] => let v := eval compute in (2 ^ k) in change (2 ^ k) with v in * end;
    match goal with |- context [ctz ?n] => let v := eval compute in (ctz n) in change (ctz n) with v end; cbn [obind];
    match goal with |- context [if ?a =? ?b then _ else _] => let v := eval compute in (a =? b) in change (a =? b) with v end; cbv iota;
    repeat match goal with |- context [if ?a || ?b then _ else _] => let v := eval compute in (a || b) in change (a || b) with v; cbv iota end;
    rewrite ?Z.shiftr_div_pow2 by lia; repeat match goal with |- context [2 ^ ?k] => let v := eval compute in (2 ^ k) in change (2 ^ k) with v end.
  (** The multiplications that replace divisions by 3 and 5 *)
  Lemma dc_ok : has_top -> has_left -> dc_gen bd w h tl = Ok dc_both.
  Proof.
    intros HT HL. pose proof w_range as Rw. pose proof h_range as Rh. unfold dc_gen, dc_both. rewrite half_eq.
    assert (S : 0 <= Spec.sum w A <= w * (2 ^ bd - 1)) by (apply sum_range; [lia|]; intros i Hi; apply HT; exact Hi).
    assert (S' : 0 <= Spec.sum h L <= h * (2 ^ bd - 1)) by (apply sum_range; [lia|]; intros i Hi; apply HL; exact Hi).
    pose proof (Z.div_pos (w + h) 2 ltac:(lia) ltac:(lia)) as H0. assert (H1 : (w + h) / 2 < w + h) by (apply Z.div_lt; lia).
    assert (E1 : for_ 0 w (fun i dc => obind (tl (i + 1)) (fun v => Ok (u32 (dc + v)))) ((w + h) / 2) = Ok ((w + h) / 2 + Spec.sum w A)).
    { apply (sum_loop bd); [exact Hd|lia|lia|]. intros i Hi. replace (i + 1) with (1 + i) by lia. apply HT; exact Hi. }
    rewrite E1. cbn [obind].
    assert (E2 : for_ 0 h (fun i dc => obind (tl (-(i + 1))) (fun v => Ok (u32 (dc + v)))) ((w + h) / 2 + Spec.sum w A) = Ok ((w + h) / 2 + Spec.sum w A + Spec.sum h L)).
    { apply (sum_loop bd); [exact Hd|lia| |].
      - destruct (depth_pow bd Hd) as [E|[E|E]]; rewrite E in S; lia.
      - intros i Hi. replace (i + 1) with (1 + i) by lia. apply HL; exact Hi. }
    rewrite E2. cbn [obind].
    clear E1 E2 HT HL. set (T := Spec.sum h L + Spec.sum w A + (w + h) / 2).
    replace ((w + h) / 2 + Spec.sum w A + Spec.sum h L) with T by (unfold T; lia).
    assert (RT : 0 <= T < (w + h) * 2 ^ bd) by (unfold T; lia). clearbody T. clear S S' H0 H1.
    destruct (depth_pow bd Hd) as [P|P0].
    - assert (B : bd = 8). { destruct Hd as [->|[->| ->]]; [reflexivity|discriminate P|discriminate P]. } rewrite B in *. change (2 ^ 8) with 256 in *. cbn [Z.eqb Pos.eqb].
      destruct Hs as (Ha & Hb & Hc).
      destruct (side_cases lw Ha) as [e|[e|[e|[e|e]]]]; rewrite e in *; destruct (side_cases lh Hb) as [f|[f|[f|[f|f]]]]; rewrite f in *; try lia;
      dc_crush; f_equal; try lia; rewrite u32_id by (change (2 ^ 32) with 4294967296; lia); lia.
    - assert (B : (bd =? 8) = false /\ 2 ^ bd <= 4096) by (destruct Hd as [->|[->| ->]]; [destruct P0 as [P0|P0]; discriminate P0| |]; split; reflexivity || lia).
      destruct B as (B & B'). rewrite B. assert (RT' : 0 <= T < (w + h) * 4096) by nia. clear RT P0 B B'.
      destruct Hs as (Ha & Hb & Hc).
      destruct (side_cases lw Ha) as [e|[e|[e|[e|e]]]]; rewrite e in *; destruct (side_cases lh Hb) as [f|[f|[f|[f|f]]]]; rewrite f in *; try lia;
      dc_crush; f_equal; try lia; rewrite u32_id by (change (2 ^ 32) with 4294967296; lia); lia.
  Qed.
  Lemma dc_128_eq : dc_128 bd = 2 ^ (bd - 1) /\ pixel bd (2 ^ (bd - 1)).
  Proof. unfold pixel. destruct Hd as [->|[->| ->]]; cbn; split; try reflexivity; lia. Qed.

  (** ** Rows and columns *)
  Lemma v_ok : forall d, has_top -> exists d', ipred_v bd w h tl d = Ok d' /\ filled d d' w h 0 0 (fun _ x => A x).
  Proof. intros d HT. apply block_ok. intros y x _ Hx. apply HT; exact Hx. Qed.
  Lemma h_ok : forall d, has_left -> exists d', ipred_h bd w h tl d = Ok d' /\ filled d d' w h 0 0 (fun y _ => L y).
  Proof. intros d HT. apply block_ok. intros y x Hy _. apply HT; exact Hy. Qed.

  (** ** Paeth *)
  Definition paeth_of (y x : Z) : Z :=
    let base := A x + L y - A (-1) in
    let pLeft := Z.abs (base - L y) in
    let pTop := Z.abs (base - A x) in
    let pTopLeft := Z.abs (base - A (-1)) in
    if (pLeft <=? pTop) && (pLeft <=? pTopLeft) then L y else if pTop <=? pTopLeft then A x else A (-1).
  Lemma abs_comm : forall a b, Z.abs (a - b) = Z.abs (b - a).
  Proof. lia. Qed.
  Lemma paeth_ok : forall d, has_top -> has_left -> has_corner -> exists d', ipred_paeth bd w h tl d = Ok d' /\ filled d d' w h 0 0 paeth_of.
  Proof.
    intros d HT HL (HC & PC). apply block_ok. intros y x Hy Hx. rewrite HC. cbn [obind]. replace (y + 1) with (1 + y) by lia.
    destruct (HL y Hy) as (-> & PL). destruct (HT x Hx) as (-> & PT). cbn [obind]. unfold paeth_of.
    replace (L y + A x - A (-1)) with (A x + L y - A (-1)) by lia.
    rewrite (abs_comm (L y)), (abs_comm (A x) (A x + _ - _)), (abs_comm (A (-1))).
    split; [reflexivity|]. match goal with |- pixel _ (if ?a then _ else if ?b then _ else _) => destruct a, b end; assumption.
  Qed.

  (** ** Smooth *)
  Definition smooth_of (y x : Z) : Z :=
    Spec.Round2 (wgt lh y * A x + (256 - wgt lh y) * L (h - 1) + wgt lw x * L y + (256 - wgt lw x) * A (w - 1)) 9.
  Definition smooth_v_of (y x : Z) : Z := Spec.Round2 (wgt lh y * A x + (256 - wgt lh y) * L (h - 1)) 8.
  Definition smooth_h_of (y x : Z) : Z := Spec.Round2 (wgt lw x * L y + (256 - wgt lw x) * A (w - 1)) 8.
  Lemma wsum : forall g a b, 0 <= g <= 255 -> pixel bd a -> pixel bd b -> 0 <= g * a + (256 - g) * b <= 256 * (2 ^ bd - 1).
  Proof. intros g a b Hg Ha Hb. unfold pixel in *. nia. Qed.
  Lemma bd_max : 0 <= 2 ^ bd - 1 <= 4095.
  Proof. destruct (depth_pow bd Hd) as [E|[E|E]]; rewrite E; lia. Qed.
  Lemma smooth_ok : forall d, has_top -> has_left -> exists d', ipred_smooth bd w h tl d = Ok d' /\ filled d d' w h 0 0 smooth_of.
  Proof.
    intros d HT HL. pose proof w_range. pose proof h_range. pose proof bd_max. apply block_ok. intros y x Hy Hx.
    destruct (HT (w - 1) ltac:(lia)) as (ER & PR). replace (1 + (w - 1)) with w in ER by lia. rewrite ER. cbn [obind].
    destruct (HL (h - 1) ltac:(lia)) as (EB & PB). replace (1 + (h - 1)) with h in EB by lia. rewrite EB. cbn [obind].
    destruct (weights_ok lh y (proj1 (proj2 Hs)) Hy) as (-> & W1). destruct (weights_ok lw x (proj1 Hs) Hx) as (-> & W2). cbn [obind].
    destruct (HT x Hx) as (-> & PT). destruct (HL y Hy) as (-> & PL). cbn [obind].
    pose proof (wsum _ _ _ W1 PT PB) as S1. pose proof (wsum _ _ _ W2 PL PR) as S2.
    rewrite ck_ok by (unfold INT_MIN, INT_MAX; lia). cbn [obind]. change 256 with (2 ^ (9 - 1)) at 3. rewrite round_eq by lia.
    split; [reflexivity|]. apply (mean_pixel bd 9 _ 512); [lia|lia|lia|reflexivity].
  Qed.
  Lemma smooth_v_ok : forall d, has_top -> has_left -> exists d', ipred_smooth_v bd w h tl d = Ok d' /\ filled d d' w h 0 0 smooth_v_of.
  Proof.
    intros d HT HL. pose proof w_range. pose proof h_range. pose proof bd_max. apply block_ok. intros y x Hy Hx.
    destruct (HL (h - 1) ltac:(lia)) as (EB & PB). replace (1 + (h - 1)) with h in EB by lia. rewrite EB. cbn [obind].
    destruct (weights_ok lh y (proj1 (proj2 Hs)) Hy) as (-> & W1). cbn [obind].
    destruct (HT x Hx) as (-> & PT). cbn [obind]. pose proof (wsum _ _ _ W1 PT PB) as S1.
    rewrite ck_ok by (unfold INT_MIN, INT_MAX; lia). cbn [obind]. change 128 with (2 ^ (8 - 1)). rewrite round_eq by lia.
    split; [reflexivity|]. apply (mean_pixel bd 8 _ 256); [lia|lia|lia|reflexivity].
  Qed.
  Lemma smooth_h_ok : forall d, has_top -> has_left -> exists d', ipred_smooth_h bd w h tl d = Ok d' /\ filled d d' w h 0 0 smooth_h_of.
  Proof.
    intros d HT HL. pose proof w_range. pose proof h_range. pose proof bd_max. apply block_ok. intros y x Hy Hx.
    destruct (HT (w - 1) ltac:(lia)) as (ER & PR). replace (1 + (w - 1)) with w in ER by lia. rewrite ER. cbn [obind].
    destruct (weights_ok lw x (proj1 Hs) Hx) as (-> & W2). cbn [obind]. replace (y + 1) with (1 + y) by lia.
    destruct (HL y Hy) as (-> & PL). cbn [obind]. pose proof (wsum _ _ _ W2 PL PR) as S2.
    rewrite ck_ok by (unfold INT_MIN, INT_MAX; lia). cbn [obind]. change 128 with (2 ^ (8 - 1)). rewrite round_eq by lia.
    split; [reflexivity|]. apply (mean_pixel bd 8 _ 256); [lia|lia|lia|reflexivity].
  Qed.
End Block.

(** Blending, overlapped motion compensation and inter-intra blocks. *)
From Coq Require Import ZArith List Bool Lia.
From Verif Require Import Base.CInt Base.Lemmas Base.Loop Cdef.Block Mc.Model Mc.Kernel Mc.Blocks Mc.Whole Mc.Compound Mc.MaskModel Mc.ObmcModel.
From Verif Require Mc.Spec Mc.ObmcSpec.
Import ListNotations.
Open Scope Z_scope.

(** * Blending *)
Definition mix (m a b : Z) : Z := Spec.Round2 (m * a + (64 - m) * b) 6.
Lemma mix_pixel : forall bd m a b, 0 <= m <= 64 -> pixel bd a -> pixel bd b -> pixel bd (mix m a b).
Proof.
  intros bd m a b M A B. unfold pixel, mix, Spec.Round2 in *. cbn [Z.eqb Z.sub Z.add Z.opp Z.pos_sub Pos.pred_double]. change (2 ^ 5) with 32. change (2 ^ 6) with 64.
  generalize dependent (2 ^ bd - 1). intros p A B. assert (0 <= m * a <= m * p) by nia. assert (0 <= (64 - m) * b <= (64 - m) * p) by nia.
  split; [apply Z.div_pos; lia|]. apply Z.lt_succ_r. apply Z.div_lt_upper_bound; lia.
Qed.
Lemma mix_64 : forall a b, mix 64 a b = a.
Proof.
  intros a b. unfold mix, Spec.Round2. cbn [Z.eqb Z.sub Z.add Z.opp Z.pos_sub Pos.pred_double]. change (2 ^ 5) with 32. change (2 ^ 6) with 64.
  rewrite Z.mul_0_l, Z.add_0_r, (Z.mul_comm 64 a), Z.div_add_l by lia. change (32 / 64) with 0. lia.
Qed.
Lemma blend_px_eq : forall a b m, blend_px a b m = mix (64 - m) a b.
Proof. intros. unfold blend_px, mix, Spec.Round2. rewrite Z.shiftr_div_pow2 by lia. cbn [Z.eqb]. f_equal. change (2 ^ (6 - 1)) with 32. ring. Qed.
Lemma px_id : forall bd v, depth bd -> pixel bd v -> px bd v = v.
Proof.
  intros bd v D H. unfold px, pixel in *. destruct D as [->|[->| ->]]; cbn [Z.eqb Pos.eqb]; [apply u8_id|apply u16_id|apply u16_id];
  change (2 ^ 8) with 256 in *; change (2 ^ 10) with 1024 in *; change (2 ^ 12) with 4096 in *; change (2 ^ 16) with 65536; lia.
Qed.

Section Rect.
Variables (bd rows stride y0 x0 : Z) (tmp : Z -> Z -> outcome Z) (A B : Z -> Z -> Z).
Hypothesis D : depth bd.
Lemma blend1_ok : forall m y x (d : plane), 0 <= m <= 64 -> 0 <= y0 + y < rows -> 0 <= x0 + x < stride -> d (y0 + y) (x0 + x) = Some (A y x) -> pixel bd (A y x) ->
  tmp y x = Ok (B y x) -> pixel bd (B y x) -> blend1 bd rows stride y0 x0 tmp m y x d = Ok (set2 d (y0 + y) (x0 + x) (mix (64 - m) (A y x) (B y x))).
Proof.
  intros m y x d M Y X E PA ET PB. unfold blend1. rewrite (rd2_ok _ _ _ _ _ _ Y X E). cbn [obind]. rewrite ET. cbn [obind]. rewrite blend_px_eq.
  rewrite px_id by (try exact D; apply mix_pixel; try assumption; lia). apply wr2_ok; assumption.
Qed.
Variables (w h : Z).
Definition src_good (d : plane) : Prop := forall y x, 0 <= y < h -> 0 <= x < w -> (d (y0 + y) (x0 + x) = Some (A y x) /\ pixel bd (A y x)) /\ (tmp y x = Ok (B y x) /\ pixel bd (B y x)).
Hypothesis (H1 : 0 <= y0) (H2 : y0 + h <= rows) (H3 : 0 <= x0) (H4 : x0 + w <= stride).
Lemma blend_c_ok : forall mask M (d : plane), 1 <= h -> 0 <= w -> src_good d -> (forall y x, 0 <= y < h -> 0 <= x < w -> mask (y * w + x) = Ok (M y x) /\ 0 <= M y x <= 64) ->
  exists d', blend_c bd rows stride y0 x0 tmp w h mask d = Ok d' /\ filled d d' w h y0 x0 (fun y x => mix (64 - M y x) (A y x) (B y x)).
Proof.
  intros mask M d Hh Hw G HM. unfold blend_c. destruct (Z.leb_spec 1 h) as [_|]; [|lia].
  match goal with |- exists d', for_ 0 h (fun y d => for_ 0 w (fun x d1 => @?f y x d1) d) d = Ok d' /\ _ => apply (map_rect h w f _ y0 x0 d) end; [lia|lia|].
  intros y x e Hy Hx E. cbv beta. destruct (G y x Hy Hx) as ((G1 & G2) & G3 & G4). destruct (HM y x Hy Hx) as (M1 & M2). rewrite M1. cbn [obind].
  apply blend1_ok; try assumption; try lia. rewrite E. exact G1.
Qed.
Lemma blend_v_ok : forall n M (d : plane), w = Z.shiftr (n * 3) 2 -> 1 <= h -> 0 <= w -> src_good d -> (forall x, 0 <= x < w -> rd_at obmc_masks (n + x) = Ok (M x) /\ 0 <= M x <= 64) ->
  exists d', blend_v_c bd rows stride y0 x0 tmp n h d = Ok d' /\ filled d d' w h y0 x0 (fun y x => mix (64 - M x) (A y x) (B y x)).
Proof.
  intros n M d En Hh Hw G HM. unfold blend_v_c. rewrite <- En. destruct (Z.leb_spec 1 h) as [_|]; [|lia].
  match goal with |- exists d', for_ 0 h (fun y d => for_ 0 w (fun x d1 => @?f y x d1) d) d = Ok d' /\ _ => apply (map_rect h w f _ y0 x0 d) end; [lia|lia|].
  intros y x e Hy Hx E. cbv beta. destruct (G y x Hy Hx) as ((G1 & G2) & G3 & G4). destruct (HM x Hx) as (M1 & M2). rewrite M1. cbn [obind].
  apply blend1_ok; try assumption; try lia. rewrite E. exact G1.
Qed.
Lemma for_eq : forall T (f g : Z -> T -> outcome T) hi s, (forall y s, 0 <= y < hi -> f y s = g y s) -> for_ 0 hi f s = for_ 0 hi g s.
Proof.
  intros T f g hi s E. unfold for_. assert (Q : forall n i s, 0 <= i -> i + Z.of_nat n <= Z.max hi 0 -> ofor n i f s = ofor n i g s).
  { induction n as [|n IH]; intros i t Hi Hn; [reflexivity|]. cbn [ofor]. rewrite E by lia. destruct (g i t); [|reflexivity]. cbn [obind]. apply IH; lia. }
  apply Q; lia.
Qed.
Lemma blend_h_ok : forall n M (d : plane), h = Z.shiftr (n * 3) 2 -> 1 <= h -> 0 <= w -> src_good d -> (forall y, 0 <= y < h -> rd_at obmc_masks (n + y) = Ok (M y) /\ 0 <= M y <= 64) ->
  exists d', blend_h_c bd rows stride y0 x0 tmp w n d = Ok d' /\ filled d d' w h y0 x0 (fun y x => mix (64 - M y) (A y x) (B y x)).
Proof.
  intros n M d En Hh Hw G HM. unfold blend_h_c. rewrite <- En. cbv zeta. destruct (Z.leb_spec 1 h) as [_|]; [|lia].
  rewrite (for_eq plane _ (fun y d => for_ 0 w (fun x d => blend1 bd rows stride y0 x0 tmp (M y) y x d) d) h d).
  2: { intros y e Hy. rewrite (proj1 (HM y Hy)). reflexivity. }
  match goal with |- exists d', for_ 0 h (fun y d => for_ 0 w (fun x d1 => @?f y x d1) d) d = Ok d' /\ _ => apply (map_rect h w f _ y0 x0 d) end; [lia|lia|].
  intros y x e Hy Hx E. cbv beta. destruct (G y x Hy Hx) as ((G1 & G2) & G3 & G4). destruct (HM y Hy) as (M1 & M2).
  apply blend1_ok; try assumption; try lia. rewrite E. exact G1.
Qed.
End Rect.

(** * Sizes *)
Definition obmc_size (n : Z) : Prop := n = 2 \/ n = 4 \/ n = 8 \/ n = 16 \/ n = 32.
Definition table_ok (n : Z) : bool :=
  forallb (fun i => let m := nth (Z.to_nat i) (ObmcSpec.get_obmc_mask n) 0 in (0 <=? m) && (m <=? 64) &&
    if i <? Z.shiftr (n * 3) 2 then match rd_at obmc_masks (n + i) with Ok v => v =? 64 - m | Undef => false end else m =? 64)
    (map Z.of_nat (seq 0 (Z.to_nat n))).
Lemma table_at : forall n i, obmc_size n -> 0 <= i < n -> let m := nth (Z.to_nat i) (ObmcSpec.get_obmc_mask n) 0 in 0 <= m <= 64 /\
  (i < Z.shiftr (n * 3) 2 -> rd_at obmc_masks (n + i) = Ok (64 - m)) /\ (Z.shiftr (n * 3) 2 <= i -> m = 64).
Proof.
  intros n i Hn Hi m. assert (T : table_ok n = true) by (destruct Hn as [->|[->|[->|[->| ->]]]]; vm_compute; reflexivity).
  unfold table_ok in T. rewrite forallb_forall in T. specialize (T i).
  assert (I : In i (map Z.of_nat (seq 0 (Z.to_nat n)))) by (apply in_map_iff; exists (Z.to_nat i); split; [lia|apply in_seq; lia]).
  specialize (T I). cbv zeta in T. fold m in T. apply andb_prop in T. destruct T as (T1 & T2). apply andb_prop in T1. destruct T1 as (Ta & Tb). apply Z.leb_le in Ta. apply Z.leb_le in Tb.
  split; [lia|]. split; intros Q.
  - destruct (Z.ltb_spec i (Z.shiftr (n * 3) 2)) as [_|]; [|lia]. destruct (rd_at obmc_masks (n + i)) as [v|]; [|discriminate]. apply Z.eqb_eq in T2. rewrite T2. reflexivity.
  - destruct (Z.ltb_spec i (Z.shiftr (n * 3) 2)) as [|_]; [lia|]. apply Z.eqb_eq. exact T2.
Qed.
(** half of the block, at most 32 luma samples *)
Lemma half_facts : forall n4 s, obmc_size n4 -> s = 0 \/ s = 1 ->
  let o := Z.shiftr (Z.min n4 16) 1 in let p := Z.min (n4 * 4 / 2 ^ s / 2) (32 / 2 ^ s) in let c := Z.shiftr (o * 3 + 3) 2 in
  1 <= o <= 8 /\ Z.shiftr 4 s * o = p /\ o * 4 / 2 ^ s = p /\ obmc_size p /\ 1 <= c <= 6 /\ (c * 4 / 2 ^ s <=? 4) = (p <=? 4) /\ Z.shiftr (p * 3) 2 <= c * 4 / 2 ^ s <= 24 /\ 1 <= Z.shiftr (p * 3) 2 <= p /\
  p <= n4 * 4 / 2 ^ s /\ p <= 32.
Proof.
  intros n4 s Hn Hs o p c. subst o p c.
  destruct Hn as [->|[->|[->|[->| ->]]]]; destruct Hs as [->| ->];
  match goal with |- ?G => let r := eval cbv in G in change r end; unfold obmc_size; repeat split; try lia; try reflexivity; try (intro; discriminate).
Qed.
Lemma rd_at_in : forall A (l : list A) i v, rd_at l i = Ok v -> In v l.
Proof. intros A l i v E. unfold rd_at in E. destruct (i <? 0); [discriminate|]. destruct (nth_error l (Z.to_nat i)) as [a|] eqn:N; [|discriminate]. injection E as ->. exact (nth_error_In _ _ N). Qed.
Lemma dims : forall bs w h lw lh, rd_at block_dimensions bs = Ok (w, h, lw, lh) ->
  (w = 1 \/ obmc_size w) /\ (h = 1 \/ obmc_size h).
Proof.
  intros bs w h lw lh E. apply rd_at_in in E. unfold obmc_size. cbn [block_dimensions In] in E.
  repeat (destruct E as [E|E]; [injection E as <- <- <- <-; split; tauto|]). contradiction.
Qed.
Lemma step_facts : forall n, n = 1 \/ obmc_size n -> iclip n 2 16 = ObmcSpec.step4 n /\ 2 <= ObmcSpec.step4 n <= 16 /\ Z.Even (ObmcSpec.step4 n).
Proof.
  intros n H. split; [reflexivity|]. destruct H as [->|[->|[->|[->|[->| ->]]]]]; (split; [cbv; split; intro; discriminate|]);
  [exists 1|exists 1|exists 2|exists 4|exists 8|exists 8]; reflexivity.
Qed.
Lemma lor_1 : forall x, 0 <= x -> Z.Even x -> Z.lor x 1 = x + 1.
Proof. intros x H (q & ->). destruct q as [|q|q]; [reflexivity|reflexivity|lia]. Qed.
Lemma inter_h : forall bd c S rw rh fw fh sx sy x y w h h' mr mc_ f0 f1 r q, (h <=? 4) = (h' <=? 4) ->
  Spec.block_inter bd c S rw rh fw fh sx sy x y w h mr mc_ f0 f1 r q = Spec.block_inter bd c S rw rh fw fh sx sy x y w h' mr mc_ f0 f1 r q.
Proof. intros. unfold Spec.block_inter, Spec.pred, Spec.intermediate, Spec.interpFilterIdx. rewrite H. reflexivity. Qed.

(** * Overlapped motion compensation *)
Definition modes (f0 f1 : Z) : Prop := 0 <= f0 <= 3 /\ 0 <= f1 <= 3 /\ (f0 = 3 <-> f1 = 3).
Lemma filter32_ok : forall (f : Z -> Z -> outcome Z) i f0 f1, 0 <= i < 32 -> f 0 i = Ok f0 -> f 1 i = Ok f1 -> modes f0 f1 ->
  exists t, filter32 f i = Ok t /\ filter_ok f0 f1 t.
Proof.
  intros f i f0 f1 Hi E0 E1 (M0 & M1 & M). unfold filter32. destruct (Z.leb_spec 0 i); [|lia]. destruct (Z.ltb_spec i 32); [|lia]. cbn [andb]. rewrite E1, E0. cbn [obind].
  assert (C0 : f0 = 0 \/ f0 = 1 \/ f0 = 2 \/ f0 = 3) by lia. assert (C1 : f1 = 0 \/ f1 = 1 \/ f1 = 2 \/ f1 = 3) by lia.
  destruct C1 as [->|[->|[->| ->]]]; destruct C0 as [->|[->|[->| ->]]]; cbn [obind rd_at filter_2d_tbl Z.ltb Z.compare Z.to_nat Pos.to_nat Pos.iter_op Nat.add nth_error];
  eexists; (split; [reflexivity|]); (repeat (split; [lia|])); reflexivity.
Qed.

Lemma scale_add : forall a b s, s = 0 \/ s = 1 -> (a + b) * 4 / 2 ^ s = a * 4 / 2 ^ s + b * Z.shiftr 4 s.
Proof. intros a b s [->| ->]; [change (2 ^ 0) with 1; change (Z.shiftr 4 0) with 4|change (2 ^ 1) with 2; change (Z.shiftr 4 1) with 2]; lia. Qed.
Lemma scale_le : forall a b s, s = 0 \/ s = 1 -> a <= b -> a * 4 / 2 ^ s <= b * 4 / 2 ^ s.
Proof. intros a b s [->| ->] H; [change (2 ^ 0) with 1|change (2 ^ 1) with 2]; lia. Qed.
Lemma scale_pos : forall a s, s = 0 \/ s = 1 -> 1 <= a -> 2 <= a * 4 / 2 ^ s.
Proof. intros a s [->| ->] H; [change (2 ^ 0) with 1|change (2 ^ 1) with 2]; lia. Qed.
Lemma lap_rows : forall ow s n, s = 0 \/ s = 1 -> 1 <= ow <= 16 -> n <= 64 -> n <= LAP_SIZE / (ow * 4 / 2 ^ s).
Proof.
  intros ow s n Hs Ho Hn. unfold LAP_SIZE. assert (2 <= ow * 4 / 2 ^ s <= 64) by (destruct Hs as [->| ->]; [change (2 ^ 0) with 1|change (2 ^ 1) with 2]; lia).
  generalize dependent (ow * 4 / 2 ^ s). intros v Hv. apply Z.div_le_lower_bound; [lia|]. nia.
Qed.
Lemma scale_0 : forall a s, s = 0 \/ s = 1 -> 0 <= a -> 0 <= a * 4 / 2 ^ s.
Proof. intros a s [->| ->] H; [change (2 ^ 0) with 1|change (2 ^ 1) with 2]; lia. Qed.
Lemma mul_0 : forall a s, s = 0 \/ s = 1 -> 0 <= a -> 0 <= a * Z.shiftr 4 s.
Proof. intros a s [->| ->] H; [change (Z.shiftr 4 0) with 4|change (Z.shiftr 4 1) with 2]; lia. Qed.
Lemma size_1 : forall a, obmc_size a -> 1 <= a.
Proof. intros a [->|[->|[->|[->| ->]]]]; lia. Qed.

(** facts that the arithmetic tactics should not look at *)
Definition hide (P : Prop) : Prop := P.
Lemma mul_2 : forall n s, s = 0 \/ s = 1 -> n * Z.shiftr 4 s = n * 4 / 2 ^ s.
Proof. intros n s H. apply size_eq. exact H. Qed.
Lemma single_pixel : forall bd v, depth bd -> pixel bd (Spec.single bd v).
Proof.
  intros bd v D. unfold Spec.single, Spec.Clip1, Spec.Clip3, pixel. assert (0 <= 2 ^ bd - 1) by (destruct D as [->|[->| ->]]; cbn; lia).
  destruct (Z.ltb_spec v 0); [lia|]. destruct (Z.ltb_spec (2 ^ bd - 1) v); lia.
Qed.
(** the block within its plane *)
Section Holds.
Variables (bd y0 x0 w h : Z).
Definition holds (d0 d : plane) (cur : Z -> Z -> Z) : Prop :=
  (forall Y X, y0 <= Y < y0 + h -> x0 <= X < x0 + w -> d Y X = Some (cur Y X) /\ pixel bd (cur Y X)) /\
  (forall Y X, ~ within y0 (y0 + h) x0 (x0 + w) Y X -> d Y X = d0 Y X).
Lemma overlap_holds : forall d0 d d' cur cur' py px_ pw ph V, holds d0 d cur -> y0 <= py -> py + ph <= y0 + h -> x0 <= px_ -> px_ + pw <= x0 + w ->
  filled d d' pw ph py px_ V -> (forall y x, 0 <= y < ph -> 0 <= x < pw -> cur' (py + y) (px_ + x) = V y x /\ pixel bd (V y x)) ->
  (forall Y X, ~ within py (py + ph) px_ (px_ + pw) Y X -> cur' Y X = cur Y X) -> holds d0 d' cur'.
Proof.
  intros d0 d d' cur cur' py px_ pw ph V (HA & HB) P1 P2 P3 P4 (FA & FB) IN OUT. split.
  - intros Y X HY HX. assert (C : (py <= Y < py + ph /\ px_ <= X < px_ + pw) \/ ~ within py (py + ph) px_ (px_ + pw) Y X) by (unfold within; lia). destruct C as [(CY & CX)|C].
    + destruct (IN (Y - py) (X - px_) ltac:(lia) ltac:(lia)) as (I1 & I2). specialize (FA (Y - py) (X - px_) ltac:(lia) ltac:(lia)).
      replace (py + (Y - py)) with Y in * by lia. replace (px_ + (X - px_)) with X in * by lia. rewrite FA, I1. split; [reflexivity|exact I2].
    + rewrite (FB Y X C), (OUT Y X C). apply HA; assumption.
  - intros Y X N. rewrite FB by (unfold within in *; lia). apply HB. exact N.
Qed.
(** one overlapped prediction of pw x ph samples at (py, px), of which rw x rh are blended *)
Lemma blended_above : forall rows stride d0 d cur py px_ pw ph q n tmp P, depth bd -> holds d0 d cur -> 0 <= y0 -> 0 <= x0 -> y0 + h <= rows -> x0 + w <= stride ->
  obmc_size n -> py = y0 -> ph = n -> n <= h -> q = Z.shiftr (n * 3) 2 -> 1 <= q <= n -> x0 <= px_ -> 1 <= pw -> px_ + pw <= x0 + w ->
  (forall y x, 0 <= y < q -> 0 <= x < pw -> tmp y x = Ok (P y x)) -> (forall y x, pixel bd (P y x)) ->
  exists d', blend_h_c bd rows stride py px_ tmp pw n d = Ok d' /\
    holds d0 d' (fun Y X => let i := Y - py in let j := X - px_ in
      if (0 <=? i) && (i <? ph) && (0 <=? j) && (j <? pw) then mix (nth (Z.to_nat i) (ObmcSpec.get_obmc_mask n) 0) (cur Y X) (P i j) else cur Y X).
Proof.
  intros rows stride d0 d cur py px_ pw ph q n tmp P D HD H1 H2 H3 H4 Sn -> -> Hn Eq Hq X1 X2 X3 HT HP.
  set (A := fun y c => cur (y0 + y) (px_ + c)). set (M := fun y => 64 - nth (Z.to_nat y) (ObmcSpec.get_obmc_mask n) 0).
  assert (SG : src_good bd y0 px_ tmp A P pw q d).
  { intros y c Yy Cc. split; [apply (proj1 HD); lia|]. split; [apply HT; assumption|apply HP]. }
  destruct (blend_h_ok bd rows stride y0 px_ tmp A P D pw q H1 ltac:(lia) ltac:(lia) ltac:(lia) n M d Eq ltac:(lia) ltac:(lia) SG) as (d' & Ed & FD).
  { intros y Yy. destruct (table_at n y Sn ltac:(lia)) as (T1 & T2 & _). split; [apply T2; lia|unfold M; lia]. }
  exists d'. split; [exact Ed|]. refine (overlap_holds d0 d d' cur _ y0 px_ pw q _ HD ltac:(lia) ltac:(lia) ltac:(lia) X3 FD _ _).
  - intros y c Yy Cc. cbv zeta. replace (y0 + y - y0) with y by lia. replace (px_ + c - px_) with c by lia.
    destruct (Z.leb_spec 0 y); [|lia]. destruct (Z.ltb_spec y n); [|lia]. destruct (Z.leb_spec 0 c); [|lia]. destruct (Z.ltb_spec c pw); [|lia]. cbn [andb].
    destruct (table_at n y Sn ltac:(lia)) as (T1 & _). split.
    + unfold M, A. replace (64 - (64 - nth (Z.to_nat y) (ObmcSpec.get_obmc_mask n) 0)) with (nth (Z.to_nat y) (ObmcSpec.get_obmc_mask n) 0) by lia. reflexivity.
    + apply mix_pixel; [unfold M; lia|apply (proj1 HD); lia|apply HP].
  - intros Y X N. cbv zeta.
    destruct (Z.leb_spec 0 (Y - y0)); [|reflexivity]. destruct (Z.ltb_spec (Y - y0) n); [|reflexivity]. destruct (Z.leb_spec 0 (X - px_)); [|reflexivity]. destruct (Z.ltb_spec (X - px_) pw); [|reflexivity]. cbn [andb].
    destruct (table_at n (Y - y0) Sn ltac:(lia)) as (_ & _ & T3). rewrite T3 by (unfold within in N; lia). apply mix_64.
Qed.
Lemma blended_left : forall rows stride d0 d cur py px_ pw ph q n tmp P, depth bd -> holds d0 d cur -> 0 <= y0 -> 0 <= x0 -> y0 + h <= rows -> x0 + w <= stride ->
  obmc_size n -> px_ = x0 -> pw = n -> n <= w -> q = Z.shiftr (n * 3) 2 -> 1 <= q <= n -> y0 <= py -> 1 <= ph -> py + ph <= y0 + h ->
  (forall y x, 0 <= y < ph -> 0 <= x < q -> tmp y x = Ok (P y x)) -> (forall y x, pixel bd (P y x)) ->
  exists d', blend_v_c bd rows stride py px_ tmp n ph d = Ok d' /\
    holds d0 d' (fun Y X => let i := Y - py in let j := X - px_ in
      if (0 <=? i) && (i <? ph) && (0 <=? j) && (j <? pw) then mix (nth (Z.to_nat j) (ObmcSpec.get_obmc_mask n) 0) (cur Y X) (P i j) else cur Y X).
Proof.
  intros rows stride d0 d cur py px_ pw ph q n tmp P D HD H1 H2 H3 H4 Sn -> -> Hn Eq Hq X1 X2 X3 HT HP.
  set (A := fun y c => cur (py + y) (x0 + c)). set (M := fun y => 64 - nth (Z.to_nat y) (ObmcSpec.get_obmc_mask n) 0).
  assert (SG : src_good bd py x0 tmp A P q ph d).
  { intros y c Yy Cc. split; [apply (proj1 HD); lia|]. split; [apply HT; assumption|apply HP]. }
  destruct (blend_v_ok bd rows stride py x0 tmp A P D q ph ltac:(lia) ltac:(lia) ltac:(lia) ltac:(lia) n M d Eq ltac:(lia) ltac:(lia) SG) as (d' & Ed & FD).
  { intros y Yy. destruct (table_at n y Sn ltac:(lia)) as (T1 & T2 & _). split; [apply T2; lia|unfold M; lia]. }
  exists d'. split; [exact Ed|]. refine (overlap_holds d0 d d' cur _ py x0 q ph _ HD ltac:(lia) ltac:(lia) ltac:(lia) ltac:(lia) FD _ _).
  - intros y c Yy Cc. cbv zeta. replace (py + y - py) with y by lia. replace (x0 + c - x0) with c by lia.
    destruct (Z.leb_spec 0 y); [|lia]. destruct (Z.ltb_spec y ph); [|lia]. destruct (Z.leb_spec 0 c); [|lia]. destruct (Z.ltb_spec c n); [|lia]. cbn [andb].
    destruct (table_at n c Sn ltac:(lia)) as (T1 & _). split.
    + unfold M, A. replace (64 - (64 - nth (Z.to_nat c) (ObmcSpec.get_obmc_mask n) 0)) with (nth (Z.to_nat c) (ObmcSpec.get_obmc_mask n) 0) by lia. reflexivity.
    + apply mix_pixel; [unfold M; lia|apply (proj1 HD); lia|apply HP].
  - intros Y X N. cbv zeta.
    destruct (Z.leb_spec 0 (Y - py)); [|reflexivity]. destruct (Z.ltb_spec (Y - py) ph); [|reflexivity]. destruct (Z.leb_spec 0 (X - x0)); [|reflexivity]. destruct (Z.ltb_spec (X - x0) n); [|reflexivity]. cbn [andb].
    destruct (table_at n (X - x0) Sn ltac:(lia)) as (_ & _ & T3). rewrite T3 by (unfold within in N; lia). apply mix_64.
Qed.
End Holds.

Lemma size_pure : forall bw4 bh4 sx sy, obmc_size bw4 -> obmc_size bh4 -> sx = 0 \/ sx = 1 -> sy = 0 \/ sy = 1 ->
  (16 <=? bw4 * Z.shiftr 4 sx + bh4 * Z.shiftr 4 sy) = ObmcSpec.at_least_8x8 bw4 bh4 sx sy /\ (sx = 0 -> sy = 0 -> ObmcSpec.at_least_8x8 bw4 bh4 sx sy = true).
Proof.
  intros bw4 bh4 sx sy Hw Hh Hx Hy.
  destruct Hw as [-> |[-> |[-> |[-> | ->]]]]; destruct Hh as [-> |[-> |[-> |[-> | ->]]]]; destruct Hx as [-> | ->]; destruct Hy as [-> | ->];
  (split; [vm_compute; reflexivity|]); intros Q1 Q2; first [discriminate Q1|discriminate Q2|vm_compute; reflexivity].
Qed.
Lemma size_32 : forall n, obmc_size n -> n <= 32.
Proof. intros n [->|[->|[->|[->| ->]]]]; lia. Qed.
Section Overlapped.
Variables (k : obmc_in) (rows stride : Z) (bw4 bh4 lw lh pl bx4 by4 MiCols MiRows : Z).
Variables (blk : Z -> Z -> refmvs_block) (Wide High F0 F1 : Z -> Z -> Z) (S : Z -> Z -> Z -> Z -> Z) (fw fh : Z) (rw rh : Z -> Z).
(** a neighbour at (row, column), whose filters are at the index i of their context *)
Definition cand_ok (filters : Z -> Z -> outcome Z) (i r c : Z) : Prop :=
  (exists a b, rd_at block_dimensions (r_bs (blk r c)) = Ok (Wide r c, High r c, a, b)) /\
  (0 < r_ref0 (blk r c) -> r_ref0 (blk r c) <= 7 /\ int16 (r_mvx (blk r c)) /\ int16 (r_mvy (blk r c)) /\
    0 <= i < 32 /\ filters 0 i = Ok (F0 r c) /\ filters 1 i = Ok (F1 r c) /\ modes (F0 r c) (F1 r c)).
Record obmc_ok : Prop := {
  oo_frame : forall r, 1 <= r <= 7 -> frame_ok (o_f k (r - 1)) /\ m_same (o_f k (r - 1)) = false;
  oo_same : forall r, 1 <= r <= 7 -> m_layout (o_f k (r - 1)) = o_layout k /\ m_bd (o_f k (r - 1)) = o_bd k /\ m_w (o_f k (r - 1)) = fw /\ m_h (o_f k (r - 1)) = fh /\
    m_rw (o_f k (r - 1)) = rw r /\ m_rh (o_f k (r - 1)) = rh r;
  oo_ref : forall r, 1 <= r <= 7 -> ref_ok (o_f k (r - 1)) pl (o_ref k (r - 1) pl) (S r pl);
  oo_bd : depth (o_bd k);
  oo_w : obmc_size bw4; oo_h : obmc_size bh4;
  oo_x : 0 <= o_bx k < MiCols /\ Z.Even (o_bx k); oo_y : 0 <= o_by k < MiRows /\ Z.Even (o_by k);
  oo_cols : MiCols <= 2 ^ 15; oo_rows : MiRows <= 2 ^ 15;
  oo_above : o_row_start k < o_by k -> forall x, 0 <= x < bw4 -> o_bx k + x < MiCols -> Z.Even x ->
    o_r k (Z.land (o_by k) 31 + 5 + -1) (o_bx k + x + 1) = Ok (blk (o_by k - 1) (o_bx k + x + 1)) /\ cand_ok (o_a k) (bx4 + x + 1) (o_by k - 1) (o_bx k + x + 1);
  oo_left : o_col_start k < o_bx k -> forall y, 0 <= y < bh4 -> o_by k + y < MiRows -> Z.Even y ->
    o_r k (Z.land (o_by k) 31 + 5 + (y + 1)) (o_bx k - 1) = Ok (blk (o_by k + y + 1) (o_bx k - 1)) /\ cand_ok (o_l k) (by4 + y + 1) (o_by k + y + 1) (o_bx k - 1) }.
Hypothesis OO : obmc_ok.
Variables (bd bx by_ sx sy w h y0 x0 : Z).
Record geo : Prop := {
  g_bd : bd = o_bd k; g_bx : bx = o_bx k; g_by : by_ = o_by k; g_sx : sx = Spec.subX (o_layout k) pl; g_sy : sy = Spec.subY (o_layout k) pl;
  g_w : w = bw4 * 4 / 2 ^ sx; g_h : h = bh4 * 4 / 2 ^ sy; g_y : y0 = by_ * 4 / 2 ^ sy; g_x : x0 = bx * 4 / 2 ^ sx }.
Hypothesis G : geo.
Hypothesis B2 : y0 + h <= rows.
Hypothesis B4 : x0 + w <= stride.
Definition RefFrame (r c : Z) := r_ref0 (blk r c).
Definition MvRow (r c : Z) := r_mvy (blk r c).
Definition MvCol (r c : Z) := r_mvx (blk r c).
Definition pred_at := ObmcSpec.obmcPred RefFrame MvRow MvCol F0 F1 bd fw fh rw rh S pl sx sy.

Lemma sx_01 : sx = 0 \/ sx = 1. Proof. rewrite (g_sx G). apply subX_01. Qed.
Lemma sy_01 : sy = 0 \/ sy = 1. Proof. rewrite (g_sy G). apply subY_01. Qed.
Lemma bd_depth : depth bd. Proof. rewrite (g_bd G). exact (oo_bd OO). Qed.

(** the prediction from a neighbour, into the buffer *)
Lemma lap_ok : forall filters i r c ow ch nx ny predH rowsL lww lhh, cand_ok filters i r c -> 0 < r_ref0 (blk r c) -> 1 <= ow <= 32 -> 1 <= ch <= 32 -> 0 <= nx < 2 ^ 15 -> 0 <= ny < 2 ^ 15 ->
  hide (lww = ow * 4 / 2 ^ sx) -> hide (lhh = ch * 4 / 2 ^ sy) -> lhh <= rowsL -> (lhh <=? 4) = (predH <=? 4) ->
  exists t lap, filter32 filters i = Ok t /\
    mc (o_f k (r_ref0 (blk r c) - 1)) true (st_px rowsL lww 0 0) plane0 ow ch nx ny pl (r_mvx (blk r c)) (r_mvy (blk r c)) (o_ref k (r_ref0 (blk r c) - 1) pl) t = Ok lap /\
    forall y x, 0 <= y < lhh -> 0 <= x < lww -> rd2 rowsL lww lap y x = Ok (pred_at r c (nx * 4 / 2 ^ sx) (ny * 4 / 2 ^ sy) lww predH y x).
Proof.
  intros filters i r c ow ch nx ny predH rowsL lww lhh (_ & CO) R Hw Hh Hx Hy EX EY HL HP. destruct (CO R) as (R7 & M1 & M2 & Hi & E0 & E1 & MO).
  destruct (filter32_ok filters i _ _ Hi E0 E1 MO) as (t & Et & FT). exists t.
  assert (RR : 1 <= r_ref0 (blk r c) <= 7) by lia.
  destruct (oo_frame OO (r_ref0 (blk r c)) RR) as (FO & NS). destruct (oo_same OO (r_ref0 (blk r c)) RR) as (EL & EB & EW & EH & ERW & ERH).
  pose proof (mc_at (o_f k (r_ref0 (blk r c) - 1)) true (st_px rowsL lww 0 0) plane0 0 0 ow ch nx ny pl (r_mvx (blk r c)) (r_mvy (blk r c)) (o_ref k (r_ref0 (blk r c) - 1) pl)
    (S (r_ref0 (blk r c)) pl) (F0 r c) (F1 r c) t Hw Hh FT) as A.
  rewrite EL in A. cbv zeta in A. rewrite <- (g_sx G), <- (g_sy G) in A. unfold hide in EX, EY. rewrite <- EX, <- EY in A.
  assert (ST : stores_for lww lhh (st_px rowsL lww 0 0) 0 0 true) by (apply st_px_ok; clear - HL; lia).
  destruct (A ST FO NS Hx Hy M1 M2 (oo_ref OO _ RR)) as (lap & E & (A1 & _)).
  exists lap. split; [exact Et|]. split; [exact E|]. intros y x Yy Xx. specialize (A1 y x Yy Xx). rewrite !Z.add_0_l in A1.
  assert (RY : 0 <= y < rowsL) by (clear - Yy HL; lia). rewrite (rd2_ok rowsL lww lap y x _ RY Xx A1). apply (f_equal (@Ok Z)).
  unfold value, at_block, pred_at, ObmcSpec.obmcPred, Spec.single, RefFrame, MvRow, MvCol. cbn [negb]. rewrite EL, EB, EW, EH, ERW, ERH. rewrite <- (g_sx G), <- (g_sy G), <- EX, <- EY, <- (g_bd G).
  apply (f_equal (Spec.Clip1 bd)). apply inter_h. exact HP.
Qed.
Lemma y0_pos : 0 <= y0.
Proof. rewrite (g_y G). apply scale_0; [apply sy_01|]. rewrite (g_by G). apply (oo_y OO). Qed.
Lemma x0_pos : 0 <= x0.
Proof. rewrite (g_x G). apply scale_0; [apply sx_01|]. rewrite (g_bx G). apply (oo_x OO). Qed.
Definition above_one := ObmcSpec.overlap_above by_ bw4 bh4 RefFrame MvRow MvCol Wide F0 F1 bd fw fh rw rh S pl sx sy.
Definition left_one := ObmcSpec.overlap_left bx bw4 bh4 RefFrame MvRow MvCol High F0 F1 bd fw fh rw rh S pl sx sy.

Lemma even_next : forall a x, 0 <= a -> 0 <= x -> Z.Even a -> Z.Even x -> Z.lor (a + x) 1 = a + x + 1.
Proof. intros a x Ha Hx (p & ->) (q & ->). apply lor_1; [lia|]. exists (p + q). ring. Qed.
Lemma holds_ext : forall d0 d c c', (forall Y X, c Y X = c' Y X) -> holds bd y0 x0 w h d0 d c -> holds bd y0 x0 w h d0 d c'.
Proof. intros d0 d c c' E (A & B). split; [|exact B]. intros Y X HY HX. rewrite <- E. apply A; assumption. Qed.
Lemma above_step : forall d0 d cur x, holds bd y0 x0 w h d0 d cur -> o_row_start k < o_by k -> 0 <= x < bw4 -> bx + x < MiCols -> Z.Even x ->
  let b := blk (by_ - 1) (bx + x + 1) in 0 < r_ref0 b -> let ow := Z.min (ObmcSpec.step4 (Wide (by_ - 1) (bx + x + 1))) bw4 in let oh := Z.shiftr (Z.min bh4 16) 1 in x + ow <= bw4 ->
  exists t lap d', filter32 (o_a k) (bx4 + x + 1) = Ok t /\
    mc (o_f k (r_ref0 b - 1)) true (st_px (LAP_SIZE / (ow * Z.shiftr 4 sx)) (ow * Z.shiftr 4 sx) 0 0) plane0 ow (Z.shiftr (oh * 3 + 3) 2) (bx + x) by_ pl (r_mvx b) (r_mvy b) (o_ref k (r_ref0 b - 1) pl) t = Ok lap /\
    blend_h_c bd rows stride y0 (x0 + x * Z.shiftr 4 sx) (rd2 (LAP_SIZE / (ow * Z.shiftr 4 sx)) (ow * Z.shiftr 4 sx) lap) (Z.shiftr 4 sx * ow) (Z.shiftr 4 sy * oh) d = Ok d' /\
    holds bd y0 x0 w h d0 d' (above_one cur (bx + x)).
Proof.
  intros d0 d cur x HD HR Hx Hc Ex b Rb ow oh Fit.
  assert (CO : cand_ok (o_a k) (bx4 + x + 1) (by_ - 1) (bx + x + 1)).
  { rewrite (g_bx G), (g_by G). rewrite (g_bx G) in Hc. apply (oo_above OO HR x Hx Hc Ex). }
  pose proof CO as ((a1 & a2 & ED) & _). destruct (dims _ _ _ _ _ ED) as (DW & _). destruct (step_facts _ DW) as (_ & ST & _).
  assert (OW : 1 <= ow <= 16) by (pose proof (size_1 _ (oo_w OO)); subst ow; clear - ST H; lia).
  assert (EW : hide (Z.min bw4 (ObmcSpec.step4 (Wide (by_ - 1) (bx + x + 1))) = ow)) by (apply Z.min_comm).
  clearbody ow.
  destruct (half_facts bh4 sy (oo_h OO) sy_01) as (O1 & O2 & _ & O3 & O4 & O5 & O6 & O7 & O8 & O9). fold oh in O1, O2, O4, O5, O6. rewrite <- (g_h G) in O2, O3, O5, O6, O7, O8, O9.
  set (p := Z.min (h / 2) (32 / 2 ^ sy)) in *. set (ch := Z.shiftr (oh * 3 + 3) 2) in *. set (lhh := ch * 4 / 2 ^ sy) in *.
  rewrite O2. clear O2. assert (EP : hide (p = Z.min (h / 2) (32 / 2 ^ sy))) by reflexivity. assert (EL : hide (lhh = ch * 4 / 2 ^ sy)) by reflexivity. clearbody p lhh.
  assert (PW : 1 <= ow * 4 / 2 ^ sx) by (pose proof (scale_pos ow sx sx_01 (proj1 OW)) as Q; clear - Q; lia).
  assert (PX : x * Z.shiftr 4 sx + ow * 4 / 2 ^ sx <= w).
  { rewrite (g_w G). rewrite Z.add_comm, <- (scale_add ow x sx sx_01). apply scale_le; [apply sx_01|]. clear - Fit. lia. }
  assert (PM : 0 <= x * Z.shiftr 4 sx) by (apply mul_0; [apply sx_01|clear - Hx; lia]).
  assert (RL : lhh <= LAP_SIZE / (ow * 4 / 2 ^ sx)) by (apply lap_rows; [apply sx_01|exact OW|clear - O6; lia]).
  rewrite (Z.mul_comm (Z.shiftr 4 sx) ow), (mul_2 ow sx sx_01).
  assert (EPX : hide ((bx + x) * 4 / 2 ^ sx = x0 + x * Z.shiftr 4 sx)) by (unfold hide; rewrite (g_x G); apply scale_add; apply sx_01).
  set (rl := LAP_SIZE / (ow * 4 / 2 ^ sx)) in *. clearbody rl.
  set (pw := ow * 4 / 2 ^ sx) in *. assert (EPW : hide (pw = ow * 4 / 2 ^ sx)) by reflexivity. clearbody pw.
  set (px_ := x0 + x * Z.shiftr 4 sx) in *.
  assert (PX1 : x0 <= px_ /\ px_ + pw <= x0 + w) by (subst px_; clear - PM PX; lia). clearbody px_.
  destruct (oo_x OO) as (X0 & EX). destruct (oo_y OO) as (Y0 & EY). pose proof (oo_cols OO) as MC. pose proof (oo_rows OO) as MR. rewrite <- (g_bx G) in X0, EX. rewrite <- (g_by G) in Y0, EY.
  assert (R1 : 0 <= bx + x < 2 ^ 15) by (clear - X0 Hx Hc MC; lia). assert (R2 : 0 <= by_ < 2 ^ 15) by (clear - Y0 MR; lia).
  destruct (lap_ok (o_a k) (bx4 + x + 1) (by_ - 1) (bx + x + 1) ow ch (bx + x) by_ p rl pw lhh CO Rb ltac:(clear - OW; lia) ltac:(clear - O4; lia) R1 R2 EPW EL RL O5) as (t & lap & Et & EM & HL).
  destruct (blended_above bd y0 x0 w h rows stride d0 d cur y0 px_ pw p (Z.shiftr (p * 3) 2) p (rd2 rl pw lap)
    (pred_at (by_ - 1) (bx + x + 1) ((bx + x) * 4 / 2 ^ sx) (by_ * 4 / 2 ^ sy) pw p) bd_depth HD y0_pos x0_pos B2 B4 O3 eq_refl eq_refl O8 eq_refl O7 (proj1 PX1) PW (proj2 PX1)) as (d' & Ed & HD').
  { intros y c Yy Cc. apply HL; [clear - Yy O6; lia|exact Cc]. }
  { intros y c. apply single_pixel. exact bd_depth. }
  exists t, lap, d'. split; [exact Et|]. split; [exact EM|]. split; [exact Ed|].
  refine (holds_ext _ _ _ _ _ HD'). intros Y X. unfold above_one, ObmcSpec.overlap_above, ObmcSpec.overlap.
  rewrite (even_next bx x (proj1 X0) (proj1 Hx) EX Ex). unfold hide in EW, EPW, EP, EPX. rewrite EW, <- EPW. unfold ObmcSpec.h. rewrite <- (g_h G), <- EP, EPX, <- (g_y G). reflexivity.
Qed.
Lemma left_step : forall d0 d cur y, holds bd y0 x0 w h d0 d cur -> o_col_start k < o_bx k -> 0 <= y < bh4 -> by_ + y < MiRows -> Z.Even y ->
  let b := blk (by_ + y + 1) (bx - 1) in 0 < r_ref0 b -> let ow := Z.shiftr (Z.min bw4 16) 1 in let oh := Z.min (ObmcSpec.step4 (High (by_ + y + 1) (bx - 1))) bh4 in y + oh <= bh4 ->
  exists t lap d', filter32 (o_l k) (by4 + y + 1) = Ok t /\
    mc (o_f k (r_ref0 b - 1)) true (st_px (LAP_SIZE / (Z.shiftr 4 sx * ow)) (Z.shiftr 4 sx * ow) 0 0) plane0 ow oh bx (by_ + y) pl (r_mvx b) (r_mvy b) (o_ref k (r_ref0 b - 1) pl) t = Ok lap /\
    blend_v_c bd rows stride (y0 + y * Z.shiftr 4 sy) x0 (rd2 (LAP_SIZE / (Z.shiftr 4 sx * ow)) (Z.shiftr 4 sx * ow) lap) (Z.shiftr 4 sx * ow) (Z.shiftr 4 sy * oh) d = Ok d' /\
    holds bd y0 x0 w h d0 d' (left_one cur (by_ + y)).
Proof.
  intros d0 d cur y HD HR Hy Hc Ey b Rb ow oh Fit.
  assert (CO : cand_ok (o_l k) (by4 + y + 1) (by_ + y + 1) (bx - 1)).
  { rewrite (g_bx G), (g_by G). rewrite (g_by G) in Hc. apply (oo_left OO HR y Hy Hc Ey). }
  pose proof CO as ((a1 & a2 & ED) & _). destruct (dims _ _ _ _ _ ED) as (_ & DH). destruct (step_facts _ DH) as (_ & ST & _).
  assert (OH : 1 <= oh <= 16) by (pose proof (size_1 _ (oo_h OO)); subst oh; clear - ST H; lia).
  assert (EH : hide (Z.min bh4 (ObmcSpec.step4 (High (by_ + y + 1) (bx - 1))) = oh)) by (apply Z.min_comm).
  clearbody oh.
  destruct (half_facts bw4 sx (oo_w OO) sx_01) as (O1 & O2 & O2' & O3 & _ & _ & _ & O7 & O8 & O9). fold ow in O1, O2, O2'. rewrite <- (g_w G) in O2, O2', O3, O7, O8, O9.
  rewrite O2. set (p := Z.min (w / 2) (32 / 2 ^ sx)) in *. clear O2.
  assert (EP : hide (p = Z.min (w / 2) (32 / 2 ^ sx))) by reflexivity. assert (EW : hide (p = ow * 4 / 2 ^ sx)) by (symmetry; exact O2'). clear O2'. clearbody p.
  assert (PH : 1 <= oh * 4 / 2 ^ sy) by (pose proof (scale_pos oh sy sy_01 (proj1 OH)) as Q; clear - Q; lia).
  assert (PH' : oh * 4 / 2 ^ sy <= 64) by (pose proof (scale_le oh 16 sy sy_01 (proj2 OH)) as Q; destruct sy_01 as [E| E]; rewrite E in Q |- *; [change (16 * 4 / 2 ^ 0) with 64 in Q|change (16 * 4 / 2 ^ 1) with 32 in Q]; clear - Q; lia).
  assert (PX : y * Z.shiftr 4 sy + oh * 4 / 2 ^ sy <= h).
  { rewrite (g_h G). rewrite Z.add_comm, <- (scale_add oh y sy sy_01). apply scale_le; [apply sy_01|]. clear - Fit. lia. }
  assert (PM : 0 <= y * Z.shiftr 4 sy) by (apply mul_0; [apply sy_01|clear - Hy; lia]).
  assert (RL : oh * 4 / 2 ^ sy <= LAP_SIZE / p) by (unfold hide in EW; rewrite EW; apply lap_rows; [apply sx_01|clear - O1; lia|exact PH']).
  rewrite (Z.mul_comm (Z.shiftr 4 sy) oh), (mul_2 oh sy sy_01).
  assert (EPY : hide ((by_ + y) * 4 / 2 ^ sy = y0 + y * Z.shiftr 4 sy)) by (unfold hide; rewrite (g_y G); apply scale_add; apply sy_01).
  set (rl := LAP_SIZE / p) in *. clearbody rl.
  set (ph := oh * 4 / 2 ^ sy) in *. assert (EPH : hide (ph = oh * 4 / 2 ^ sy)) by reflexivity. clearbody ph.
  set (py := y0 + y * Z.shiftr 4 sy) in *.
  assert (PX1 : y0 <= py /\ py + ph <= y0 + h) by (subst py; clear - PM PX; lia). clearbody py.
  destruct (oo_x OO) as (X0 & EX). destruct (oo_y OO) as (Y0 & EY). pose proof (oo_cols OO) as MC. pose proof (oo_rows OO) as MR. rewrite <- (g_bx G) in X0, EX. rewrite <- (g_by G) in Y0, EY.
  assert (R1 : 0 <= bx < 2 ^ 15) by (clear - X0 MC; lia). assert (R2 : 0 <= by_ + y < 2 ^ 15) by (clear - Y0 MR Hy Hc; lia).
  destruct (lap_ok (o_l k) (by4 + y + 1) (by_ + y + 1) (bx - 1) ow oh bx (by_ + y) ph rl p ph CO Rb ltac:(clear - O1; lia) ltac:(clear - OH; lia) R1 R2 EW EPH RL eq_refl) as (t & lap & Et & EM & HL).
  destruct (blended_left bd y0 x0 w h rows stride d0 d cur py x0 p ph (Z.shiftr (p * 3) 2) p (rd2 rl p lap)
    (pred_at (by_ + y + 1) (bx - 1) (bx * 4 / 2 ^ sx) ((by_ + y) * 4 / 2 ^ sy) p ph) bd_depth HD y0_pos x0_pos B2 B4 O3 eq_refl eq_refl O8 eq_refl O7 (proj1 PX1) PH (proj2 PX1)) as (d' & Ed & HD').
  { intros r c Rr Cc. apply HL; [exact Rr|clear - Cc O7; lia]. }
  { intros r c. apply single_pixel. exact bd_depth. }
  exists t, lap, d'. split; [exact Et|]. split; [exact EM|]. split; [exact Ed|].
  refine (holds_ext _ _ _ _ _ HD'). intros Y X. unfold left_one, ObmcSpec.overlap_left, ObmcSpec.overlap.
  rewrite (even_next by_ y (proj1 Y0) (proj1 Hy) EY Ey). unfold hide in EH, EPH, EP, EPY. rewrite EH, <- EPH. unfold ObmcSpec.w. rewrite <- (g_w G), <- EP, EPY, <- (g_x G). reflexivity.
Qed.

Definition b_dim : Z * Z * Z * Z := (bw4, bh4, lw, lh).
Variables (w4 h4 : Z).
Hypothesis W4 : w4 = Z.min bw4 (MiCols - bx).
Hypothesis H4 : h4 = Z.min bh4 (MiRows - by_).
Definition aboves := ObmcSpec.above MiCols by_ bx bw4 lw RefFrame Wide.
Definition lefts := ObmcSpec.left MiRows by_ bx bh4 lh RefFrame High.
Definition fits_above (x4 : Z) : Prop := x4 - bx + Z.min (ObmcSpec.step4 (Wide (by_ - 1) (Z.lor x4 1))) bw4 <= bw4.
Definition fits_left (y4 : Z) : Prop := y4 - by_ + Z.min (ObmcSpec.step4 (High (Z.lor y4 1) (bx - 1))) bh4 <= bh4.
Lemma even_add : forall a b, Z.Even a -> Z.Even b -> Z.Even (a + b).
Proof. intros a b (p & ->) (q & ->). exists (p + q). ring. Qed.
Lemma above_loop : forall d0, o_row_start k < o_by k -> forall n i x d cur, holds bd y0 x0 w h d0 d cur -> 0 <= x -> Z.Even x -> bw4 <= x + 2 * Z.of_nat n ->
  Forall fits_above (aboves n i (bx + x)) ->
  exists d', obmc_above k rows stride y0 x0 b_dim pl bx4 w4 (Datatypes.S n) i x d = Ok d' /\ holds bd y0 x0 w h d0 d' (fold_left above_one (aboves n i (bx + x)) cur).
Proof.
  intros d0 HR. induction n as [|n IH]; intros i x d cur HD X0 EX Hn HF.
  { cbn [obmc_above]. destruct (Z.ltb_spec x w4) as [L|_]; [clear - L W4 Hn; lia|]. exists d. split; [reflexivity|exact HD]. }
  remember (Datatypes.S n) as m eqn:Em. cbn [obmc_above]. cbn [b_dim fst snd]. rewrite Em in *. clear Em m. unfold aboves in *. cbn [ObmcSpec.above] in *.
  assert (EC : (x <? w4) && (i <? Z.min lw 4) = (i <? Z.min 4 lw) && (bx + x <? Z.min MiCols (bx + bw4))).
  { rewrite (Z.min_comm lw 4), andb_comm. f_equal. clear - W4. destruct (Z.ltb_spec x w4), (Z.ltb_spec (bx + x) (Z.min MiCols (bx + bw4))); try reflexivity; lia. }
  rewrite EC. destruct ((i <? Z.min 4 lw) && (bx + x <? Z.min MiCols (bx + bw4))) eqn:EV; [|exists d; split; [reflexivity|exact HD]].
  apply andb_prop in EV. destruct EV as (_ & EV). apply Z.ltb_lt in EV. assert (Hc : bx + x < MiCols /\ x < bw4) by (clear - EV; lia). destruct Hc as (Hc & Hx).
  assert (BX := proj1 (proj1 (oo_x OO))). assert (EBX := proj2 (oo_x OO)). rewrite <- (g_bx G) in BX, EBX.
  rewrite (even_next bx x BX X0 EBX EX) in *.
  assert (AB : o_r k (r_row k (-1)) (bx + x + 1) = Ok (blk (by_ - 1) (bx + x + 1)) /\ cand_ok (o_a k) (bx4 + x + 1) (by_ - 1) (bx + x + 1)).
  { unfold r_row. rewrite (g_bx G), (g_by G). rewrite (g_bx G) in Hc. apply (oo_above OO HR x (conj X0 Hx) Hc EX). }
  destruct AB as (ER & CO). pose proof CO as ((a1 & a2 & ED) & _). rewrite <- (g_bx G), ER. cbn [obind]. rewrite ED. cbn [obind fst snd].
  destruct (dims _ _ _ _ _ ED) as (DW & _). destruct (step_facts _ DW) as (E1 & ST & ES). rewrite E1.
  change (RefFrame (by_ - 1) (bx + x + 1)) with (r_ref0 (blk (by_ - 1) (bx + x + 1))) in *. rewrite <- (Z.add_assoc bx x (ObmcSpec.step4 (Wide (by_ - 1) (bx + x + 1)))) in *.
  assert (N1 : 0 <= x + ObmcSpec.step4 (Wide (by_ - 1) (bx + x + 1))) by (clear - ST X0; lia).
  assert (N2 := even_add _ _ EX ES).
  assert (N3 : bw4 <= x + ObmcSpec.step4 (Wide (by_ - 1) (bx + x + 1)) + 2 * Z.of_nat n) by (clear - ST Hn; lia).
  destruct (Z.ltb_spec 0 (r_ref0 (blk (by_ - 1) (bx + x + 1)))) as [Rb|Rb].
  - pose proof (Forall_inv HF) as F1'. pose proof (Forall_inv_tail HF) as F2'. unfold fits_above in F1'. rewrite (even_next bx x BX X0 EBX EX) in F1'.
    destruct (above_step d0 d cur x HD HR (conj X0 Hx) Hc EX Rb ltac:(clear - F1'; lia)) as (t & lap & d' & Q1 & Q2 & Q3 & Q4).
    rewrite subX_eq, subY_eq, <- (g_sx G), <- (g_sy G), <- (g_by G), <- (g_bd G). rewrite Q1. cbn [obind]. rewrite Q2. cbn [obind]. rewrite Q3. cbn [obind].
    apply (IH (i + 1) _ d' (above_one cur (bx + x)) Q4 N1 N2 N3 F2').
  - apply (IH i _ d cur HD N1 N2 N3 HF).
Qed.
Lemma left_loop : forall d0, o_col_start k < o_bx k -> forall n i y d cur, holds bd y0 x0 w h d0 d cur -> 0 <= y -> Z.Even y -> bh4 <= y + 2 * Z.of_nat n ->
  Forall fits_left (lefts n i (by_ + y)) ->
  exists d', obmc_left k rows stride y0 x0 b_dim pl by4 h4 (Datatypes.S n) i y d = Ok d' /\ holds bd y0 x0 w h d0 d' (fold_left left_one (lefts n i (by_ + y)) cur).
Proof.
  intros d0 HR. induction n as [|n IH]; intros i y d cur HD X0 EX Hn HF.
  { cbn [obmc_left]. destruct (Z.ltb_spec y h4) as [L|_]; [clear - L H4 Hn; lia|]. exists d. split; [reflexivity|exact HD]. }
  remember (Datatypes.S n) as m eqn:Em. cbn [obmc_left]. cbn [b_dim fst snd]. rewrite Em in *. clear Em m. unfold lefts in *. cbn [ObmcSpec.left] in *.
  assert (EC : (y <? h4) && (i <? Z.min lh 4) = (i <? Z.min 4 lh) && (by_ + y <? Z.min MiRows (by_ + bh4))).
  { rewrite (Z.min_comm lh 4), andb_comm. f_equal. clear - H4. destruct (Z.ltb_spec y h4), (Z.ltb_spec (by_ + y) (Z.min MiRows (by_ + bh4))); try reflexivity; lia. }
  rewrite EC. destruct ((i <? Z.min 4 lh) && (by_ + y <? Z.min MiRows (by_ + bh4))) eqn:EV; [|exists d; split; [reflexivity|exact HD]].
  apply andb_prop in EV. destruct EV as (_ & EV). apply Z.ltb_lt in EV. assert (Hc : by_ + y < MiRows /\ y < bh4) by (clear - EV; lia). destruct Hc as (Hc & Hx).
  assert (BX := proj1 (proj1 (oo_y OO))). assert (EBX := proj2 (oo_y OO)). rewrite <- (g_by G) in BX, EBX.
  rewrite (even_next by_ y BX X0 EBX EX) in *.
  assert (AB : o_r k (r_row k (y + 1)) (bx - 1) = Ok (blk (by_ + y + 1) (bx - 1)) /\ cand_ok (o_l k) (by4 + y + 1) (by_ + y + 1) (bx - 1)).
  { unfold r_row. rewrite (g_bx G), (g_by G). rewrite (g_by G) in Hc. apply (oo_left OO HR y (conj X0 Hx) Hc EX). }
  destruct AB as (ER & CO). pose proof CO as ((a1 & a2 & ED) & _). rewrite <- (g_bx G), ER. cbn [obind]. rewrite ED. cbn [obind fst snd].
  destruct (dims _ _ _ _ _ ED) as (_ & DH). destruct (step_facts _ DH) as (E1 & ST & ES). rewrite E1.
  change (RefFrame (by_ + y + 1) (bx - 1)) with (r_ref0 (blk (by_ + y + 1) (bx - 1))) in *. rewrite <- (Z.add_assoc by_ y (ObmcSpec.step4 (High (by_ + y + 1) (bx - 1)))) in *.
  assert (N1 : 0 <= y + ObmcSpec.step4 (High (by_ + y + 1) (bx - 1))) by (clear - ST X0; lia).
  assert (N2 := even_add _ _ EX ES).
  assert (N3 : bh4 <= y + ObmcSpec.step4 (High (by_ + y + 1) (bx - 1)) + 2 * Z.of_nat n) by (clear - ST Hn; lia).
  destruct (Z.ltb_spec 0 (r_ref0 (blk (by_ + y + 1) (bx - 1)))) as [Rb|Rb].
  - pose proof (Forall_inv HF) as F1'. pose proof (Forall_inv_tail HF) as F2'. unfold fits_left in F1'. rewrite (even_next by_ y BX X0 EBX EX) in F1'.
    destruct (left_step d0 d cur y HD HR (conj X0 Hx) Hc EX Rb ltac:(clear - F1'; lia)) as (t & lap & d' & Q1 & Q2 & Q3 & Q4).
    rewrite subX_eq, subY_eq, <- (g_sx G), <- (g_sy G), <- (g_by G), <- (g_bd G). rewrite Q1. cbn [obind]. rewrite Q2. cbn [obind]. rewrite Q3. cbn [obind].
    apply (IH (i + 1) _ d' (left_one cur (by_ + y)) Q4 N1 N2 N3 F2').
  - apply (IH i _ d cur HD N1 N2 N3 HF).
Qed.

Lemma size_test : (pl =? 0) || (16 <=? bw4 * Z.shiftr 4 sx + bh4 * Z.shiftr 4 sy) = ObmcSpec.at_least_8x8 bw4 bh4 sx sy.
Proof.
  assert (P0 : pl = 0 -> sx = 0 /\ sy = 0) by (intros Q; rewrite (g_sx G), (g_sy G), Q; split; reflexivity).
  pose proof (size_pure bw4 bh4 sx sy (oo_w OO) (oo_h OO) sx_01 sy_01) as E.
  destruct E as (E & T). rewrite E. destruct (Z.eqb_spec pl 0) as [Z0|]; [|reflexivity]. destruct (P0 Z0) as (Q1 & Q2). rewrite (T Q1 Q2). reflexivity.
Qed.
Lemma land_even : forall a, Z.Even a -> Z.land a 1 = 0.
Proof. intros a (q & ->). change 1 with (Z.ones 1). rewrite Z.land_ones by lia. change (2 ^ 1) with 2. rewrite Z.mul_comm. apply Z.mod_mul. lia. Qed.
Lemma overlapped_eq : forall u l cur, ObmcSpec.overlapped MiRows MiCols by_ bx bw4 bh4 lw lh RefFrame MvRow MvCol Wide High F0 F1 bd fw fh rw rh S pl sx sy u l cur =
  let c := if u && ObmcSpec.at_least_8x8 bw4 bh4 sx sy then fold_left above_one (aboves 16 0 bx) cur else cur in if l then fold_left left_one (lefts 16 0 by_) c else c.
Proof. intros. unfold ObmcSpec.overlapped, above_one, left_one, aboves, lefts. reflexivity. Qed.
Lemma obmc_holds : forall d cur, holds bd y0 x0 w h d d cur ->
  (o_row_start k < o_by k -> ObmcSpec.at_least_8x8 bw4 bh4 sx sy = true -> Forall fits_above (aboves 16 0 bx)) -> (o_col_start k < o_bx k -> Forall fits_left (lefts 16 0 by_)) ->
  exists d', obmc k rows stride y0 x0 b_dim pl bx4 by4 w4 h4 d = Ok d' /\
    holds bd y0 x0 w h d d' (ObmcSpec.overlapped MiRows MiCols by_ bx bw4 bh4 lw lh RefFrame MvRow MvCol Wide High F0 F1 bd fw fh rw rh S pl sx sy (o_row_start k <? by_) (o_col_start k <? bx) cur).
Proof.
  intros d cur HD FA FL. unfold obmc. rewrite (land_even _ (proj2 (oo_x OO))), (land_even _ (proj2 (oo_y OO))). cbn [Z.eqb andb b_dim fst snd].
  rewrite subX_eq, subY_eq, <- (g_sx G), <- (g_sy G), size_test.
  assert (T1 : (o_row_start k <? by_) = (o_row_start k <? o_by k)) by (rewrite (g_by G); reflexivity). assert (T2 : (o_col_start k <? bx) = (o_col_start k <? o_bx k)) by (rewrite (g_bx G); reflexivity).
  rewrite T1, T2. clear T1 T2.
  assert (SW : bw4 <= 32 /\ bh4 <= 32) by (split; apply size_32; [apply (oo_w OO)|apply (oo_h OO)]).
  assert (A : exists d1, (if (o_row_start k <? o_by k) && ObmcSpec.at_least_8x8 bw4 bh4 sx sy then obmc_above k rows stride y0 x0 b_dim pl bx4 w4 17 0 0 d else Ok d) = Ok d1 /\
    holds bd y0 x0 w h d d1 (if (o_row_start k <? o_by k) && ObmcSpec.at_least_8x8 bw4 bh4 sx sy then fold_left above_one (aboves 16 0 bx) cur else cur)).
  { destruct (Z.ltb_spec (o_row_start k) (o_by k)) as [L|L]; [|exists d; split; [reflexivity|exact HD]]. destruct (ObmcSpec.at_least_8x8 bw4 bh4 sx sy) eqn:EA; [|exists d; split; [reflexivity|exact HD]].
    cbn [andb]. assert (F := FA L eq_refl).
    pose proof (above_loop d L 16 0 0 d cur HD (Z.le_refl 0) (ex_intro _ 0 eq_refl) ltac:(clear - SW; lia)) as Q. rewrite (Z.add_0_r bx) in Q. exact (Q F). }
  destruct A as (d1 & E1 & HD1). rewrite E1. cbn [obind].
  rewrite overlapped_eq. cbv zeta.
  destruct (Z.ltb_spec (o_col_start k) (o_bx k)) as [L|L]; [|exists d1; split; [reflexivity|exact HD1]].
  assert (F := FL L).
  pose proof (left_loop d L 16 0 0 d1 _ HD1 (Z.le_refl 0) (ex_intro _ 0 eq_refl) ltac:(clear - SW; lia)) as Q. rewrite (Z.add_0_r by_) in Q. exact (Q F).
Qed.
End Overlapped.

(** dav1d_prepare_intra_edges fills the buffer with AboveRow and LeftCol. *)
From Coq Require Import ZArith List Bool Lia.
From Verif Require Import Base.CInt Base.Lemmas Base.Loop Cdef.Block Ipred.Model Ipred.Kernels.
From Verif Require Ipred.Spec.
Import ListNotations.
Open Scope Z_scope.

Lemma shl2 : forall v, Z.shiftl v 2 = 4 * v.
Proof. intros v. rewrite Z.shiftl_mul_pow2 by lia. change (2 ^ 2) with 4. lia. Qed.
Lemma half_bd : forall bd, depth bd -> Z.shiftr (Z.shiftl 1 bd) 1 = 2 ^ (bd - 1).
Proof. intros bd [->|[->| ->]]; reflexivity. Qed.

Lemma half_pixel : forall bd, depth bd -> pixel bd (2 ^ (bd - 1)) /\ pixel bd (2 ^ (bd - 1) - 1) /\ pixel bd (2 ^ (bd - 1) + 1).
Proof. intros bd Hd. unfold pixel. destruct Hd as [->|[->| ->]]; cbn; lia. Qed.

(** * Loops that write consecutive cells *)
Lemma wr1_loop : forall N n (r : Z -> outcome Z) f pos b, 0 <= n -> (forall i, 0 <= i < n -> r i = Ok (f i) /\ 0 <= pos i < N) ->
  (forall i j, 0 <= i < n -> 0 <= j < n -> pos i = pos j -> i = j) ->
  exists b', for_ 0 n (fun i b => obind (r i) (fun v => wr1 N b (pos i) v)) b = Ok b' /\
    (forall i, 0 <= i < n -> b' (pos i) = Some (f i)) /\ (forall k, (forall i, 0 <= i < n -> k <> pos i) -> b' k = b k).
Proof.
  intros N n r f pos b Hn H I.
  destruct (for_inv _ (fun k (a : arr) => (forall i, 0 <= i < k -> a (pos i) = Some (f i)) /\ (forall j, (forall i, 0 <= i < k -> j <> pos i) -> a j = b j))
    (fun i b => obind (r i) (fun v => wr1 N b (pos i) v)) 0 n b Hn) as (b' & E & Q).
  - split; [intros; lia|reflexivity].
  - intros k a Hk (Q1 & Q2). destruct (H k Hk) as (-> & R). cbn [obind]. rewrite wr1_ok by exact R.
    eexists. split; [reflexivity|]. split.
    + intros i Hi. unfold set1. destruct (Z.eqb_spec (pos i) (pos k)) as [e|ne].
      * rewrite (I i k ltac:(lia) Hk e). reflexivity.
      * apply Q1. destruct (Z.eq_dec i k) as [->|]; [congruence|lia].
    + intros j Hj. unfold set1. destruct (Z.eqb_spec j (pos k)) as [e|ne]; [exfalso; apply (Hj k); [lia|exact e]|]. apply Q2. intros i Hi. apply Hj. lia.
  - exists b'. split; [exact E|exact Q].
Qed.

Lemma lim1 : forall m e p t S i, 4 * e = m + 1 \/ 4 * e <= m + 1 /\ (p + t = e \/ p + 2 * t <= e) -> 4 * t = S -> 0 <= p < e -> 0 <= i < S ->
  Z.min m (4 * p + i) = 4 * p + Z.min i (Z.min S (4 * (e - p)) - 1).
Proof. intros m e p t S i [E|(E & [F|F])] HT Hp Hi; lia. Qed.
Lemma lim2 : forall m e p t S i, 4 * e = m + 1 \/ 4 * e <= m + 1 /\ (p + t = e \/ p + 2 * t <= e) -> 4 * t = S -> 0 <= p -> p + t < e -> 0 <= i < S ->
  Z.min m (4 * p + Z.min (S + i) (2 * S - 1)) = 4 * p + (S + Z.min i (Z.min S (4 * (e - p - t)) - 1)).
Proof. intros m e p t S i [E|(E & [F|F])] HT Hp Hp' Hi; lia. Qed.

Section Edge.
  Variables (bd c : Z).
  Hypothesis Hd : depth bd.
  Lemma erd_of : forall b i v, 0 <= c + i < 257 -> b (c + i) = Some v -> erd c b i = Ok v.
  Proof. intros b i v H E. unfold erd, EDGE. apply rd1_ok; assumption. Qed.
  Lemma erd_same : forall b b' i, b' (c + i) = b (c + i) -> erd c b' i = erd c b i.
  Proof. intros b b' i E. unfold erd, rd1. rewrite E. reflexivity. Qed.

  (** [wloop]: consecutive cells, upwards or downwards *)
  Lemma wloop : forall n (r : Z -> outcome Z) f p s b, 0 <= n -> (s = 1 \/ s = -1) -> (forall i, 0 <= i < n -> r i = Ok (f i) /\ 0 <= c + (p + s * i) < 257) ->
    forall pos, (forall i, pos i = p + s * i) ->
    exists b', for_ 0 n (fun i b => obind (r i) (fun v => ewr c b (pos i) v)) b = Ok b' /\
      (forall i, 0 <= i < n -> erd c b' (p + s * i) = Ok (f i)) /\ (forall k, (forall i, 0 <= i < n -> k <> p + s * i) -> erd c b' k = erd c b k).
  Proof.
    intros n r f p s b Hn Hs H pos Hp.
    destruct (wr1_loop 257 n r f (fun i => c + pos i) b Hn) as (b' & E & Q1 & Q2).
    - intros i Hi. rewrite Hp. apply H; exact Hi.
    - intros i j Hi Hj Hij. rewrite !Hp in Hij. destruct Hs as [->| ->]; lia.
    - exists b'. split; [exact E|]. split.
      + intros i Hi. rewrite <- Hp. apply erd_of; [rewrite Hp; apply H; exact Hi|]. apply Q1; exact Hi.
      + intros k Hk. apply erd_same. apply Q2. intros i Hi. rewrite Hp. specialize (Hk i Hi). lia.
  Qed.
  Lemma eset_ok : forall i v n b, 0 <= n -> 0 <= c + i -> c + i + n <= 257 ->
    exists b', eset c i v n b = Ok b' /\ (forall k, i <= k < i + n -> erd c b' k = Ok v) /\ (forall k, ~ (i <= k < i + n) -> erd c b' k = erd c b k).
  Proof.
    intros i v n b Hn H1 H2. unfold eset.
    destruct (wloop n (fun _ => Ok v) (fun _ => v) i 1 b Hn ltac:(left; reflexivity)) with (pos := fun k => i + k) as (b' & E & Q1 & Q2).
    - intros k Hk. split; [reflexivity|lia].
    - intros k. lia.
    - exists b'. split; [exact E|]. split.
      + intros k Hk. replace k with (i + 1 * (k - i)) by lia. apply Q1. lia.
      + intros k Hk. apply Q2. intros j Hj. lia.
  Qed.

  (** * The frame around the block *)
  Variable cur : Z -> Z -> Z.
  Hypothesis Hcur : forall r k, pixel bd (cur r k).
  Variables (lw lh : Z).
  Hypothesis Hsz : size lw lh.
  Notation Ww := (2 ^ lw).
  Notation Hh := (2 ^ lh).
  (** x, y, w, h of dav1d_prepare_intra_edges, in units of four samples *)
  Variables (x y w h maxX maxY : Z).
  Variables (have_left have_top tr bl : bool).
  Hypothesis Hx : 0 <= x < w.
  Hypothesis Hy : 0 <= y < h.
  Notation tw := (2 ^ (lw - 2)).
  Notation th := (2 ^ (lh - 2)).
  (** The tile ends with the frame, or else no sample after its end is needed. *)
  Hypothesis HX : 4 * w = maxX + 1 \/ 4 * w <= maxX + 1 /\ (x + tw = w \/ x + 2 * tw <= w).
  Hypothesis HY : 4 * h = maxY + 1 \/ 4 * h <= maxY + 1 /\ (y + th = h \/ y + 2 * th <= h).
  Definition haveAboveRt : bool := (x + tw <? w) && tr.
  Definition haveBelowLft : bool := (y + th <? h) && bl.
  Notation Above := (Spec.AboveRow bd cur maxX (4 * x) (4 * y) have_left have_top haveAboveRt lw).
  Notation Left := (Spec.LeftCol bd cur maxY (4 * x) (4 * y) have_left have_top haveBelowLft lh).
  Notation Corner := (Spec.corner bd cur (4 * x) (4 * y) have_left have_top).

  Lemma tw_eq : 4 * tw = Ww /\ 1 <= tw <= 16.
  Proof. destruct Hsz as (S & _). destruct (side_cases lw S) as [->|[->|[->|[->| ->]]]]; cbn; lia. Qed.
  Lemma th_eq : 4 * th = Hh /\ 1 <= th <= 16.
  Proof. destruct Hsz as (_ & S & _). destruct (side_cases lh S) as [->|[->|[->|[->| ->]]]]; cbn; lia. Qed.

  Lemma corner_pixel : pixel bd Corner.
  Proof. unfold Spec.corner. destruct have_left, have_top; cbn [andb]; try apply Hcur. apply (half_pixel bd Hd). Qed.
  Lemma above_pixel : forall i, pixel bd (Above i).
  Proof.
    intros i. unfold Spec.AboveRow. destruct (i =? -1); [apply corner_pixel|]. destruct (half_pixel bd Hd) as (_ & P & _).
    destruct have_left, have_top; cbn [andb negb]; try apply Hcur; try exact P; destruct (i <? _); try apply Hcur; destruct haveAboveRt; apply Hcur.
  Qed.
  Lemma left_pixel : forall i, pixel bd (Left i).
  Proof.
    intros i. unfold Spec.LeftCol. destruct (i =? -1); [apply corner_pixel|]. destruct (half_pixel bd Hd) as (_ & _ & P).
    destruct have_left, have_top; cbn [andb negb]; try apply Hcur; try exact P; destruct (i <? _); try apply Hcur; destruct haveBelowLft; apply Hcur.
  Qed.

  (** ** The left column *)
  Lemma left_none : have_left = false -> forall i, 0 <= i -> Left i = if have_top then cur (4 * y - 1) (4 * x) else 2 ^ (bd - 1) + 1.
  Proof. intros E i Hi. unfold Spec.LeftCol. rewrite E. destruct (Z.eqb_spec i (-1)); [lia|]. destruct have_top; reflexivity. Qed.
  Lemma left_some : have_left = true -> forall i, 0 <= i -> Left i =
    if i <? Hh then cur (Z.min maxY (4 * y + i)) (4 * x - 1) else if haveBelowLft then cur (Z.min maxY (4 * y + Z.min i (2 * Hh - 1))) (4 * x - 1)
    else cur (Z.min maxY (4 * y + Hh - 1)) (4 * x - 1).
  Proof. intros E i Hi. unfold Spec.LeftCol. rewrite E. destruct (Z.eqb_spec i (-1)); [lia|]. reflexivity. Qed.
  Lemma above_none : have_top = false -> forall i, 0 <= i -> Above i = if have_left then cur (4 * y) (4 * x - 1) else 2 ^ (bd - 1) - 1.
  Proof. intros E i Hi. unfold Spec.AboveRow. rewrite E. destruct (Z.eqb_spec i (-1)); [lia|]. destruct have_left; reflexivity. Qed.
  Lemma above_some : have_top = true -> forall i, 0 <= i -> Above i =
    if i <? Ww then cur (4 * y - 1) (Z.min maxX (4 * x + i)) else if haveAboveRt then cur (4 * y - 1) (Z.min maxX (4 * x + Z.min i (2 * Ww - 1)))
    else cur (4 * y - 1) (Z.min maxX (4 * x + Ww - 1)).
  Proof. intros E i Hi. unfold Spec.AboveRow. rewrite E. destruct (Z.eqb_spec i (-1)); [lia|]. reflexivity. Qed.

  Variables (dst : Z -> Z -> outcome Z) (dst_top : Z -> outcome Z).
  Hypothesis Hdst : have_left = true -> forall i, 0 <= i -> i < 2 * Hh -> 4 * y + i < 4 * h -> dst i (-1) = Ok (cur (4 * y + i) (4 * x - 1)).
  Hypothesis Htop : have_top = true -> forall j, (if have_left then -1 else 0) <= j -> j < 2 * Ww -> 4 * x + j < 4 * w -> dst_top j = Ok (cur (4 * y - 1) (4 * x + j)).

  Lemma prepare_left_ok : forall mode b top, (have_left = false -> have_top = true -> top 0 = dst_top 0) ->
    (if needs_bottomleft mode then 2 * Hh else Hh) <= c <= 256 ->
    exists b', prepare_left bd c h y th have_left have_top bl dst top mode b = Ok b' /\
      (forall i, 0 <= i < (if needs_bottomleft mode then 2 * Hh else Hh) -> erd c b' (-(1 + i)) = Ok (Left i)) /\ (forall k, 0 <= k -> erd c b' k = erd c b k).
  Proof.
    intros mode b top Etop Hc. destruct th_eq as (T4 & T1). unfold prepare_left. cbv zeta. rewrite !shl2. rewrite T4.
    pose proof left_some as XS. pose proof left_none as XN. set (LF := Left) in *. clearbody LF.
    set (nb := needs_bottomleft mode) in *.
    assert (Hc' : Hh <= c) by (destruct nb; lia).
    (* the first part *)
    assert (P1 : exists b1, (if have_left then
        let px_have := Z.min Hh (4 * (h - y)) in
        obind (for_ 0 px_have (fun i b => obind (dst i (-1)) (fun v => ewr c b (- Hh + (Hh - 1 - i)) v)) b) (fun b =>
        if px_have <? Hh then obind (erd c b (- Hh + (Hh - px_have))) (fun v => eset c (- Hh) v (Hh - px_have) b) else Ok b)
      else obind (if have_top then top 0 else Ok (Z.shiftr (Z.shiftl 1 bd) 1 + 1)) (fun v => eset c (- Hh) v Hh b)) = Ok b1 /\
      (forall i, 0 <= i < Hh -> erd c b1 (-(1 + i)) = Ok (LF i)) /\ (forall k, 0 <= k -> erd c b1 k = erd c b k)).
    { case_eq have_left; intros EL.
      - cbv zeta. set (n := Z.min Hh (4 * (h - y))).
        destruct (wloop n (fun i => dst i (-1)) (fun i => cur (4 * y + i) (4 * x - 1)) (-1) (-1) b ltac:(unfold n; lia) ltac:(right; reflexivity)) with (pos := fun i => - Hh + (Hh - 1 - i)) as (b1 & E1 & A1 & B1).
        + intros i Hi. split; [apply Hdst; [exact EL|lia|unfold n in Hi; lia|unfold n in Hi; lia]|unfold n in Hi; lia].
        + intros i. lia.
        + rewrite E1. cbn [obind].
          assert (LV : forall i, 0 <= i < Hh -> LF i = cur (4 * y + Z.min i (n - 1)) (4 * x - 1)).
          { intros i Hi. rewrite XS by (exact EL || lia). destruct (Z.ltb_spec i Hh); [|lia]. f_equal. exact (lim1 _ _ _ _ _ _ HY T4 Hy Hi). }
          destruct (Z.ltb_spec n Hh) as [Ln|Ln].
          * replace (- Hh + (Hh - n)) with (-1 + -1 * (n - 1)) by lia. rewrite A1 by (unfold n; lia). cbn [obind].
            destruct (eset_ok (- Hh) (cur (4 * y + (n - 1)) (4 * x - 1)) (Hh - n) b1 ltac:(lia) ltac:(lia) ltac:(lia)) as (b2 & E2 & A2 & B2).
            exists b2. split; [exact E2|]. split.
            -- intros i Hi. rewrite LV by exact Hi. destruct (Z_lt_le_dec i n) as [l|l].
               ++ rewrite B2 by lia. replace (-(1 + i)) with (-1 + -1 * i) by lia. rewrite A1 by lia. rewrite Z.min_l by lia. reflexivity.
               ++ rewrite A2 by lia. rewrite Z.min_r by lia. reflexivity.
            -- intros k Hk. rewrite B2 by lia. apply B1. intros i Hi. lia.
          * exists b1. split; [reflexivity|]. split; [|intros k Hk; apply B1; intros; lia].
            intros i Hi. rewrite LV by exact Hi. replace (-(1 + i)) with (-1 + -1 * i) by lia. rewrite A1 by lia. rewrite Z.min_l by lia. reflexivity.
      - assert (EV : (if have_top then top 0 else Ok (Z.shiftr (Z.shiftl 1 bd) 1 + 1)) = Ok (LF 0)).
        { rewrite XN by (exact EL || lia). case_eq have_top; intros ET; [|rewrite half_bd by exact Hd; reflexivity].
          rewrite (Etop EL ET). pose proof (w_range lw lh Hsz). rewrite (Htop ET 0) by (rewrite ?EL; lia). do 2 f_equal. lia. }
        rewrite EV. cbn [obind].
        destruct (eset_ok (- Hh) (LF 0) Hh b ltac:(lia) ltac:(lia) ltac:(lia)) as (b2 & E2 & A2 & B2).
        exists b2. split; [exact E2|]. split; [|intros k Hk; apply B2; lia]. intros i Hi. rewrite A2 by lia. rewrite !XN by (exact EL || lia). reflexivity. }
    destruct P1 as (b1 & E1 & A1 & B1). cbv zeta in E1. rewrite E1. cbn [obind]. clear E1.
    case_eq nb; intros NB; rewrite NB in *; [|exists b1; split; [reflexivity|]; split; assumption].
    (* below the block to the left *)
    destruct (have_left && (y + th <? h) && bl) eqn:BL.
    - apply andb_prop in BL. destruct BL as (BL & B3). apply andb_prop in BL. destruct BL as (EL & B2'). pose proof B2' as B2''. apply Z.ltb_lt in B2'.
      assert (HB : haveBelowLft = true) by (unfold haveBelowLft; rewrite B2'', B3; reflexivity).
      set (n := Z.min Hh (4 * (h - y - th))).
      destruct (wloop n (fun i => dst (Hh + i) (-1)) (fun i => cur (4 * y + (Hh + i)) (4 * x - 1)) (- Hh - 1) (-1) b1 ltac:(unfold n; lia) ltac:(right; reflexivity)) with (pos := fun i => - Hh - (i + 1)) as (b2 & E2 & A2 & B2).
      + intros i Hi. split; [apply Hdst; [exact EL|lia|unfold n in Hi; lia|unfold n in Hi; lia]|unfold n in Hi; lia].
      + intros i. lia.
      + rewrite E2. cbn [obind].
        assert (LV : forall i, 0 <= i < Hh -> LF (Hh + i) = cur (4 * y + (Hh + Z.min i (n - 1))) (4 * x - 1)).
        { intros i Hi. rewrite XS by (exact EL || lia). rewrite HB. destruct (Z.ltb_spec (Hh + i) Hh); [lia|]. f_equal. exact (lim2 _ _ _ _ _ _ HY T4 (proj1 Hy) B2' Hi). }
        destruct (Z.ltb_spec n Hh) as [Ln|Ln].
        * replace (- Hh - n) with (- Hh - 1 + -1 * (n - 1)) by lia. rewrite A2 by (unfold n; lia). cbn [obind].
          destruct (eset_ok (- Hh - Hh) (cur (4 * y + (Hh + (n - 1))) (4 * x - 1)) (Hh - n) b2 ltac:(lia) ltac:(lia) ltac:(lia)) as (b3 & E3 & A3 & B3').
          exists b3. split; [exact E3|]. split.
          -- intros i Hi. destruct (Z_lt_le_dec i Hh) as [l|l].
             ++ rewrite B3' by lia. rewrite B2 by (intros; lia). apply A1; lia.
             ++ replace i with (Hh + (i - Hh)) by lia. rewrite LV by lia. destruct (Z_lt_le_dec (i - Hh) n) as [l'|l'].
                ** rewrite B3' by lia. replace (-(1 + (Hh + (i - Hh)))) with (- Hh - 1 + -1 * (i - Hh)) by lia. rewrite A2 by lia. rewrite Z.min_l by lia. reflexivity.
                ** rewrite A3 by lia. rewrite Z.min_r by lia. reflexivity.
          -- intros k Hk. rewrite B3' by lia. rewrite B2 by (intros; lia). apply B1; exact Hk.
        * exists b2. split; [reflexivity|]. split.
          -- intros i Hi. destruct (Z_lt_le_dec i Hh) as [l|l].
             ++ rewrite B2 by (intros; lia). apply A1; lia.
             ++ replace i with (Hh + (i - Hh)) by lia. rewrite LV by lia. replace (-(1 + (Hh + (i - Hh)))) with (- Hh - 1 + -1 * (i - Hh)) by lia. rewrite A2 by lia. rewrite Z.min_l by lia. reflexivity.
          -- intros k Hk. rewrite B2 by (intros; lia). apply B1; exact Hk.
    - assert (EH : erd c b1 (- Hh) = Ok (LF (Hh - 1))) by (replace (- Hh) with (-(1 + (Hh - 1))) by lia; apply A1; lia). rewrite EH. cbn [obind].
      destruct (eset_ok (- Hh - Hh) (LF (Hh - 1)) Hh b1 ltac:(lia) ltac:(lia) ltac:(lia)) as (b3 & E3 & A3 & B3).
      exists b3. split; [exact E3|]. split; [|intros k Hk; rewrite B3 by lia; apply B1; exact Hk].
      intros i Hi. destruct (Z_lt_le_dec i Hh) as [l|l]; [rewrite B3 by lia; apply A1; lia|]. rewrite A3 by lia.
      case_eq have_left; intros EL.
      + rewrite !XS by (exact EL || lia). assert (HB : haveBelowLft = false) by (rewrite EL in BL; exact BL). rewrite HB.
        destruct (Z.ltb_spec i Hh); [lia|]. destruct (Z.ltb_spec (Hh - 1) Hh); [|lia]. do 3 f_equal. lia.
      + rewrite !XN by (exact EL || lia). reflexivity.
  Qed.

  (** ** The row above *)
  Lemma prepare_top_ok : forall mode b top, (have_top = true -> top = dst_top) -> 0 <= c -> c + (if needs_topright mode then 2 * Ww else Ww) <= 256 ->
    exists b', prepare_top bd c w x tw have_left have_top tr dst top mode b = Ok b' /\
      (forall i, 0 <= i < (if needs_topright mode then 2 * Ww else Ww) -> erd c b' (1 + i) = Ok (Above i)) /\ (forall k, k <= 0 -> erd c b' k = erd c b k).
  Proof.
    intros mode b top Etop Hc0 Hc. destruct tw_eq as (T4 & T1). unfold prepare_top. cbv zeta. rewrite !shl2. rewrite T4.
    pose proof above_some as XS. pose proof above_none as XN. set (AF := Above) in *. clearbody AF.
    set (nb := needs_topright mode) in *.
    assert (Hc' : c + Ww <= 256) by (destruct nb; lia).
    assert (P1 : exists b1, (if have_top then
        let px_have := Z.min Ww (4 * (w - x)) in
        obind (for_ 0 px_have (fun i b => obind (top i) (fun v => ewr c b (1 + i) v)) b) (fun b =>
        if px_have <? Ww then obind (erd c b (1 + (px_have - 1))) (fun v => eset c (1 + px_have) v (Ww - px_have) b) else Ok b)
      else obind (if have_left then dst 0 (-1) else Ok (Z.shiftr (Z.shiftl 1 bd) 1 - 1)) (fun v => eset c 1 v Ww b)) = Ok b1 /\
      (forall i, 0 <= i < Ww -> erd c b1 (1 + i) = Ok (AF i)) /\ (forall k, k <= 0 -> erd c b1 k = erd c b k)).
    { case_eq have_top; intros EL.
      - rewrite (Etop EL). cbv zeta. set (n := Z.min Ww (4 * (w - x))).
        destruct (wloop n dst_top (fun i => cur (4 * y - 1) (4 * x + i)) 1 1 b ltac:(unfold n; lia) ltac:(left; reflexivity)) with (pos := fun i => 1 + i) as (b1 & E1 & A1 & B1).
        + intros i Hi. split; [apply Htop; [exact EL|destruct have_left; lia|unfold n in Hi; lia|unfold n in Hi; lia]|unfold n in Hi; lia].
        + intros i. lia.
        + rewrite E1. cbn [obind].
          assert (LV : forall i, 0 <= i < Ww -> AF i = cur (4 * y - 1) (4 * x + Z.min i (n - 1))).
          { intros i Hi. rewrite XS by (exact EL || lia). destruct (Z.ltb_spec i Ww); [|lia]. f_equal. exact (lim1 _ _ _ _ _ _ HX T4 Hx Hi). }
          destruct (Z.ltb_spec n Ww) as [Ln|Ln].
          * replace (1 + (n - 1)) with (1 + 1 * (n - 1)) by lia. rewrite A1 by (unfold n; lia). cbn [obind].
            destruct (eset_ok (1 + n) (cur (4 * y - 1) (4 * x + (n - 1))) (Ww - n) b1 ltac:(lia) ltac:(unfold n; lia) ltac:(lia)) as (b2 & E2 & A2 & B2).
            exists b2. split; [exact E2|]. split.
            -- intros i Hi. rewrite LV by exact Hi. destruct (Z_lt_le_dec i n) as [l|l].
               ++ rewrite B2 by lia. replace (1 + i) with (1 + 1 * i) by lia. rewrite A1 by lia. rewrite Z.min_l by lia. reflexivity.
               ++ rewrite A2 by lia. rewrite Z.min_r by lia. reflexivity.
            -- intros k Hk. rewrite B2 by (unfold n; lia). apply B1. intros i Hi. lia.
          * exists b1. split; [reflexivity|]. split; [|intros k Hk; apply B1; intros; lia].
            intros i Hi. rewrite LV by exact Hi. replace (1 + i) with (1 + 1 * i) by lia. rewrite A1 by lia. rewrite Z.min_l by lia. reflexivity.
      - assert (EV : (if have_left then dst 0 (-1) else Ok (Z.shiftr (Z.shiftl 1 bd) 1 - 1)) = Ok (AF 0)).
        { rewrite XN by (exact EL || lia). case_eq have_left; intros ET; [|rewrite half_bd by exact Hd; reflexivity].
          pose proof (h_range lw lh Hsz). rewrite (Hdst ET 0) by lia. do 2 f_equal. lia. }
        rewrite EV. cbn [obind].
        destruct (eset_ok 1 (AF 0) Ww b ltac:(lia) ltac:(lia) ltac:(lia)) as (b2 & E2 & A2 & B2).
        exists b2. split; [exact E2|]. split; [|intros k Hk; apply B2; lia]. intros i Hi. rewrite A2 by lia. rewrite !XN by (exact EL || lia). reflexivity. }
    destruct P1 as (b1 & E1 & A1 & B1). cbv zeta in E1. rewrite E1. cbn [obind]. clear E1.
    case_eq nb; intros NB; rewrite NB in *; [|exists b1; split; [reflexivity|]; split; assumption].
    destruct (have_top && (x + tw <? w) && tr) eqn:BL.
    - apply andb_prop in BL. destruct BL as (BL & B3). apply andb_prop in BL. destruct BL as (EL & B2'). pose proof B2' as B2''. apply Z.ltb_lt in B2'.
      assert (HB : haveAboveRt = true) by (unfold haveAboveRt; rewrite B2'', B3; reflexivity).
      rewrite (Etop EL). set (n := Z.min Ww (4 * (w - x - tw))).
      destruct (wloop n (fun i => dst_top (Ww + i)) (fun i => cur (4 * y - 1) (4 * x + (Ww + i))) (1 + Ww) 1 b1 ltac:(unfold n; lia) ltac:(left; reflexivity)) with (pos := fun i => 1 + Ww + i) as (b2 & E2 & A2 & B2).
      + intros i Hi. split; [apply Htop; [exact EL|destruct have_left; lia|unfold n in Hi; lia|unfold n in Hi; lia]|unfold n in Hi; lia].
      + intros i. lia.
      + rewrite E2. cbn [obind].
        assert (LV : forall i, 0 <= i < Ww -> AF (Ww + i) = cur (4 * y - 1) (4 * x + (Ww + Z.min i (n - 1)))).
        { intros i Hi. rewrite XS by (exact EL || lia). rewrite HB. destruct (Z.ltb_spec (Ww + i) Ww); [lia|]. f_equal. exact (lim2 _ _ _ _ _ _ HX T4 (proj1 Hx) B2' Hi). }
        destruct (Z.ltb_spec n Ww) as [Ln|Ln].
        * replace (1 + (Ww + n - 1)) with (1 + Ww + 1 * (n - 1)) by lia. rewrite A2 by (unfold n; lia). cbn [obind].
          destruct (eset_ok (1 + Ww + n) (cur (4 * y - 1) (4 * x + (Ww + (n - 1)))) (Ww - n) b2 ltac:(lia) ltac:(unfold n; lia) ltac:(lia)) as (b3 & E3 & A3 & B3').
          exists b3. split; [exact E3|]. split.
          -- intros i Hi. destruct (Z_lt_le_dec i Ww) as [l|l].
             ++ rewrite B3' by (unfold n; lia). rewrite B2 by (intros; lia). apply A1; lia.
             ++ replace i with (Ww + (i - Ww)) by lia. rewrite LV by lia. destruct (Z_lt_le_dec (i - Ww) n) as [l'|l'].
                ** rewrite B3' by lia. replace (1 + (Ww + (i - Ww))) with (1 + Ww + 1 * (i - Ww)) by lia. rewrite A2 by lia. rewrite Z.min_l by lia. reflexivity.
                ** rewrite A3 by lia. rewrite Z.min_r by lia. reflexivity.
          -- intros k Hk. rewrite B3' by (unfold n; lia). rewrite B2 by (intros; lia). apply B1; exact Hk.
        * exists b2. split; [reflexivity|]. split.
          -- intros i Hi. destruct (Z_lt_le_dec i Ww) as [l|l].
             ++ rewrite B2 by (intros; lia). apply A1; lia.
             ++ replace i with (Ww + (i - Ww)) by lia. rewrite LV by lia. replace (1 + (Ww + (i - Ww))) with (1 + Ww + 1 * (i - Ww)) by lia. rewrite A2 by lia. rewrite Z.min_l by lia. reflexivity.
          -- intros k Hk. rewrite B2 by (intros; lia). apply B1; exact Hk.
    - assert (EH : erd c b1 (1 + (Ww - 1)) = Ok (AF (Ww - 1))) by (apply A1; lia). rewrite EH. cbn [obind].
      destruct (eset_ok (1 + Ww) (AF (Ww - 1)) Ww b1 ltac:(lia) ltac:(lia) ltac:(lia)) as (b3 & E3 & A3 & B3).
      exists b3. split; [exact E3|]. split; [|intros k Hk; rewrite B3 by lia; apply B1; exact Hk].
      intros i Hi. destruct (Z_lt_le_dec i Ww) as [l|l]; [rewrite B3 by lia; apply A1; lia|]. rewrite A3 by lia.
      case_eq have_top; intros EL.
      + rewrite !XS by (exact EL || lia). assert (HB : haveAboveRt = false) by (rewrite EL in BL; exact BL). rewrite HB.
        destruct (Z.ltb_spec i Ww); [lia|]. destruct (Z.ltb_spec (Ww - 1) Ww); [|lia]. do 3 f_equal. lia.
      + rewrite !XN by (exact EL || lia). reflexivity.
  Qed.

  (** ** The corner *)
  Definition corner_of (filtered : bool) : Z := if filtered then Spec.Round2 (Left 0 * 5 + Above (-1) * 6 + Above 0 * 5) 4 else Corner.
  Lemma corner_of_pixel : forall f, pixel bd (corner_of f).
  Proof.
    intros [|]; unfold corner_of; [|apply corner_pixel]. pose proof (left_pixel 0). pose proof (above_pixel 0). pose proof (above_pixel (-1)).
    apply (mean_pixel bd 4 _ 16); unfold pixel in *; lia.
  Qed.
  Lemma prepare_topleft_ok : forall mode filter b top, (have_top = true -> top = dst_top) -> 1 <= c <= 255 ->
    (mode = Z2_PRED -> erd c b (-1) = Ok (Left 0) /\ erd c b 1 = Ok (Above 0)) ->
    exists b', prepare_topleft bd c tw th have_left have_top filter dst top mode b = Ok b' /\
      erd c b' 0 = Ok (corner_of ((mode =? Z2_PRED) && (24 <=? Ww + Hh) && filter)) /\ (forall k, k <> 0 -> erd c b' k = erd c b k).
  Proof.
    intros mode filter b top Etop Hc Hz. destruct tw_eq as (T4 & T1). destruct th_eq as (T4' & T1'). unfold prepare_topleft.
    assert (EV : (if have_left then (if have_top then top (-1) else dst 0 (-1)) else (if have_top then top 0 else Ok (Z.shiftr (Z.shiftl 1 bd) 1))) = Ok Corner).
    { unfold Spec.corner. case_eq have_left; intros EL; case_eq have_top; intros ET; cbn [andb].
      - rewrite (Etop ET), (Htop ET (-1)) by (rewrite ?EL; lia). do 2 f_equal; lia.
      - rewrite (Hdst EL 0) by lia. do 2 f_equal; lia.
      - rewrite (Etop ET), (Htop ET 0) by (rewrite ?EL; lia). do 2 f_equal; lia.
      - rewrite half_bd by exact Hd. reflexivity. }
    rewrite EV. cbn [obind]. unfold ewr at 1. rewrite wr1_ok by (unfold EDGE; lia). cbn [obind].
    set (b1 := set1 b (c + 0) Corner).
    assert (B0 : erd c b1 0 = Ok Corner) by (apply erd_of; [lia|]; unfold b1, set1; rewrite Z.eqb_refl; reflexivity).
    assert (B1 : forall k, k <> 0 -> erd c b1 k = erd c b k) by (intros k Hk; apply erd_same; unfold b1, set1; destruct (Z.eqb_spec (c + k) (c + 0)); [lia|reflexivity]).
    replace (6 <=? tw + th) with (24 <=? Ww + Hh) by (destruct (Z.leb_spec 24 (Ww + Hh)), (Z.leb_spec 6 (tw + th)); try reflexivity; lia).
    destruct ((mode =? Z2_PRED) && (24 <=? Ww + Hh) && filter) eqn:F; [|exists b1; split; [reflexivity|split; assumption]].
    assert (EM : mode = Z2_PRED) by (apply Z.eqb_eq; destruct (mode =? Z2_PRED); [reflexivity|discriminate F]).
    destruct (Hz EM) as (Z1 & Z2). rewrite !B1 by lia. rewrite Z1, Z2, B0. cbn [obind].
    assert (EA : Above (-1) = Corner) by reflexivity.
    assert (EP : Z.shiftr ((Left 0 + Above 0) * 5 + Corner * 6 + 8) 4 = corner_of true).
    { unfold corner_of. rewrite EA. change 8 with (2 ^ (4 - 1)). rewrite (round_eq _ 4 eq_refl). f_equal. ring. }
    rewrite EP, px_id by (exact Hd || apply corner_of_pixel). unfold ewr. rewrite wr1_ok by (unfold EDGE; lia).
    eexists. split; [reflexivity|]. split.
    - apply erd_of; [lia|]. unfold set1. rewrite Z.eqb_refl. reflexivity.
    - intros k Hk. rewrite <- B1 by exact Hk. apply erd_same. unfold set1 at 1. destruct (Z.eqb_spec (c + k) (c + 0)); [lia|reflexivity].
  Qed.

  (** ** All of it *)
  Record edges_ok (m : Z) (filtered : bool) (b : arr) : Prop := {
    eo_left : needs_left m = true -> forall i, 0 <= i < (if needs_bottomleft m then 2 * Hh else Hh) -> erd c b (-(1 + i)) = Ok (Left i);
    eo_top : needs_top m = true -> forall i, 0 <= i < (if needs_topright m then 2 * Ww else Ww) -> erd c b (1 + i) = Ok (Above i);
    eo_corner : needs_topleft m = true -> erd c b 0 = Ok (corner_of filtered)
  }.
  Lemma prepare_ok : forall mode angle m a filter b0, conv_mode mode angle have_left have_top = Ok (m, a) ->
    1 <= c -> (needs_left m = true -> (if needs_bottomleft m then 2 * Hh else Hh) <= c) ->
    c + (if needs_topright m then 2 * Ww else Ww) <= 256 ->
    exists b, prepare_intra_edges bd c x have_left y have_top w h tr bl dst dst_top mode angle tw th filter b0 = Ok (m, a, b) /\
      edges_ok m ((m =? Z2_PRED) && (24 <=? Ww + Hh) && filter) b.
  Proof.
    intros mode angle m a filter b0 EC Hc Hl Ht. pose proof (w_range lw lh Hsz) as RW. pose proof (h_range lw lh Hsz) as RH. unfold prepare_intra_edges.
    replace ((y <? h) && (x <? w)) with true by (symmetry; apply andb_true_intro; split; apply Z.ltb_lt; lia).
    rewrite EC. cbn [obind]. cbv zeta.
    set (need := have_top && (needs_top m || needs_topleft m || (needs_left m && negb have_left))).
    set (top := if need then dst_top else fun _ => Undef).
    assert (T1 : needs_left m = true -> have_left = false -> have_top = true -> top 0 = dst_top 0).
    { intros e1 e2 e3. unfold top, need. rewrite e1, e2, e3. cbn [negb andb]. rewrite orb_true_r. reflexivity. }
    assert (T2 : needs_top m = true -> have_top = true -> top = dst_top).
    { intros e1 e2. unfold top, need. rewrite e1, e2. reflexivity. }
    assert (T3 : needs_topleft m = true -> have_top = true -> top = dst_top).
    { intros e1 e2. unfold top, need. rewrite e1, e2, orb_true_r. reflexivity. }
    clearbody top.
    assert (P1 : exists b1, (if needs_left m then prepare_left bd c h y th have_left have_top bl dst top m b0 else Ok b0) = Ok b1 /\
      (needs_left m = true -> forall i, 0 <= i < (if needs_bottomleft m then 2 * Hh else Hh) -> erd c b1 (-(1 + i)) = Ok (Left i))).
    { case_eq (needs_left m); intros N.
      - assert (CC : (if needs_bottomleft m then 2 * Hh else Hh) <= c <= 256) by (specialize (Hl N); destruct (needs_topright m); lia).
        destruct (prepare_left_ok m b0 top (T1 N) CC) as (b1 & E & A1 & _). exists b1. split; [exact E|]. intros _. exact A1.
      - exists b0. split; [reflexivity|]. intros e; discriminate e. }
    destruct P1 as (b1 & E1 & A1). rewrite E1. cbn [obind]. clear E1.
    assert (P2 : exists b2, (if needs_top m then prepare_top bd c w x tw have_left have_top tr dst top m b1 else Ok b1) = Ok b2 /\
      (needs_top m = true -> forall i, 0 <= i < (if needs_topright m then 2 * Ww else Ww) -> erd c b2 (1 + i) = Ok (Above i)) /\
      (needs_left m = true -> forall i, 0 <= i < (if needs_bottomleft m then 2 * Hh else Hh) -> erd c b2 (-(1 + i)) = Ok (Left i))).
    { case_eq (needs_top m); intros N.
      - destruct (prepare_top_ok m b1 top (T2 N) ltac:(lia) Ht) as (b2 & E & A2 & B2). exists b2. split; [exact E|]. split; [intros _; exact A2|].
        intros NL i Hi. rewrite B2 by lia. apply A1; assumption.
      - exists b1. split; [reflexivity|]. split; [intros e; discriminate e|exact A1]. }
    destruct P2 as (b2 & E2 & A2 & A3). rewrite E2. cbn [obind]. clear E2.
    case_eq (needs_topleft m); intros N.
    - destruct (prepare_topleft_ok m filter b2 top (T3 N)) as (b3 & E & C3 & B3).
      + destruct (needs_topright m); lia.
      + intros ->. split.
        * specialize (A3 eq_refl 0). change (-1) with (-(1 + 0)). apply A3. cbn. lia.
        * specialize (A2 eq_refl 0). change 1 with (1 + 0). apply A2. cbn. lia.
      + rewrite E. cbn [obind]. exists b3. split; [reflexivity|]. split.
        * intros NL i Hi. rewrite B3 by (destruct (needs_bottomleft m); lia). apply A3; assumption.
        * intros NT i Hi. rewrite B3 by (destruct (needs_topright m); lia). apply A2; assumption.
        * intros _. exact C3.
    - cbn [obind]. exists b2. split; [reflexivity|]. split; [exact A3|exact A2|rewrite N; intros e; discriminate e].
  Qed.
End Edge.

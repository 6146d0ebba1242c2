(** Filtering and upsampling of the edges. *)
From Coq Require Import ZArith List Bool Lia.
From Verif Require Import Base.CInt Base.Lemmas Base.Loop Ipred.Model Ipred.Kernels.
From Verif Require Ipred.Spec.
Import ListNotations.
Open Scope Z_scope.

Lemma five : forall j, 0 <= j < 5 -> j = 0 \/ j = 1 \/ j = 2 \/ j = 3 \/ j = 4.
Proof. lia. Qed.
Lemma four : forall j, 0 <= j < 4 -> j = 0 \/ j = 1 \/ j = 2 \/ j = 3.
Proof. lia. Qed.
Lemma sum4 : forall f, Spec.sum 4 f = f 0 + f 1 + f 2 + f 3.
Proof. intros f. change 4 with (0 + 1 + 1 + 1 + 1). rewrite !sum_S, sum_0 by lia. reflexivity. Qed.
Lemma sum5 : forall f, Spec.sum 5 f = f 0 + f 1 + f 2 + f 3 + f 4.
Proof. intros f. change 5 with (4 + 1). rewrite sum_S, sum4 by lia. reflexivity. Qed.
Lemma ksum : forall n m F f, 0 <= n -> 0 <= m -> n * m <= 1000000 -> (forall j s, 0 <= j < n -> F j s = ck (s + f j)) -> (forall j, 0 <= j < n -> - m <= f j <= m) ->
  for_ 0 n F 0 = Ok (Spec.sum n f).
Proof.
  intros n m F f Hn Hm Hnm HF Hf.
  destruct (for_inv _ (fun k (s : Z) => s = Spec.sum k f) F 0 n 0 Hn) as (s & E & Q).
  - reflexivity.
  - intros k s Hk ->. rewrite HF by exact Hk. pose proof (Hf k Hk).
    assert (R : - (k * m) <= Spec.sum k f <= k * m) by (apply sum_abs; [lia|]; intros; apply Hf; lia).
    rewrite ck_ok by (unfold INT_MIN, INT_MAX; nia). eexists. split; [reflexivity|]. rewrite sum_S by lia. reflexivity.
  - rewrite E, Q. reflexivity.
Qed.

(** * The kernel of the edge filter *)
Definition row (s : Z) : list Z := nth (Z.to_nat (s - 1)) Spec.Intra_Edge_Kernel [].
Definition fkern (s : Z) (f : Z -> Z) : Z := (Spec.sum 5 (fun j => Spec.at_ (row s) j * f j) + 8) / 16.
Lemma row_ok : forall s, 1 <= s <= 3 -> rd_at edge_kernel (s - 1) = Ok (row s) /\ forall j, 0 <= j < 5 -> rd_at (row s) j = Ok (Spec.at_ (row s) j) /\ 0 <= Spec.at_ (row s) j <= 8.
Proof.
  intros s H. assert (C : s = 1 \/ s = 2 \/ s = 3) by lia. destruct C as [->|[->| ->]]; (split; [reflexivity|]);
    intros j Hj; destruct (five j Hj) as [->|[->|[->|[->| ->]]]]; (split; [reflexivity|vm_compute; split; discriminate]).
Qed.
Lemma fkern_eq : forall s f, 1 <= s <= 3 -> fkern s f =
  (if s =? 1 then f 1 * 4 + f 2 * 8 + f 3 * 4 + 8 else if s =? 2 then f 1 * 5 + f 2 * 6 + f 3 * 5 + 8 else f 0 * 2 + f 1 * 4 + f 2 * 4 + f 3 * 4 + f 4 * 2 + 8) / 16.
Proof.
  intros s f H. unfold fkern. rewrite sum5. assert (C : s = 1 \/ s = 2 \/ s = 3) by lia. destruct C as [->|[->| ->]]; 
    repeat match goal with |- context [Spec.at_ (row ?s) ?j] => let v := eval vm_compute in (Spec.at_ (row s) j) in change (Spec.at_ (row s) j) with v end;
    cbn [Z.eqb Pos.eqb]; f_equal; ring.
Qed.
Lemma fkern_ext : forall s f g, 1 <= s <= 3 -> (forall j, 0 <= j < 5 -> f j = g j) -> fkern s f = fkern s g.
Proof. intros s f g H E. rewrite !fkern_eq by exact H. rewrite !E by lia. reflexivity. Qed.
Lemma fkern_rev : forall s f, 1 <= s <= 3 -> fkern s f = fkern s (fun j => f (4 - j)).
Proof.
  intros s f H. rewrite !fkern_eq by exact H. change (4 - 0) with 4. change (4 - 1) with 3. change (4 - 2) with 2. change (4 - 3) with 1. change (4 - 4) with 0.
  destruct (s =? 1); [f_equal; ring|]. destruct (s =? 2); f_equal; ring.
Qed.
Lemma fkern_const : forall s f v, 1 <= s <= 3 -> (forall j, 0 <= j < 5 -> f j = v) -> fkern s f = v.
Proof. intros s f v H E. rewrite fkern_eq by exact H. rewrite !E by lia. destruct (s =? 1); [|destruct (s =? 2)]; lia. Qed.
Lemma fkern_pixel : forall bd s f, 1 <= s <= 3 -> (forall j, 0 <= j < 5 -> pixel bd (f j)) -> pixel bd (fkern s f).
Proof.
  intros bd s f H P. rewrite fkern_eq by exact H. pose proof (P 0 ltac:(lia)). pose proof (P 1 ltac:(lia)). pose proof (P 2 ltac:(lia)). pose proof (P 3 ltac:(lia)). pose proof (P 4 ltac:(lia)).
  unfold pixel in *. destruct (s =? 1); [|destruct (s =? 2)]; lia.
Qed.
(** Edges that are not available are left as they are by the filter. *)
Lemma fkern_flat : forall s e p u, 1 <= s <= 3 -> 0 <= p -> (forall i, 0 <= i -> e i = e 0) -> e (-1) = e 0 \/ e (-1) = e 0 + 1 \/ e (-1) = e 0 - 1 ->
  0 <= u -> fkern s (fun j => e (iclip (p - 2 + j) (-1) u)) = e 0.
Proof.
  intros s e p u Hs Hp F C Hu. rewrite fkern_eq by exact Hs.
  assert (G : forall j, 2 <= j -> e (iclip (p - 2 + j) (-1) u) = e 0).
  { intros j Hj. apply F. unfold iclip. destruct (Z.ltb_spec (p - 2 + j) (-1)); [lia|]. destruct (Z.ltb_spec u (p - 2 + j)); lia. }
  rewrite (G 2), (G 3), (G 4) by lia.
  assert (G1 : e (iclip (p - 2 + 1) (-1) u) = e 0 \/ e (iclip (p - 2 + 1) (-1) u) = e (-1)).
  { unfold iclip. destruct (Z.ltb_spec (p - 2 + 1) (-1)); [right; reflexivity|]. destruct (Z.ltb_spec u (p - 2 + 1)); [left; apply F; lia|].
    destruct (Z.eq_dec p 0) as [->|]; [right; reflexivity|left; apply F; lia]. }
  assert (G0 : e (iclip (p - 2 + 0) (-1) u) = e 0 \/ e (iclip (p - 2 + 0) (-1) u) = e (-1)).
  { unfold iclip. destruct (Z.ltb_spec (p - 2 + 0) (-1)); [right; reflexivity|]. destruct (Z.ltb_spec u (p - 2 + 0)); [left; apply F; lia|].
    destruct (Z.eq_dec p 1) as [->|]; [right; reflexivity|]. left; apply F; lia. }
  set (a := e (iclip (p - 2 + 0) (-1) u)) in *. set (b := e (iclip (p - 2 + 1) (-1) u)) in *. clearbody a b. clear F G.
  destruct (s =? 1); [|destruct (s =? 2)]; lia.
Qed.

(** * Ranges of cells written *)
Lemma wr_range : forall N o lo hi F (f : Z -> Z) b, lo <= hi -> 0 <= o + lo -> o + hi <= N -> (forall i a, lo <= i < hi -> F i a = wr1 N a (o + i) (f i)) ->
  exists b', for_ lo hi F b = Ok b' /\ (forall i, lo <= i < hi -> b' (o + i) = Some (f i)) /\ (forall k, ~ (o + lo <= k < o + hi) -> b' k = b k).
Proof.
  intros N o lo hi F f b Hn H0 H1 HF.
  destruct (for_inv _ (fun k (a : arr) => (forall i, lo <= i < k -> a (o + i) = Some (f i)) /\ (forall j, ~ (o + lo <= j < o + k) -> a j = b j)) F lo hi b Hn) as (b' & E & Q).
  - split; [intros; lia|reflexivity].
  - intros k a Hk (Q1 & Q2). rewrite HF by exact Hk. rewrite wr1_ok by lia. eexists. split; [reflexivity|]. split.
    + intros i Hi. unfold set1. destruct (Z.eqb_spec (o + i) (o + k)) as [e|ne]; [do 2 f_equal; lia|apply Q1; lia].
    + intros j Hj. unfold set1. destruct (Z.eqb_spec j (o + k)) as [e|ne]; [lia|]. apply Q2. lia.
  - exists b'. split; [exact E|exact Q].
Qed.

Lemma odd_even : forall i, Z.odd (i * 2) = false /\ i * 2 / 2 = i /\ Z.odd (i * 2 + 1) = true /\ (i * 2 + 1) / 2 = i.
Proof.
  intros i. split; [rewrite Z.mul_comm, Z.odd_mul; reflexivity|]. split; [apply Z.div_mul; lia|].
  split; [rewrite Z.odd_add, Z.mul_comm, Z.odd_mul; reflexivity|]. lia.
Qed.

Section Filters.
  Variable bd : Z.
  Hypothesis Hd : depth bd.
  Variables (inp : Z -> outcome Z) (g : Z -> Z) (from to : Z).
  Hypothesis Hft : from < to.
  Hypothesis Hin : forall k, from <= k < to -> inp k = Ok (g k) /\ pixel bd (g k).
  Notation cl k := (iclip k from (to - 1)).
  Lemma cl_range : forall k, from <= cl k < to.
  Proof. intros k. unfold iclip. destruct (Z.ltb_spec k from); [lia|]. destruct (Z.ltb_spec (to - 1) k); lia. Qed.
  Lemma cl_in : forall k, inp (cl k) = Ok (g (cl k)) /\ pixel bd (g (cl k)).
  Proof. intros k. apply Hin. apply cl_range. Qed.

  Lemma filter_edge_ok : forall N o sz lim_from lim_to s out, 1 <= s <= 3 -> 0 <= sz -> 0 <= o -> o + sz <= N ->
    exists out', filter_edge bd N o sz lim_from lim_to inp from to s out = Ok out' /\
      (forall i, 0 <= i < sz -> out' (o + i) = Some (if (lim_from <=? i) && (i <? lim_to) then fkern s (fun j => g (cl (i - 2 + j))) else g (cl i))) /\
      (forall k, ~ (o <= k < o + sz) -> out' k = out k).
  Proof.
    intros N o sz lf lt s out Hs Hsz Ho HN. unfold filter_edge. destruct (Z.ltb_spec 0 s) as [_|]; [|lia]. cbv zeta.
    set (i1 := Z.max 0 (Z.min sz lf)). set (i2 := Z.max i1 (Z.min lt sz)).
    assert (R1 : 0 <= i1 <= sz) by (unfold i1; lia). assert (R2 : i1 <= i2 <= sz) by (unfold i2; lia).
    destruct (wr_range N o 0 i1 (fun i out => obind (inp (cl i)) (fun v => wr1 N out (o + i) v)) (fun i => g (cl i)) out ltac:(lia) ltac:(lia) ltac:(lia)) as (o1 & E1 & A1 & B1).
    { intros i a Hi. destruct (cl_in i) as (-> & _). reflexivity. }
    rewrite E1. cbn [obind]. clear E1.
    match goal with |- context [for_ i1 i2 ?F o1] =>
      destruct (wr_range N o i1 i2 F (fun i => fkern s (fun j => g (cl (i - 2 + j)))) o1 ltac:(lia) ltac:(lia) ltac:(lia)) as (o2 & E2 & A2 & B2) end.
    { intros i a Hi. destruct (row_ok s Hs) as (ER & EJ).
      rewrite (ksum 5 100000 _ (fun j => Spec.at_ (row s) j * g (cl (i - 2 + j)))); [|lia|lia|lia| |].
      - cbn [obind]. f_equal. rewrite Z.shiftr_div_pow2 by lia. change (2 ^ 4) with 16. apply px_id; [exact Hd|].
        apply fkern_pixel; [exact Hs|]. intros j _. apply cl_in.
      - intros j t Hj. destruct (cl_in (i - 2 + j)) as (-> & _). cbn [obind]. rewrite ER. cbn [obind]. destruct (EJ j Hj) as (-> & _). cbn [obind]. f_equal. ring.
      - intros j Hj. destruct (EJ j Hj) as (_ & R). destruct (cl_in (i - 2 + j)) as (_ & P). apply (pixel_max bd _ Hd) in P. nia. }
    rewrite E2. cbn [obind]. clear E2.
    destruct (wr_range N o i2 sz (fun i out => obind (inp (cl i)) (fun v => wr1 N out (o + i) v)) (fun i => g (cl i)) o2 ltac:(lia) ltac:(lia) ltac:(lia)) as (o3 & E3 & A3 & B3).
    { intros i a Hi. destruct (cl_in i) as (-> & _). reflexivity. }
    exists o3. split; [exact E3|]. split.
    - intros i Hi. destruct (Z_lt_le_dec i i2) as [l2|l2].
      + rewrite B3 by lia. destruct (Z_lt_le_dec i i1) as [l1|l1].
        * rewrite B2 by lia. rewrite A1 by lia. unfold i1 in l1. destruct (Z.leb_spec lf i); [lia|]. reflexivity.
        * rewrite A2 by lia. unfold i1 in l1. unfold i2 in l2. destruct (Z.leb_spec lf i); [|lia]. destruct (Z.ltb_spec i lt); [reflexivity|unfold i1 in l2; lia].
      + rewrite A3 by lia. unfold i2 in l2. destruct (Z.ltb_spec i lt); [lia|]. rewrite andb_false_r. reflexivity.
    - intros k Hk. rewrite B3, B2, B1 by lia. reflexivity.
  Qed.

  Definition ukern (f : Z -> Z) : Z := Spec.Clip1 bd (Spec.Round2 (- f 0 + 9 * f 1 + 9 * f 2 - f 3) 4).
  Definition upv (m : Z) : Z := if Z.odd m then ukern (fun j => g (cl (m / 2 + j - 1))) else g (cl (m / 2)).
  Lemma upv_pixel : forall m, pixel bd (upv m).
  Proof. intros m. unfold upv. destruct (Z.odd m); [apply clip_pixel_ok; exact Hd|apply cl_in]. Qed.
  Lemma upsample_edge_ok : forall N o hsz out, 1 <= hsz -> 0 <= o -> o + 2 * hsz - 1 <= N ->
    exists out', upsample_edge bd N o hsz inp from to out = Ok out' /\
      (forall m, 0 <= m <= 2 * hsz - 2 -> out' (o + m) = Some (upv m)) /\ (forall k, ~ (o <= k <= o + 2 * hsz - 2) -> out' k = out k).
  Proof.
    intros N o hsz out Hh Ho HN. unfold upsample_edge.
    match goal with |- context [for_ 0 (hsz - 1) ?F out] =>
      destruct (for_inv _ (fun k (a : arr) => (forall m, 0 <= m < 2 * k -> a (o + m) = Some (upv m)) /\ (forall j, ~ (o <= j < o + 2 * k) -> a j = out j)) F 0 (hsz - 1) out ltac:(lia)) as (o1 & E1 & A1 & B1) end.
    - split; [intros; lia|reflexivity].
    - intros i a Hi (Q1 & Q2). destruct (cl_in i) as (-> & _). cbn [obind]. rewrite wr1_ok by lia. cbn [obind].
      rewrite (ksum 4 100000 _ (fun j => Spec.at_ upsample_kernel j * g (cl (i + j - 1)))); [|lia|lia|lia| |].
      + cbn [obind]. rewrite wr1_ok by lia. eexists. split; [reflexivity|]. destruct (odd_even i) as (P1 & P2 & P3 & P4). split.
        * intros m Hm. unfold set1. destruct (Z.eqb_spec (o + m) (o + (i * 2 + 1))) as [e|ne].
          -- f_equal. replace m with (i * 2 + 1) by lia. unfold upv, ukern. rewrite P3, P4. rewrite clip_pixel_eq. f_equal.
             rewrite sum4. change 8 with (2 ^ (4 - 1)). rewrite round_eq by lia. apply (f_equal (fun v => Spec.Round2 v 4)). 
             repeat match goal with |- context [Spec.at_ upsample_kernel ?j] => let v := eval vm_compute in (Spec.at_ upsample_kernel j) in change (Spec.at_ upsample_kernel j) with v end. ring.
          -- destruct (Z.eqb_spec (o + m) (o + i * 2)) as [e'|ne'].
             ++ f_equal. replace m with (i * 2) by lia. unfold upv. rewrite P1, P2. reflexivity.
             ++ apply Q1. lia.
        * intros j Hj. unfold set1. destruct (Z.eqb_spec j (o + (i * 2 + 1))); [lia|]. destruct (Z.eqb_spec j (o + i * 2)); [lia|]. apply Q2. lia.
      + intros j t Hj. destruct (cl_in (i + j - 1)) as (-> & _). cbn [obind].
        assert (EK : rd_at upsample_kernel j = Ok (Spec.at_ upsample_kernel j)) by (destruct (four j Hj) as [->|[->|[->| ->]]]; reflexivity). rewrite EK. cbn [obind]. f_equal. ring.
      + intros j Hj. destruct (cl_in (i + j - 1)) as (_ & P). apply (pixel_max bd _ Hd) in P.
        assert (EK : -1 <= Spec.at_ upsample_kernel j <= 9) by (destruct (four j Hj) as [->|[->|[->| ->]]]; vm_compute; split; discriminate). nia.
    - rewrite E1. cbn [obind]. cbv zeta. rewrite Z.max_r by lia. destruct (cl_in (hsz - 1)) as (-> & _). cbn [obind]. rewrite wr1_ok by lia.
      eexists. split; [reflexivity|]. destruct (odd_even (hsz - 1)) as (P1 & P2 & _). split.
      + intros m Hm. unfold set1. destruct (Z.eqb_spec (o + m) (o + (hsz - 1) * 2)) as [e|ne].
        * f_equal. replace m with ((hsz - 1) * 2) by lia. unfold upv. rewrite P1, P2. reflexivity.
        * apply A1. lia.
      + intros k Hk. unfold set1. destruct (Z.eqb_spec k (o + (hsz - 1) * 2)); [lia|]. apply B1. lia.
  Qed.
End Filters.

(** * The arrays of the specification *)
Lemma clip3_eq : forall k u, 0 <= u -> Spec.Clip3 0 u k - 1 = iclip (k - 1) (-1) (u - 1).
Proof. intros k u H. unfold Spec.Clip3, iclip. destruct (Z.ltb_spec k 0), (Z.ltb_spec (k - 1) (-1)); try lia. destruct (Z.ltb_spec u k), (Z.ltb_spec (u - 1) (k - 1)); lia. Qed.
Lemma spec_filter : forall sz s e p, 1 <= s <= 3 -> 1 <= sz -> Spec.edge_filter sz s e p =
  if (0 <=? p) && (p <? sz - 1) then fkern s (fun j => e (iclip (p - 2 + j) (-1) (sz - 2))) else e p.
Proof.
  intros sz s e p Hs Hz. unfold Spec.edge_filter. destruct (Z.eqb_spec s 0); [lia|]. destruct ((0 <=? p) && (p <? sz - 1)); [|reflexivity].
  cbv zeta. unfold fkern. do 2 f_equal. apply sum_ext; [lia|]. intros j Hj. f_equal. rewrite clip3_eq by lia. do 2 f_equal; lia.
Qed.
Lemma spec_filter_ext : forall sz s e e' p, (forall i, -1 <= i -> e i = e' i) -> -1 <= p -> 1 <= sz -> Spec.edge_filter sz s e p = Spec.edge_filter sz s e' p.
Proof.
  intros sz s e e' p E Hp Hz. unfold Spec.edge_filter. destruct (s =? 0); [apply E; exact Hp|]. destruct (_ && _); [|apply E; exact Hp].
  cbv zeta. do 2 f_equal. apply sum_ext; [lia|]. intros j Hj. f_equal. apply E. unfold Spec.Clip3. destruct (Z.ltb_spec (p + 1 - 2 + j) 0); [lia|].
  destruct (Z.ltb_spec (sz - 1) (p + 1 - 2 + j)); lia.
Qed.
Definition dup (numPx : Z) (e : Z -> Z) (k : Z) : Z := e (iclip (k - 2) (-1) (numPx - 1)).
Lemma dup_eq : forall n e k, 1 <= n -> 0 <= k <= n + 2 -> (if k =? 0 then e (-1) else if k =? n + 2 then e (n - 1) else e (k - 2)) = dup n e k.
Proof.
  intros n e k Hn Hk. unfold dup, iclip. destruct (Z.eqb_spec k 0) as [->|]; [reflexivity|].
  destruct (Z.ltb_spec (k - 2) (-1)); [lia|]. destruct (Z.eqb_spec k (n + 2)) as [->|].
  - destruct (Z.ltb_spec (n - 1) (n + 2 - 2)); [reflexivity|lia].
  - destruct (Z.ltb_spec (n - 1) (k - 2)); [lia|reflexivity].
Qed.
Lemma spec_upsample : forall bd n e p, 1 <= n -> -2 <= p <= 2 * n - 2 -> Spec.upsample bd n e p =
  if Z.odd p then ukern bd (fun j => e (iclip (p / 2 + j - 1) (-1) (n - 1))) else e (iclip (p / 2) (-1) (n - 1)).
Proof.
  intros bd n e p Hn Hp. unfold Spec.upsample. cbv zeta. destruct (Z.eqb_spec p (-2)) as [->|].
  - cbn [Z.odd]. change (-2 / 2) with (-1). cbn [Z.eqb]. unfold iclip. cbn [Z.ltb Z.compare Pos.compare Pos.compare_cont CompOpp].
    destruct (Z.ltb_spec (n - 1) (-1)); [lia|reflexivity].
  - destruct (Z.leb_spec (-1) p); [|lia]. destruct (Z.leb_spec p (2 * n - 2)); [|lia]. cbn [andb].
    destruct (Z.odd p) eqn:O.
    + apply Z.odd_spec in O. destruct O as (q & ->).
      assert (E1 : (2 * q + 1 + 1) / 2 = q + 1) by lia. assert (E2 : (2 * q + 1) / 2 = q) by lia. rewrite E1, E2.
      rewrite !dup_eq by lia. unfold dup, ukern. replace (q + 1 - 2) with (q + 0 - 1) by lia. replace (q + 1 + 1 - 2) with (q + 1 - 1) by lia.
      replace (q + 1 + 2 - 2) with (q + 2 - 1) by lia. replace (q + 1 + 3 - 2) with (q + 3 - 1) by lia. reflexivity.
    + assert (EV : Z.even p = true) by (rewrite <- Z.negb_odd, O; reflexivity). apply Z.even_spec in EV. destruct EV as (q & ->).
      assert (E2 : (2 * q) / 2 = q) by lia. rewrite E2. rewrite dup_eq by lia. unfold dup. do 2 f_equal. lia.
Qed.
Lemma spec_upsample_ext : forall bd n e e' p, (forall i, -1 <= i -> e i = e' i) -> 1 <= n -> -2 <= p <= 2 * n - 2 -> Spec.upsample bd n e p = Spec.upsample bd n e' p.
Proof.
  intros bd n e e' p E Hn Hp. rewrite !spec_upsample by assumption.
  assert (G : forall k, e (iclip k (-1) (n - 1)) = e' (iclip k (-1) (n - 1))).
  { intros k. apply E. unfold iclip. destruct (Z.ltb_spec k (-1)); [lia|]. destruct (Z.ltb_spec (n - 1) k); lia. }
  destruct (Z.odd p); [|apply G]. unfold ukern. rewrite !G. reflexivity.
Qed.

(** * Equality of the two for an edge of n samples next to a block with m samples on the other side *)
Section Edge1.
  Variables (bd n m mx : Z) (e : Z -> Z).
  Hypothesis Hn : 4 <= n <= 64.
  Hypothesis Hm : 4 <= m <= 64.
  Hypothesis Hmx : 1 <= mx.
  Hypothesis tail : forall i, 2 * n - 1 <= i -> e i = e (2 * n - 1).
  Hypothesis edge : mx < n -> forall i, mx - 1 <= i -> e i = e (mx - 1).
  Notation to := (n + Z.min n m).
  Lemma cl_eq : forall k, e (iclip k (-1) (to - 1)) = e (iclip k (-1) (n + m - 1)).
  Proof.
    intros k. unfold iclip. destruct (Z.ltb_spec k (-1)); [reflexivity|]. destruct (Z_le_gt_dec m n) as [l|l].
    - rewrite Z.min_r by lia. reflexivity.
    - rewrite Z.min_l by lia. replace (n + n - 1) with (2 * n - 1) by lia.
      destruct (Z.ltb_spec (2 * n - 1) k), (Z.ltb_spec (n + m - 1) k); try lia; try reflexivity; symmetry; apply tail; lia.
  Qed.
  Lemma flt_eq : forall s p, 1 <= s <= 3 -> 0 <= p < n + m ->
    fkern s (fun j => e (iclip (p - 2 + j) (-1) (to - 1))) = Spec.edge_filter (Z.min n mx + m + 1) s e p.
  Proof.
    intros s p Hs Hp. rewrite spec_filter by lia.
    rewrite (fkern_ext s _ (fun j => e (iclip (p - 2 + j) (-1) (n + m - 1))) Hs) by (intros; apply cl_eq).
    destruct (Z.leb_spec 0 p); [|lia]. cbn [andb]. destruct (Z_le_gt_dec n mx) as [l|l].
    - rewrite Z.min_l by lia. destruct (Z.ltb_spec p (n + m + 1 - 1)); [|lia]. apply fkern_ext; [exact Hs|]. intros; do 2 f_equal; lia.
    - rewrite Z.min_r by lia. assert (C : forall i, mx - 1 <= i -> e i = e (mx - 1)) by (apply edge; lia).
      destruct (Z.ltb_spec p (mx + m + 1 - 1)).
      + apply fkern_ext; [exact Hs|]. intros j Hj. unfold iclip. destruct (Z.ltb_spec (p - 2 + j) (-1)); [reflexivity|].
        destruct (Z.ltb_spec (n + m - 1) (p - 2 + j)), (Z.ltb_spec (mx + m + 1 - 2) (p - 2 + j)); try lia; try reflexivity; rewrite C by lia; symmetry; apply C; lia.
      + rewrite (fkern_const s _ (e (mx - 1)) Hs); [symmetry; apply C; lia|]. intros j Hj. apply C. unfold iclip.
        destruct (Z.ltb_spec (p - 2 + j) (-1)); [lia|]. destruct (Z.ltb_spec (n + m - 1) (p - 2 + j)); lia.
  Qed.
  Lemma up_eq : forall p, 0 <= p <= 2 * (n + m) - 2 -> upv bd e (-1) to p = Spec.upsample bd (n + m) e p.
  Proof.
    intros p Hp. rewrite spec_upsample by lia. unfold upv. destruct (Z.odd p); [|apply cl_eq]. unfold ukern. rewrite !cl_eq. reflexivity.
  Qed.
  (** ... and of edges that end with the block *)
  Lemma flt2_eq : forall s p, 1 <= s <= 3 -> 0 <= p < n ->
    (if p <? mx then fkern s (fun j => e (iclip (p - 2 + j) (-1) (n - 1))) else e p) = Spec.edge_filter (Z.min n mx + 0 + 1) s e p.
  Proof.
    intros s p Hs Hp. rewrite spec_filter by lia. destruct (Z.leb_spec 0 p); [|lia]. cbn [andb].
    destruct (Z.ltb_spec p mx), (Z.ltb_spec p (Z.min n mx + 0 + 1 - 1)); try lia; try reflexivity.
    apply fkern_ext; [exact Hs|]. intros j Hj. destruct (Z_le_gt_dec n mx) as [l|l]; [do 2 f_equal; lia|].
    rewrite Z.min_r by lia. assert (C : forall i, mx - 1 <= i -> e i = e (mx - 1)) by (apply edge; lia).
    unfold iclip. destruct (Z.ltb_spec (p - 2 + j) (-1)); [reflexivity|].
    destruct (Z.ltb_spec (n - 1) (p - 2 + j)), (Z.ltb_spec (mx + 0 + 1 - 2) (p - 2 + j)); try lia; try reflexivity; rewrite C by lia; symmetry; apply C; lia.
  Qed.
End Edge1.
Lemma ukern_rev : forall bd f, ukern bd f = ukern bd (fun j => f (3 - j)).
Proof. intros bd f. unfold ukern. change (3 - 0) with 3. change (3 - 1) with 2. change (3 - 2) with 1. change (3 - 3) with 0. do 2 f_equal. ring. Qed.

(** * The choice of the filter *)
Lemma strength_eq : forall w h sm a, 0 <= a -> get_filter_strength (w + h) a sm = Spec.strength w h sm a.
Proof.
  intros w h sm a H. unfold get_filter_strength, Spec.strength. rewrite Z.abs_eq by exact H. destruct sm; [reflexivity|].
  destruct (w + h <=? 8); [reflexivity|]. destruct (Z.leb_spec (w + h) 12), (Z.leb_spec (w + h) 16); try lia; reflexivity.
Qed.
Lemma strength_opp : forall w h sm a, Spec.strength w h sm (- a) = Spec.strength w h sm a.
Proof. intros. unfold Spec.strength. rewrite Z.abs_opp. reflexivity. Qed.
Lemma upsample_sel_eq : forall w h sm a, 0 < a -> get_upsample (w + h) a sm = Spec.useUpsample w h sm a.
Proof.
  intros w h sm a H. unfold get_upsample, Spec.useUpsample. rewrite Z.abs_eq by lia.
  destruct (Z.leb_spec a 0), (Z.ltb_spec a 40), (Z.leb_spec 40 a); try lia; destruct sm; reflexivity.
Qed.
Lemma upsample_opp : forall w h sm a, Spec.useUpsample w h sm (- a) = Spec.useUpsample w h sm a.
Proof. intros. unfold Spec.useUpsample. rewrite Z.abs_opp. reflexivity. Qed.
Lemma strength_range : forall w h sm a, 0 <= Spec.strength w h sm a <= 3.
Proof.
  intros w h sm a. unfold Spec.strength. destruct sm;
    repeat match goal with |- context [if ?b then _ else _] => destruct b end; lia.
Qed.
Lemma upsample_no_filter : forall w h sm a, Spec.useUpsample w h sm a = true -> Spec.strength w h sm a = 0.
Proof.
  intros w h sm a. unfold Spec.useUpsample, Spec.strength. destruct (Z.leb_spec (Z.abs a) 0), (Z.leb_spec 40 (Z.abs a)); cbn [orb]; try discriminate.
  destruct sm; intros E; apply Z.leb_le in E.
  - destruct (Z.leb_spec (w + h) 8); [|lia]. destruct (Z.leb_spec 64 (Z.abs a)); [lia|reflexivity].
  - destruct (Z.leb_spec (w + h) 8); [destruct (Z.leb_spec 56 (Z.abs a)); [lia|reflexivity]|].
    destruct (Z.leb_spec (w + h) 12); [reflexivity|]. destruct (Z.leb_spec (w + h) 16); [reflexivity|lia].
Qed.
Lemma upsample_small : forall w h sm a, Spec.useUpsample w h sm a = true -> w + h <= 16.
Proof. intros w h sm a. unfold Spec.useUpsample. destruct (_ || _); [discriminate|]. destruct sm; intros E; apply Z.leb_le in E; lia. Qed.

(** derive_warpmv computes the local warp parameters of the specification. *)
From Coq Require Import ZArith List Bool Lia Permutation.
From Verif Require Import Base.CInt Base.Loop Base.Lemmas Mc.ObmcModel Warp.Model Warp.Shear Warp.Select Warp.Solve Warp.Samples Warp.Find Warp.Masks Warp.Points Warp.Derive.
From Verif Require Warp.Spec.
Import ListNotations.
Open Scope Z_scope.
Local Open Scope outcome_scope.

Section Final.
Variables (k : warp_in) (mi : Z -> Z -> Spec.mode_info) (avail : Z -> Z -> bool) (have_top have_left : bool).
Variables (bx by_ MiRows MiCols bw4 bh4 ref mvx mvy : Z).
Hypothesis NB : nbhd k mi avail have_top have_left bx by_ MiRows MiCols bw4 bh4.
Hypothesis MVX : -32768 <= mvx <= 32767.
Hypothesis MVY : -32768 <= mvy <= 32767.
Notation W := (W mi).
Notation H := (H mi).
Notation mt := (mt mi avail ref).
Notation Tm := (Tm mi avail have_top bx by_ MiCols bw4 ref).
Notation Lm := (Lm mi avail have_left bx by_ MiRows bh4 ref).
Notation topl := (topl mi have_top bx by_ MiCols bw4).
Notation leftl := (leftl mi have_left bx by_ MiRows bh4).
Notation posT := (posT bx by_).
Notation posL := (posL bx by_).
Notation hasTL := (hasTL mi avail have_top have_left bx by_ bw4 bh4 ref).
Notation hasTR := (hasTR mi avail have_top bx by_ bw4 bh4 ref).
Notation places := (places mi avail have_top have_left bx by_ MiRows MiCols bw4 bh4 ref).
Notation pt := (pt mi bx by_).
Notation w4 := (Z.min bw4 (MiCols - bx)).
Notation h4 := (Z.min bh4 (MiRows - by_)).
Notation bad := (dw_bad bw4 bh4 mvx mvy).
Notation cand := (cand_of bx by_).
Definition add_at (p : Z * Z) : Spec.samples -> Spec.samples := Spec.add_sample mi avail by_ bx bw4 bh4 (ref + 1) mvy mvx (fst p - by_) (snd p - bx).
Definition add_all (l : list (Z * Z)) (s : Spec.samples) : Spec.samples := fold_left (fun s p => add_at p s) l s.

Lemma add_all_app : forall l m s, add_all (l ++ m) s = add_all m (add_all l s). Proof. intros. apply fold_left_app. Qed.
Lemma add_other : forall p s, mt (fst p) (snd p) = false -> add_at p s = s.
Proof.
  intros (r, c) s M. unfold add_at, Spec.add_sample. cbn [fst snd] in *. destruct (_ <=? _); [reflexivity|]. cbv zeta. replace (by_ + (r - by_)) with r by lia. replace (bx + (c - bx)) with c by lia.
  unfold Samples.mt in M. change Spec.NONE with (-1). destruct (avail r c); [|reflexivity]. cbn [negb andb] in *. destruct (Spec.Ref0 (mi r c) =? ref + 1); [|reflexivity]. cbn [negb andb] in *. rewrite M. reflexivity.
Qed.
Lemma add_filter : forall l s, add_all l s = add_all (filter (fun p => mt (fst p) (snd p)) l) s.
Proof.
  induction l as [|p l IH]; intros s; [reflexivity|]. cbn [filter]. destruct (mt (fst p) (snd p)) eqn:E; unfold add_all; cbn [fold_left]; fold (add_all l).
  - apply IH.
  - rewrite add_other by exact E. apply IH.
Qed.
Definition spec_cand (p : Z * Z) : Spec.cand := cand (pt p).
Lemma threshold : 4 * iclip (Z.max bw4 bh4) 4 28 = Spec.Clip3 16 112 (Z.max (4 * bw4) (4 * bh4)).
Proof.
  unfold iclip, Spec.Clip3. replace (Z.max (4 * bw4) (4 * bh4)) with (4 * Z.max bw4 bh4) by lia. generalize (Z.max bw4 bh4). intros v.
  destruct (Z.ltb_spec v 4); destruct (Z.ltb_spec (4 * v) 16); try lia. destruct (Z.ltb_spec 28 v); destruct (Z.ltb_spec 112 (4 * v)); lia.
Qed.
Lemma add_match : forall p s, mt (fst p) (snd p) = true -> Spec.NumSamplesScanned s < 8 -> add_at p s =
  if bad (pt p) && (1 <? Spec.NumSamplesScanned s + 1) then {| Spec.CandList := Spec.CandList s; Spec.NumSamples := Spec.NumSamples s; Spec.NumSamplesScanned := Spec.NumSamplesScanned s + 1 |} else
  {| Spec.CandList := fun i => if i =? Spec.NumSamples s then spec_cand p else Spec.CandList s i;
     Spec.NumSamples := if bad (pt p) then Spec.NumSamples s else Spec.NumSamples s + 1; Spec.NumSamplesScanned := Spec.NumSamplesScanned s + 1 |}.
Proof.
  intros (r, c) s M L. unfold add_at, Spec.add_sample. cbn [fst snd] in *. change Spec.LEAST_SQUARES_SAMPLES_MAX with 8. replace (8 <=? Spec.NumSamplesScanned s) with false by (clear - L; lia).
  cbv zeta. replace (by_ + (r - by_)) with r by lia. replace (bx + (c - bx)) with c by lia. unfold Samples.mt in M. apply andb_prop in M. destruct M as (M & M3). apply andb_prop in M. destruct M as (M1 & M2).
  change Spec.NONE with (-1). rewrite M1, M2, M3. cbn [negb]. rewrite <- threshold.
  assert (EB : (Z.abs (Spec.MvRow (mi r c) - mvy) + Z.abs (Spec.MvCol (mi r c) - mvx) <=? 4 * iclip (Z.max bw4 bh4) 4 28) = negb (bad (pt (r, c)))).
  { unfold dw_bad, Points.pt, Samples.pt_of. cbn [fst snd p_x p_y p_dx p_dy]. generalize (4 * iclip (Z.max bw4 bh4) 4 28). intros th.
    replace ((c / W r c * W r c - bx) * 32 + 16 * W r c - 8 + Spec.MvCol (mi r c) - ((c / W r c * W r c - bx) * 32 + 16 * W r c - 8) - mvx) with (Spec.MvCol (mi r c) - mvx) by ring.
    replace ((r / H r c * H r c - by_) * 32 + 16 * H r c - 8 + Spec.MvRow (mi r c) - ((r / H r c * H r c - by_) * 32 + 16 * H r c - 8) - mvy) with (Spec.MvRow (mi r c) - mvy) by ring.
    rewrite (Z.add_comm (Z.abs (Spec.MvCol _ - _))). rewrite Z.ltb_antisym, negb_involutive. reflexivity. }
  rewrite EB, negb_involutive.
  assert (EC : {| Spec.c0 := (r / Spec.H4 (mi r c) * Spec.H4 (mi r c) * 4 + Spec.H4 (mi r c) * 2 - 1) * 8; Spec.c1 := (c / Spec.W4 (mi r c) * Spec.W4 (mi r c) * 4 + Spec.W4 (mi r c) * 2 - 1) * 8;
     Spec.c2 := (r / Spec.H4 (mi r c) * Spec.H4 (mi r c) * 4 + Spec.H4 (mi r c) * 2 - 1) * 8 + Spec.MvRow (mi r c); Spec.c3 := (c / Spec.W4 (mi r c) * Spec.W4 (mi r c) * 4 + Spec.W4 (mi r c) * 2 - 1) * 8 + Spec.MvCol (mi r c) |} = spec_cand (r, c)).
  { unfold spec_cand, cand_of, Points.pt, Samples.pt_of. cbn [fst snd p_x p_y p_dx p_dy]. unfold Samples.W, Samples.H. f_equal; ring. }
  rewrite EC. destruct (bad (pt (r, c))); reflexivity.
Qed.

(** ** The samples of a list of matching positions *)
Notation good l := (filter (fun p => negb (bad (pt p))) l).
Definition s0 : Spec.samples := {| Spec.CandList := fun _ => {| Spec.c0 := 0; Spec.c1 := 0; Spec.c2 := 0; Spec.c3 := 0 |}; Spec.NumSamples := 0; Spec.NumSamplesScanned := 0 |}.
Lemma add_all_ok : forall l, (length l <= 8)%nat -> (forall p, In p l -> mt (fst p) (snd p) = true) ->
  let s := add_all l s0 in
  Spec.NumSamplesScanned s = zlen l /\ Spec.NumSamples s = zlen (good l) /\
  (forall i p, nth_error (good l) i = Some p -> Spec.CandList s (Z.of_nat i) = spec_cand p) /\
  (good l = [] -> forall p, hd_error l = Some p -> Spec.CandList s 0 = spec_cand p).
Proof.
  induction l as [|p l IH] using rev_ind; intros L M.
  - cbv zeta. repeat split; [intros [|i] p E; discriminate E|intros _ p E; discriminate E].
  - rewrite app_length in L. cbn [length] in L. destruct (IH ltac:(lia) ltac:(intros q Hq; apply M, in_or_app; left; exact Hq)) as (I1 & I2 & I3 & I4). clear IH.
    cbv zeta. rewrite add_all_app. set (s := add_all l s0) in *. clearbody s. unfold add_all. cbn [fold_left].
    rewrite add_match; [|apply M, in_or_app; right; left; reflexivity|rewrite I1; unfold zlen; lia]. rewrite filter_app. cbn [filter].
    assert (ZL : forall A (x : list A) y, zlen (x ++ [y]) = zlen x + 1) by (intros; unfold zlen; rewrite app_length; cbn [length]; lia).
    destruct (bad (pt p)) eqn:B; cbn [negb andb].
    + rewrite app_nil_r. destruct (Z.ltb_spec 1 (Spec.NumSamplesScanned s + 1)) as [C|C]; cbn [Spec.NumSamplesScanned Spec.NumSamples Spec.CandList].
      * rewrite I1, I2, ZL. repeat split; [exact I3|]. intros G q E. apply I4; [exact G|]. destruct l as [|a l]; [rewrite I1 in C; unfold zlen in C; cbn [length] in C; lia|]. exact E.
      * rewrite I1 in C. destruct l as [|a l]; [|unfold zlen in C; cbn [length] in C; lia]. rewrite I1, I2. repeat split; [intros [|i] q E; discriminate E|]. intros _ q E. cbn [app hd_error] in E. injection E as <-. reflexivity.
    + cbn [Spec.NumSamplesScanned Spec.NumSamples Spec.CandList]. rewrite I1, I2, !ZL. repeat split.
      * intros i q E. destruct (Nat.eq_dec i (length (good l))) as [->|N].
        -- rewrite nth_error_app2, Nat.sub_diag in E by lia. injection E as <-. unfold zlen. rewrite Z.eqb_refl. reflexivity.
        -- assert (LT : (i < length (good l ++ [p]))%nat) by (apply nth_error_Some; rewrite E; discriminate). rewrite app_length in LT. cbn [length] in LT. rewrite nth_error_app1 in E by lia.
           destruct (Z.eqb_spec (Z.of_nat i) (zlen (good l))) as [e|_]; [unfold zlen in e; lia|]. exact (I3 i q E).
      * intros G. destruct (good l); discriminate G.
Qed.
Lemma add_stop : forall l s, 8 <= Spec.NumSamplesScanned s -> add_all l s = s.
Proof.
  induction l as [|p l IH]; intros s L; [reflexivity|]. unfold add_all. cbn [fold_left]. fold (add_all l). assert (E : add_at p s = s); [|rewrite E; apply IH, L].
  unfold add_at, Spec.add_sample. change Spec.LEAST_SQUARES_SAMPLES_MAX with 8. replace (8 <=? _) with true by lia. reflexivity.
Qed.
Lemma add_firstn : forall l, (forall p, In p l -> mt (fst p) (snd p) = true) -> add_all l s0 = add_all (firstn 8 l) s0.
Proof.
  intros l M. destruct (Nat.le_gt_cases (length l) 8) as [L|L]; [rewrite firstn_all2 by exact L; reflexivity|].
  rewrite <- (firstn_skipn 8 l) at 1. rewrite add_all_app. apply add_stop.
  destruct (add_all_ok (firstn 8 l)) as (E & _); [apply firstn_le_length|intros p Hp; apply M; exact (in_firstn _ 8 l p Hp)|]. rewrite E. unfold zlen. rewrite firstn_length. lia.
Qed.

(** ** The loops of the specification *)
Lemma above_ok : have_top = true -> W (by_ - 1) bx < bw4 -> forall f i s, 0 <= i ->
  Spec.above mi avail by_ bx MiCols bw4 bh4 (ref + 1) mvy mvx f i s = add_all (map posT (steps (sT mi bx by_) w4 f i)) s.
Proof.
  intros HT SM. induction f as [|f IH]; intros i s I0; [reflexivity|]. cbn [Spec.above steps]. destruct (Z.ltb_spec i w4) as [L|L]; [|reflexivity].
  pose proof (top_small _ _ _ _ _ _ _ _ _ _ _ ref NB HT SM i ltac:(lia)) as TS. pose proof (size_pos _ (sT_ok _ _ _ _ _ _ _ _ _ _ _ ref NB HT i ltac:(lia))) as P. unfold sT in TS, P |- *. fold (W (by_ - 1) (bx + i)).
  rewrite (Z.min_r bw4) by (clear - TS; lia). rewrite IH by (clear - I0 P; lia). cbn [map]. unfold add_all. cbn [fold_left]. f_equal. unfold add_at, Masks.posT. cbn [fst snd]. f_equal; ring.
Qed.
Lemma left_ok : have_left = true -> H by_ (bx - 1) < bh4 -> forall f i s, 0 <= i ->
  Spec.left mi avail by_ bx MiRows bw4 bh4 (ref + 1) mvy mvx f i s = add_all (map posL (steps (sL mi bx by_) h4 f i)) s.
Proof.
  intros HT SM. induction f as [|f IH]; intros i s I0; [reflexivity|]. cbn [Spec.left steps]. destruct (Z.ltb_spec i h4) as [L|L]; [|reflexivity].
  pose proof (left_small _ _ _ _ _ _ _ _ _ _ _ ref NB HT SM i ltac:(lia)) as TS. pose proof (size_pos _ (sL_ok _ _ _ _ _ _ _ _ _ _ _ ref NB HT i ltac:(lia))) as P. unfold sL in TS, P |- *. fold (H (by_ + i) (bx - 1)).
  rewrite (Z.min_r bh4) by (clear - TS; lia). rewrite IH by (clear - I0 P; lia). cbn [map]. unfold add_all. cbn [fold_left]. f_equal. unfold add_at, Masks.posL. cbn [fst snd]. f_equal; ring.
Qed.
Lemma filter_map : forall A B (f : A -> B) (g : B -> bool) l, filter g (map f l) = map f (filter (fun a => g (f a)) l).
Proof. intros A B f g. induction l as [|a l IH]; [reflexivity|]. cbn [map filter]. rewrite IH. destruct (g (f a)); reflexivity. Qed.
Lemma places_match : forall p, In p places -> mt (fst p) (snd p) = true.
Proof.
  intros p Hp. unfold Masks.places in Hp. apply in_app_or in Hp. destruct Hp as [Hp|Hp].
  { apply in_map_iff in Hp. destruct Hp as (t & <- & Ht). apply filter_In in Ht. exact (proj2 Ht). }
  apply in_app_or in Hp. destruct Hp as [Hp|Hp].
  { apply in_map_iff in Hp. destruct Hp as (t & <- & Ht). apply filter_In in Ht. exact (proj2 Ht). }
  apply in_app_or in Hp. destruct Hp as [Hp|Hp]; unfold one_if in Hp.
  - destruct hasTL eqn:E; [|destruct Hp]. destruct Hp as [<-|[]]. unfold Masks.hasTL in E. apply andb_prop in E. exact (proj2 E).
  - destruct hasTR eqn:E; [|destruct Hp]. destruct Hp as [<-|[]]. unfold Masks.hasTR in E. apply andb_prop in E. exact (proj2 E).
Qed.
Definition raw : Spec.samples := add_all (firstn 8 places) s0.
Notation spec_samples := (Spec.warp_samples mi avail have_top have_left by_ bx MiRows MiCols bw4 bh4 (ref + 1) mvy mvx).
Lemma samples_raw : spec_samples = if (Spec.NumSamples raw =? 0) && (0 <? Spec.NumSamplesScanned raw) then
   {| Spec.CandList := Spec.CandList raw; Spec.NumSamples := 1; Spec.NumSamplesScanned := Spec.NumSamplesScanned raw |} else raw.
Proof.
  unfold raw. rewrite <- add_firstn by exact places_match. unfold Spec.warp_samples. cbv zeta.
  assert (E : add_all places s0 = (let s := if have_top then if bw4 <=? W (by_ - 1) bx then Spec.add_sample mi avail by_ bx bw4 bh4 (ref + 1) mvy mvx (-1) 0 s0 else Spec.above mi avail by_ bx MiCols bw4 bh4 (ref + 1) mvy mvx (Z.to_nat bw4) 0 s0 else s0 in
    let s := if have_left then if bh4 <=? H by_ (bx - 1) then Spec.add_sample mi avail by_ bx bw4 bh4 (ref + 1) mvy mvx 0 (-1) s else Spec.left mi avail by_ bx MiRows bw4 bh4 (ref + 1) mvy mvx (Z.to_nat bh4) 0 s else s in
    let s := if Spec.doTopLeft mi have_top have_left by_ bx bw4 bh4 then Spec.add_sample mi avail by_ bx bw4 bh4 (ref + 1) mvy mvx (-1) (-1) s else s in
    if Spec.doTopRight mi have_top by_ bx bw4 && (Z.max bw4 bh4 <=? 16) then Spec.add_sample mi avail by_ bx bw4 bh4 (ref + 1) mvy mvx (-1) bw4 s else s)).
  { unfold Masks.places. rewrite !add_all_app.
    assert (ET : add_all (map posT Tm) s0 = if have_top then if bw4 <=? W (by_ - 1) bx then Spec.add_sample mi avail by_ bx bw4 bh4 (ref + 1) mvy mvx (-1) 0 s0 else Spec.above mi avail by_ bx MiCols bw4 bh4 (ref + 1) mvy mvx (Z.to_nat bw4) 0 s0 else s0).
    { unfold Find.Tm. rewrite <- (filter_map _ _ posT (fun p => mt (fst p) (snd p))), <- add_filter. unfold Find.topl. case_eq have_top; intros HT; [|reflexivity].
      destruct (Z.leb_spec bw4 (W (by_ - 1) bx)) as [L|L].
      - cbn [map]. unfold add_all. cbn [fold_left]. unfold add_at, Masks.posT. cbn [fst snd]. f_equal; ring.
      - rewrite above_ok by (first [exact HT|exact L|lia]). f_equal. f_equal. pose proof (w4_pos _ _ _ _ _ _ _ _ _ _ _ NB) as WP.
        apply steps_fuel; [|lia|cbn [Z.of_nat]; lia|lia]. intros i Hi. pose proof (size_pos _ (sT_ok _ _ _ _ _ _ _ _ _ _ _ ref NB HT i Hi)) as P. clear - P; lia. }
    rewrite ET. cbv zeta. set (s1 := if have_top then _ else _). clearbody s1.
    assert (EL : add_all (map posL Lm) s1 = if have_left then if bh4 <=? H by_ (bx - 1) then Spec.add_sample mi avail by_ bx bw4 bh4 (ref + 1) mvy mvx 0 (-1) s1 else Spec.left mi avail by_ bx MiRows bw4 bh4 (ref + 1) mvy mvx (Z.to_nat bh4) 0 s1 else s1).
    { unfold Find.Lm. rewrite <- (filter_map _ _ posL (fun p => mt (fst p) (snd p))), <- add_filter. unfold Find.leftl. case_eq have_left; intros HT; [|reflexivity].
      destruct (Z.leb_spec bh4 (H by_ (bx - 1))) as [L|L].
      - cbn [map]. unfold add_all. cbn [fold_left]. unfold add_at, Masks.posL. cbn [fst snd]. f_equal; ring.
      - rewrite left_ok by (first [exact HT|exact L|lia]). f_equal. f_equal. pose proof (h4_pos _ _ _ _ _ _ _ _ _ _ _ NB) as WP.
        apply steps_fuel; [|lia|cbn [Z.of_nat]; lia|lia]. intros i Hi. pose proof (size_pos _ (sL_ok _ _ _ _ _ _ _ _ _ _ _ ref NB HT i Hi)) as P. clear - P; lia. }
    rewrite EL. set (s2 := if have_left then _ else _). clearbody s2.
    assert (ETL : add_all (one_if hasTL (by_ - 1, bx - 1)) s2 = if Spec.doTopLeft mi have_top have_left by_ bx bw4 bh4 then Spec.add_sample mi avail by_ bx bw4 bh4 (ref + 1) mvy mvx (-1) (-1) s2 else s2).
    { unfold Masks.hasTL. change (negb (cutL1 mi have_top bx by_ bw4) && negb (cutL2 mi have_left bx by_ bh4)) with (Spec.doTopLeft mi have_top have_left by_ bx bw4 bh4).
      destruct (Spec.doTopLeft mi have_top have_left by_ bx bw4 bh4); [|reflexivity]. cbn [andb].
      assert (EA : add_at (by_ - 1, bx - 1) s2 = Spec.add_sample mi avail by_ bx bw4 bh4 (ref + 1) mvy mvx (-1) (-1) s2) by (unfold add_at; cbn [fst snd]; f_equal; ring).
      rewrite <- EA. destruct (mt (by_ - 1) (bx - 1)) eqn:M; [reflexivity|]. rewrite add_other by exact M. reflexivity. }
    rewrite ETL. set (s3 := if Spec.doTopLeft _ _ _ _ _ _ _ then _ else _). clearbody s3.
    unfold Masks.hasTR. change (negb (cutR mi have_top bx by_ bw4)) with (Spec.doTopRight mi have_top by_ bx bw4).
    destruct (Spec.doTopRight mi have_top by_ bx bw4 && (Z.max bw4 bh4 <=? 16)); [|reflexivity]. cbn [andb].
    assert (EA : add_at (by_ - 1, bx + bw4) s3 = Spec.add_sample mi avail by_ bx bw4 bh4 (ref + 1) mvy mvx (-1) bw4 s3) by (unfold add_at; cbn [fst snd]; f_equal; ring).
    rewrite <- EA. destruct (mt (by_ - 1) (bx + bw4)) eqn:M; [reflexivity|]. rewrite add_other by exact M. reflexivity. }
  rewrite E. reflexivity.
Qed.
Lemma raw_ok : Spec.NumSamplesScanned raw = zlen (firstn 8 places) /\ Spec.NumSamples raw = zlen (good (firstn 8 places)) /\
  (forall i p, nth_error (good (firstn 8 places)) i = Some p -> Spec.CandList raw (Z.of_nat i) = spec_cand p) /\
  (good (firstn 8 places) = [] -> forall p, hd_error (firstn 8 places) = Some p -> Spec.CandList raw 0 = spec_cand p).
Proof. apply add_all_ok; [apply firstn_le_length|]. intros p Hp. apply places_match. exact (in_firstn _ 8 _ p Hp). Qed.
Lemma map_nth_seq : forall A (f : nat -> A) (l : list A) n, (forall i a, nth_error l i = Some a -> f (n + i)%nat = a) -> map f (seq n (length l)) = l.
Proof.
  intros A f. induction l as [|a l IH]; intros n E; [reflexivity|]. cbn [length seq map]. f_equal.
  - rewrite <- (Nat.add_0_r n). apply E. reflexivity.
  - apply IH. intros i b Hi. replace (Datatypes.S n + i)%nat with (n + Datatypes.S i)%nat by lia. apply E. exact Hi.
Qed.
Lemma cands_ok : places <> [] -> Spec.cands spec_samples = match good (firstn 8 places) with [] => map spec_cand (firstn 1 (firstn 8 places)) | g => map spec_cand g end.
Proof.
  intros NE. rewrite samples_raw. destruct raw_ok as (R1 & R2 & R3 & R4). assert (L0 : exists p l, firstn 8 places = p :: l) by (destruct places as [|p l]; [congruence|cbn; eauto]).
  destruct L0 as (p & l & EP). rewrite R1, R2. destruct (good (firstn 8 places)) as [|q g] eqn:G.
  - replace ((zlen [] =? 0) && (0 <? zlen (firstn 8 places))) with true by (rewrite EP; unfold zlen; cbn [length]; symmetry; apply andb_true_intro; split; lia).
    unfold Spec.cands. cbn [Spec.NumSamples Spec.CandList]. change (seq 0 (Z.to_nat 1)) with [O]. cbn [map]. rewrite EP. cbn [firstn map]. f_equal. apply R4; [reflexivity|rewrite EP; reflexivity].
  - replace (zlen (q :: g) =? 0) with false by (unfold zlen; cbn [length]; symmetry; apply Z.eqb_neq; lia). cbn [andb]. unfold Spec.cands. rewrite R2. unfold zlen. rewrite Nat2Z.id, <- (map_length spec_cand).
    apply map_nth_seq. intros i c Hi. rewrite nth_error_map in Hi. destruct (nth_error (q :: g) i) as [x|] eqn:EX; [|discriminate Hi]. injection Hi as <-. apply R3. exact EX.
Qed.

(** ** Results *)
Theorem samples_masks : exists m0 m1, find_matching_ref k bw4 bh4 w4 h4 have_left have_top ref = Ok (m0, m1) /\ 0 <= m0 /\ 0 <= m1 /\
  (Z.lor m0 m1 <> 0 <-> 0 < Spec.NumSamples spec_samples).
Proof.
  destruct (find_masks _ _ _ _ _ _ _ _ _ _ _ ref NB) as (ts & ls & tl & tr & E & MO). eexists _, _. split; [exact E|]. pose proof MO as [(nt & ET) (nl & EL) HTL HTR ALL].
  pose proof (xm_bound ts 0 32 ltac:(rewrite ET; apply (Tm_incr _ _ _ _ _ _ _ _ _ _ _ ref NB)) ltac:(lia)) as BT. pose proof (xm_bound ls 0 32 ltac:(rewrite EL; apply (Lm_incr _ _ _ _ _ _ _ _ _ _ _ ref NB)) ltac:(lia)) as BL. change (32 - 0) with 32 in BT, BL.
  split; [destruct tr; cbn [b2z]; lia|]. split; [destruct tl; cbn [b2z]; lia|].
  assert (NS : 0 < Spec.NumSamples spec_samples <-> places <> []).
  { rewrite samples_raw. destruct raw_ok as (R1 & R2 & _ & _). rewrite R1, R2. destruct places as [|p l] eqn:EP.
    - change ((zlen (good (firstn 8 [])) =? 0) && (0 <? zlen (firstn 8 (@nil (Z * Z))))) with false. cbv iota. split; [intros X; rewrite R2, ?EP in X; cbn [firstn filter] in X; unfold zlen in X; cbn [length] in X; lia|intros X; congruence].
    - split; [intros _; discriminate|intros _]. destruct (good (firstn 8 (p :: l))) as [|q g] eqn:G.
      { replace (0 <? zlen (firstn 8 (p :: l))) with true by (unfold zlen; cbn [firstn length]; symmetry; apply Z.ltb_lt; lia). change (zlen (@nil (Z * Z)) =? 0) with true. cbn [andb Spec.NumSamples]. lia. }
      replace (zlen (q :: g) =? 0) with false by (unfold zlen; cbn [length]; symmetry; apply Z.eqb_neq; lia).
      cbn [andb]. rewrite R2. first [rewrite G|rewrite EP, G|idtac]. unfold zlen. cbn [length]. lia. }
  rewrite NS. assert (PN : places = [] <-> ts = [] /\ ls = [] /\ tl = false /\ tr = false).
  { split.
    - intros e. rewrite e in ALL. cbn [firstn] in ALL. destruct ts, ls, tl, tr; try discriminate ALL. repeat split.
    - intros (-> & -> & -> & ->). destruct places as [|p l]; [reflexivity|discriminate ALL]. }
  assert (XZ : forall l, incr 0 32 l -> xm 0 l = 0 -> l = []).
  { intros [|t l] I X; [reflexivity|exfalso]. destruct I as (I1 & I2). cbn [xm] in X. pose proof (Z.pow_pos_nonneg 2 (t - 0) ltac:(lia) ltac:(lia)). pose proof (xm_bound l 0 32 (incr_weak l (t + 1) 0 32 ltac:(lia) I2) ltac:(lia)). lia. }
  split; intros X Y; apply X; clear X.
  - apply PN in Y. destruct Y as (-> & -> & -> & ->). reflexivity.
  - apply PN. apply Z.lor_eq_0_iff in Y. destruct Y as (Y1 & Y2). destruct tr; cbn [b2z] in Y1; [lia|]. destruct tl; cbn [b2z] in Y2; [lia|].
    rewrite Z.mul_0_l, Z.add_0_r in Y1, Y2. repeat split; apply XZ; try assumption; [rewrite ET; apply (Tm_incr _ _ _ _ _ _ _ _ _ _ _ ref NB)|rewrite EL; apply (Lm_incr _ _ _ _ _ _ _ _ _ _ _ ref NB)].
Qed.

Definition warp_matches (w : option (matrix * shear)) (s : option (Spec.params * Spec.shear)) : Prop :=
  match w, s with
  | None, None => True
  | Some (m, sh), Some (p, t) => to_spec m = p /\ sh_alpha sh = Spec.alpha t /\ sh_beta sh = Spec.beta t /\ sh_gamma sh = Spec.gamma t /\ sh_delta sh = Spec.delta t
  | _, _ => False
  end.
Definition warp_range (w : option (matrix * shear)) : Prop := match w with None => True | Some (m, _) => mat_range m /\ m2 m <> 57344 end.
Theorem local_warp_ok : forall m0 m1, find_matching_ref k bw4 bh4 w4 h4 have_left have_top ref = Ok (m0, m1) -> Z.lor m0 m1 <> 0 -> exists w,
  derive_warpmv k bw4 bh4 m0 m1 mvx mvy = Ok w /\ warp_range w /\
  warp_matches w (Spec.local_warp (Spec.warp_estimation by_ bx bw4 bh4 mvy mvx spec_samples)).
Proof.
  intros mm0 mm1 E NZ. destruct samples_masks as (x0 & x1 & EX & _ & _ & NS). rewrite E in EX. injection EX as <- <-. apply NS in NZ. clear NS.
  destruct (find_masks _ _ _ _ _ _ _ _ _ _ _ ref NB) as (ts & ls & tl & tr & E2 & MO). rewrite E in E2. injection E2 as -> ->.
  assert (NE : places <> []).
  { intros e. rewrite samples_raw in NZ. destruct raw_ok as (R1 & R2 & _ & _). rewrite R1, R2, e in NZ. change ((zlen (good (firstn 8 [])) =? 0) && (0 <? zlen (firstn 8 (@nil (Z * Z))))) with false in NZ. cbv iota in NZ. rewrite R2, e in NZ. cbn [firstn filter] in NZ. unfold zlen in NZ. cbn [length] in NZ. lia. }
  unfold derive_warpmv. rewrite (dw_points_ok _ _ _ _ _ _ _ _ _ _ _ ref NB ts ls tl tr MO NE). cbn [obind].
  set (l := firstn 8 places). assert (L8 : (length l <= 8)%nat) by apply firstn_le_length.
  destruct (select_ok point bad (map pt l)) as (r & ER & PR); [rewrite map_length; exact L8|]. rewrite ER. cbn [obind].
  assert (PO : Forall (pt_ok bw4 bh4) (map pt l)) by (apply Forall_forall; intros x Hx; apply in_map_iff in Hx; destruct Hx as (p & <- & Hp); apply (places_ok _ _ _ _ _ _ _ _ _ _ _ ref NB); exact (in_firstn _ 8 _ p Hp)).
  destruct (nb_bx _ _ _ _ _ _ _ _ _ _ _ NB) as (KX & BX & BM). destruct (nb_by _ _ _ _ _ _ _ _ _ _ _ NB) as (KY & BY & BN). destruct (nb_bw _ _ _ _ _ _ _ _ _ _ _ NB) as (SB & _). destruct (nb_bh _ _ _ _ _ _ _ _ _ _ _ NB) as (SH & _). destruct (nb_dim _ _ _ _ _ _ _ _ _ _ _ NB) as (D1 & D2 & _).
  pose proof (size_pos _ SB) as PB. pose proof (size_pos _ SH) as PH. assert (BX2 : 0 <= bx < 16384) by (clear - BX D1; lia). assert (BY2 : 0 <= by_ < 16384) by (clear - BY D2; lia).
  set (u := match good l with [] => map pt (firstn 1 l) | g => map pt g end).
  assert (PU : Permutation r u).
  { unfold u. rewrite (filter_map _ _ pt (fun a => negb (bad a))) in PR. destruct (good l); [rewrite PR, firstn_map; apply Permutation_refl|exact PR]. }
  assert (UIN : forall x, In x u -> In x (map pt l)).
  { intros x Hx. unfold u in Hx. destruct (good l) as [|q g] eqn:G; apply in_map_iff in Hx; destruct Hx as (p & <- & Hp); apply in_map.
    - exact (in_firstn _ 1 l p Hp).
    - rewrite <- G in Hp. apply filter_In in Hp. tauto. }
  assert (PU8 : (length u <= 8)%nat).
  { unfold u. destruct (good l) as [|q g] eqn:G; rewrite map_length; [rewrite firstn_length; lia|]. rewrite <- G. apply Nat.le_trans with (length l); [|exact L8]. clear. induction l as [|a l IH]; [reflexivity|]. cbn [filter]. destruct (negb _); cbn [length]; lia. }
  assert (RO : Forall (pt_ok bw4 bh4) r) by (apply Forall_forall; intros x Hx; exact (proj1 (Forall_forall _ _) PO x (UIN x (Permutation_in _ PU Hx)))).
  assert (UO : Forall (pt_ok bw4 bh4) u) by (apply Forall_forall; intros x Hx; exact (proj1 (Forall_forall _ _) PO x (UIN x Hx))).
  rewrite KX, KY. destruct (find_ok bw4 bh4 mvx mvy bx by_ PB PH BX2 BY2 MVX MVY r RO ltac:(rewrite (Permutation_length PU); exact PU8)) as (res & EF & RR & ES). rewrite EF. cbn [obind].
  rewrite (quads_perm bw4 bh4 mvx mvy r u PU) in ES.
  assert (EW : Spec.warp_estimation by_ bx bw4 bh4 mvy mvx spec_samples = result res).
  { unfold Spec.warp_estimation. rewrite ES. f_equal. rewrite (cands_ok NE). fold l.
    replace (match good l with [] => map spec_cand (firstn 1 l) | g => map spec_cand g end) with (map cand u) by (unfold u; destruct (good l); rewrite map_map; reflexivity).
    pose proof (acc_all bw4 bh4 mvx mvy bx by_ u [] UO) as AA. cbn [app] in AA. exact AA. }
  rewrite EW. destruct res as [m|]; cbn [result option_map Spec.local_warp].
  2:{ exists None. repeat split. }
  destruct RR as (MR & M57). destruct (shear_ok m MR) as (sh & EG & SH2). rewrite EG. cbn [obind]. destruct (Spec.warpValid (Spec.setup_shear (to_spec m))) eqn:V; cbn [negb].
  - exists (Some (m, sh)). split; [reflexivity|]. split; [split; assumption|]. split; [reflexivity|]. exact (SH2 eq_refl).
  - exists None. repeat split.
Qed.
End Final.

(** ** The second pass *)
Lemma s16_small : forall v, -32768 < v < 32768 -> s16 v = v.
Proof. intros v H. apply s16_abs; lia. Qed.
Lemma solve_trans : forall by_ bx bw4 bh4 mvy mvx s p, Spec.solve by_ bx bw4 bh4 mvy mvx s = Some p ->
  Spec.P0 p = Spec.Clip3 (- Spec.WARPEDMODEL_TRANS_CLAMP) (Spec.WARPEDMODEL_TRANS_CLAMP - 1)
    (mvx * 2 ^ (Spec.WARPEDMODEL_PREC_BITS - 3) - (Spec.midX bx bw4 * (Spec.P2 p - 2 ^ Spec.WARPEDMODEL_PREC_BITS) + Spec.midY by_ bh4 * Spec.P3 p)) /\
  Spec.P1 p = Spec.Clip3 (- Spec.WARPEDMODEL_TRANS_CLAMP) (Spec.WARPEDMODEL_TRANS_CLAMP - 1)
    (mvy * 2 ^ (Spec.WARPEDMODEL_PREC_BITS - 3) - (Spec.midX bx bw4 * Spec.P4 p + Spec.midY by_ bh4 * (Spec.P5 p - 2 ^ Spec.WARPEDMODEL_PREC_BITS))).
Proof.
  intros by_ bx bw4 bh4 mvy mvx s p E. unfold Spec.solve in E. destruct (_ =? 0); [discriminate E|]. destruct (Spec.resolve_divisor _) as (sh, fa).
  match type of E with Some ?q = _ => assert (EP : p = q) by (injection E as <-; reflexivity) end. rewrite EP. split; reflexivity.
Qed.
Lemma second_pass_ok : forall bw4 bh4 mvx mvy bx by_ samples w, 1 <= bw4 <= 32 -> 1 <= bh4 <= 32 -> 0 <= bx < 16384 -> 0 <= by_ < 16384 -> -32768 <= mvx <= 32767 -> -32768 <= mvy <= 32767 ->
  warp_range w -> warp_matches w (Spec.local_warp (Spec.warp_estimation by_ bx bw4 bh4 mvy mvx samples)) ->
  exists b, store_matrix w = Ok b /\ load_matrix b bw4 bh4 mvx mvy bx by_ = Ok w.
Proof.
  intros bw4 bh4 mvx mvy bx by_ samples w BW BH BX BY MX MY R M. destruct w as [(m, sh)|]; [|eexists; split; reflexivity].
  destruct R as (MR & N). unfold Spec.local_warp in M. destruct (Spec.warp_estimation by_ bx bw4 bh4 mvy mvx samples) as [p|] eqn:EP; [|destruct M].
  destruct (Spec.warpValid (Spec.setup_shear p)) eqn:V; [|destruct M]. destruct M as (ET & S1 & S2 & S3 & S4). destruct (solve_trans _ _ _ _ _ _ _ _ EP) as (T0 & T1).
  pose proof MR as (R2 & R3 & R4 & R5). eexists. split; [reflexivity|]. unfold load_matrix. rewrite !s16_small by (first [exact (conj I I)|lia]).
  replace (m2 m - 65536 =? -32768) with false by (symmetry; apply Z.eqb_neq; lia). unfold set_affine_mv2d. cbn [m2 m3 m4 m5].
  replace (m2 m - 65536 + 65536) with (m2 m) by ring. replace (m5 m - 65536 + 65536) with (m5 m) by ring.
  rewrite (trans_ok bw4 bh4 mvx mvy bx by_ BW BH BX BY MX MY) by lia. cbn [obind]. rewrite <- ET in T0, T1. cbn [to_spec Spec.P0 Spec.P1 Spec.P2 Spec.P3 Spec.P4 Spec.P5] in T0, T1. rewrite <- T0, <- T1.
  replace {| m0 := m0 m; m1 := m1 m; m2 := m2 m; m3 := m3 m; m4 := m4 m; m5 := m5 m |} with m by (destruct m; reflexivity).
  destruct (shear_ok m MR) as (sh' & EG & SS). rewrite EG. cbn [obind]. rewrite ET in SS. destruct (SS V) as (A1 & A2 & A3 & A4). f_equal. f_equal. f_equal. destruct sh, sh'. cbn in *. congruence.
Qed.

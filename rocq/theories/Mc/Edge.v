(** emu_edge copies a block of the reference with coordinates clamped to it. *)
From Coq Require Import ZArith List Bool Lia.
From Verif Require Import Base.CInt Base.Lemmas Base.Loop Mc.Model.
From Verif Require Mc.Spec.
Import ListNotations.
Open Scope Z_scope.

Lemma fill_row : forall rows stride n (g : Z -> plane -> outcome Z) (u : Z -> Z) b o (d0 : plane), 0 <= b < rows -> 0 <= o -> 0 <= n -> o + n <= stride ->
  (forall i d, 0 <= i < n -> (forall Y X, ~ (Y = b /\ o <= X < o + n) -> d Y X = d0 Y X) -> g i d = Ok (u i)) ->
  exists d', for_ 0 n (fun i d => obind (g i d) (fun v => wr2 rows stride d b (o + i) v)) d0 = Ok d' /\
    (forall i, 0 <= i < n -> d' b (o + i) = Some (u i)) /\
    (forall Y X, ~ (Y = b /\ o <= X < o + n) -> d' Y X = d0 Y X).
Proof.
  intros rows stride n g u b o d0 Hb Ho Hn Hs H.
  match goal with |- exists d', for_ 0 n ?f d0 = _ /\ _ =>
    destruct (for_inv _ (fun k (d : plane) => (forall i, 0 <= i < k -> d b (o + i) = Some (u i)) /\ (forall Y X, ~ (Y = b /\ o <= X < o + k) -> d Y X = d0 Y X)) f 0 n d0 Hn) as (e & E & A & B) end.
  - split; [intros; lia|reflexivity].
  - intros k d Hk (A & B). rewrite (H k d Hk) by (intros Y X N; apply B; lia). cbn [obind]. rewrite wr2_ok by lia.
    eexists. split; [reflexivity|]. split.
    + intros i Hi. destruct (Z.eq_dec i k) as [->|]; [apply set2_same|]. rewrite set2_other by lia. apply A. lia.
    + intros Y X N. rewrite set2_other by lia. apply B. lia.
  - exists e. split; [exact E|]. split; assumption.
Qed.

Section Edge.
Variables (bw bh iw ih x y stride : Z) (ref : Z -> Z -> outcome Z) (S : Z -> Z -> Z).
Hypothesis Hbw : 1 <= bw <= stride.
Hypothesis Hbh : 1 <= bh <= emu_rows stride.
Hypothesis Hiw : 1 <= iw.
Hypothesis Hih : 1 <= ih.
Hypothesis HS : forall r c, 0 <= r < ih -> 0 <= c < iw -> ref r c = Ok (S r c).
Let V (j i : Z) : Z := S (Spec.Clip3 0 (ih - 1) (y + j)) (Spec.Clip3 0 (iw - 1) (x + i)).

Lemma clip_spec : forall lo hi v, iclip v lo hi = Spec.Clip3 lo hi v.
Proof. reflexivity. Qed.
(** One dimension: [n] positions from [p] on, with [s] available. *)
Definition ext_lo (p n : Z) : Z := iclip (- p) 0 (n - 1).
Definition ext_hi (p n s : Z) : Z := iclip (p + n - s) 0 (n - 1).
Lemma ext_facts : forall p n s, 1 <= n -> 1 <= s -> let lo := ext_lo p n in let hi := ext_hi p n s in
  0 <= lo /\ 0 <= hi /\ lo + hi < n /\
  (forall k, 0 <= k < n - lo - hi -> iclip p 0 (s - 1) + k = Spec.Clip3 0 (s - 1) (p + (lo + k)) /\ 0 <= iclip p 0 (s - 1) + k < s) /\
  (forall k, 0 <= k < lo -> Spec.Clip3 0 (s - 1) (p + k) = Spec.Clip3 0 (s - 1) (p + lo)) /\
  (forall k, n - hi <= k < n -> Spec.Clip3 0 (s - 1) (p + k) = Spec.Clip3 0 (s - 1) (p + (n - hi - 1))).
Proof.
  intros p n s Hn Hs. cbv zeta. unfold ext_lo, ext_hi, iclip, Spec.Clip3.
  destruct (Z.ltb_spec (- p) 0), (Z.ltb_spec (n - 1) (- p)), (Z.ltb_spec (p + n - s) 0), (Z.ltb_spec (n - 1) (p + n - s)),
    (Z.ltb_spec p 0), (Z.ltb_spec (s - 1) p); try lia;
  (split; [lia|]; split; [lia|]; split; [lia|]; split; [|split]; intros k Hk;
   repeat match goal with |- context [if ?a <? ?b then _ else _] => destruct (Z.ltb_spec a b) end; lia).
Qed.

Lemma emu_edge_ok : exists buf, emu_edge bw bh iw ih x y stride ref = Ok buf /\ forall j i, 0 <= j < bh -> 0 <= i < bw -> buf j i = Some (V j i).
Proof.
  unfold emu_edge. cbv zeta. fold (ext_lo x bw). fold (ext_hi x bw iw). fold (ext_lo y bh). fold (ext_hi y bh ih).
  destruct (ext_facts x bw iw ltac:(lia) Hiw) as (X1 & X2 & X3 & X4 & X5 & X6). destruct (ext_facts y bh ih ltac:(lia) Hih) as (Y1 & Y2 & Y3 & Y4 & Y5 & Y6).
  set (l := ext_lo x bw) in *. set (r := ext_hi x bw iw) in *. set (t := ext_lo y bh) in *. set (b := ext_hi y bh ih) in *.
  set (rows := emu_rows stride) in *. clearbody l r t b rows.
  destruct (Z.ltb_spec (l + r) bw) as [_|]; [|lia]. destruct (Z.ltb_spec (t + b) bh) as [_|]; [|lia].
  set (rx := iclip x 0 (iw - 1)) in *. set (ry := iclip y 0 (ih - 1)) in *. clearbody rx ry.
  (* the rows of the reference *)
  match goal with |- context [for_ 0 (bh - t - b) ?f plane0] =>
    destruct (for_inv _ (fun k (d : plane) => forall j i, t <= j < t + k -> 0 <= i < bw -> d j i = Some (V j i)) f 0 (bh - t - b) plane0 ltac:(lia)) as (d1 & E1 & A1) end.
  - intros; lia.
  - intros k d Hk HA. destruct (Y4 k ltac:(lia)) as (YE & YR).
    destruct (fill_row rows stride (bw - l - r) (fun i _ => ref (ry + k) (rx + i)) (fun i => V (t + k) (l + i)) (t + k) l d) as (d1 & E1 & A1 & B1); [lia|lia|lia|lia| |].
    { intros i e Hi _. destruct (X4 i ltac:(lia)) as (XE & XR). rewrite HS by lia. rewrite YE, XE. reflexivity. }
    rewrite E1. cbn [obind].
    assert (L : exists d2, (if negb (l =? 0) then obind (rd2 rows stride d1 (t + k) l) (fun v => for_ 0 l (fun i d => wr2 rows stride d (t + k) i v) d1) else Ok d1) = Ok d2 /\
      (forall i, 0 <= i < bw - r -> d2 (t + k) i = Some (V (t + k) i)) /\ (forall Y X, Y <> t + k -> d2 Y X = d1 Y X)).
    { destruct (Z.eqb_spec l 0) as [L0|L0]; cbn [negb].
      - exists d1. split; [reflexivity|]. split; [|reflexivity]. intros i Hi. specialize (A1 (i - l) ltac:(lia)). replace (l + (i - l)) with i in A1 by lia. exact A1.
      - rewrite (rd2_ok rows stride d1 (t + k) l (V (t + k) l)); [|lia|lia|specialize (A1 0 ltac:(lia)); rewrite Z.add_0_r in A1; exact A1]. cbn [obind].
        destruct (fill_row rows stride l (fun _ _ => Ok (V (t + k) l)) (fun i => V (t + k) i) (t + k) 0 d1) as (d2 & E2 & A2 & B2); [lia|lia|lia|lia| |].
        { intros i e Hi _. f_equal. unfold V. rewrite (X5 i) by lia. reflexivity. }
        exists d2. split; [exact E2|]. split; [|intros Y X N; apply B2; lia]. intros i Hi. destruct (Z.lt_ge_cases i l).
        + apply (A2 i). lia.
        + rewrite B2 by lia. specialize (A1 (i - l) ltac:(lia)). replace (l + (i - l)) with i in A1 by lia. exact A1. }
    destruct L as (d2 & E2 & A2 & B2). rewrite E2. cbn [obind].
    assert (R : exists d3, (if negb (r =? 0) then obind (rd2 rows stride d2 (t + k) (l + (bw - l - r) - 1)) (fun v => for_ 0 r (fun i d => wr2 rows stride d (t + k) (l + (bw - l - r) + i) v) d2) else Ok d2) = Ok d3 /\
      (forall i, 0 <= i < bw -> d3 (t + k) i = Some (V (t + k) i)) /\ (forall Y X, Y <> t + k -> d3 Y X = d2 Y X)).
    { destruct (Z.eqb_spec r 0) as [R0|R0]; cbn [negb].
      - exists d2. split; [reflexivity|]. split; [|reflexivity]. intros i Hi. apply A2. lia.
      - replace (l + (bw - l - r)) with (bw - r) by lia.
        rewrite (rd2_ok rows stride d2 (t + k) (bw - r - 1) (V (t + k) (bw - r - 1))); [|lia|lia|apply A2; lia]. cbn [obind].
        destruct (fill_row rows stride r (fun _ _ => Ok (V (t + k) (bw - r - 1))) (fun i => V (t + k) (bw - r + i)) (t + k) (bw - r) d2) as (d3 & E3 & A3 & B3); [lia|lia|lia|lia| |].
        { intros i e Hi _. f_equal. unfold V. rewrite (X6 (bw - r + i)) by lia. reflexivity. }
        exists d3. split; [exact E3|]. split; [|intros Y X N; apply B3; lia]. intros i Hi. destruct (Z.lt_ge_cases i (bw - r)).
        + rewrite B3 by lia. apply A2. lia.
        + specialize (A3 (i - (bw - r)) ltac:(lia)). replace (bw - r + (i - (bw - r))) with i in A3 by lia. exact A3. }
    destruct R as (d3 & E3 & A3 & B3). exists d3. split; [exact E3|].
    intros j i Hj Hi. destruct (Z.eq_dec j (t + k)) as [->|N]; [apply A3; exact Hi|]. rewrite B3, B2 by exact N. rewrite B1 by lia. apply HA; lia.
  - rewrite E1. cbn [obind]. clear E1 X4 X5 X6 HS.
    (* the rows above *)
    match goal with |- context [for_ 0 t ?f d1] =>
      destruct (for_inv _ (fun k (d : plane) => (forall j i, 0 <= j < k -> 0 <= i < bw -> d j i = Some (V j i)) /\ (forall j i, t <= j -> d j i = d1 j i)) f 0 t d1 ltac:(lia)) as (d2 & E2 & A2 & B2) end.
    + split; [intros; lia|reflexivity].
    + intros k d Hk (HA & HB).
      destruct (fill_row rows stride bw (fun i d => rd2 rows stride d t i) (fun i => V k i) k 0 d) as (d2 & E2 & A2 & B2); [lia|lia|lia|lia| |].
      { intros i e Hi HE. apply rd2_ok; [lia|lia|]. rewrite HE by lia. rewrite HB by lia. rewrite A1 by lia. f_equal. unfold V. rewrite (Y5 k) by lia. reflexivity. }
      exists d2. split; [exact E2|]. split.
      * intros j i Hj Hi. destruct (Z.eq_dec j k) as [->|N]; [apply (A2 i Hi)|]. rewrite B2 by lia. apply HA; lia.
      * intros j i Hj. rewrite B2 by lia. apply HB. exact Hj.
    + rewrite E2. cbn [obind]. clear E2.
      (* the rows below *)
      match goal with |- exists buf, for_ 0 b ?f d2 = _ /\ _ =>
        destruct (for_inv _ (fun k (d : plane) => forall j i, 0 <= j < bh - b + k -> 0 <= i < bw -> d j i = Some (V j i)) f 0 b d2 ltac:(lia)) as (d3 & E3 & A3) end.
      * intros j i Hj Hi. destruct (Z.lt_ge_cases j t); [apply A2; lia|]. rewrite B2 by lia. apply A1; lia.
      * intros k d Hk HA.
        destruct (fill_row rows stride bw (fun i d => rd2 rows stride d (t + (bh - t - b) + k - 1) i) (fun i => V (bh - b + k) i) (t + (bh - t - b) + k) 0 d) as (d4 & E4 & A4 & B4); [lia|lia|lia|lia| |].
        { intros i e Hi HE. apply rd2_ok; [lia|lia|]. rewrite HE by lia. rewrite HA by lia. f_equal. unfold V.
          rewrite (Y6 (bh - b + k)) by lia. destruct (Z.eq_dec k 0) as [->|N]; [f_equal; f_equal; lia|]. rewrite (Y6 (t + (bh - t - b) + k - 1)) by lia. reflexivity. }
        exists d4. split; [exact E4|]. intros j i Hj Hi. destruct (Z.eq_dec j (t + (bh - t - b) + k)) as [->|N].
        -- specialize (A4 i Hi). replace (t + (bh - t - b) + k) with (bh - b + k) in * by lia. exact A4.
        -- rewrite B4 by lia. apply HA; lia.
      * exists d3. split; [exact E3|]. intros j i Hj Hi. apply A3; lia.
Qed.
End Edge.

(** C52: the deblocking filter. The limits and levels that src/lf_mask.c computes are those of the AV1 specification
    (7.14.4, 7.14.5), and filtering the vertical and the horizontal edges of a superblock row (src/lf_apply_tmpl.c,
    src/loopfilter_tmpl.c) does to every line of samples what its edge loop and sample filters (7.14.1, 7.14.2, 7.14.6) do. *)
From Coq Require Import ZArith List Bool Lia.
From Verif Require Import Base.CInt Base.Loop Mc.Kernel Lf.Model Lf.Line Lf.Strip Lf.Frame Lf.Sbrow Lf.Levels Lf.Deblock.
From Verif Require Lf.Spec.
Import ListNotations.
Open Scope Z_scope.
Local Open Scope outcome_scope.

(** * Strength *)
(** The tables e and i of dav1d_calc_eih hold blimit and limit of every level. *)
Theorem C52_limits : forall sharp t0, 0 <= sharp <= 7 -> exists t, calc_eih sharp t0 = Ok t /\
  forall L, 0 <= L < 64 -> rd1 64 (fst t) L = Ok (Spec.blimit sharp L) /\ rd1 64 (snd t) L = Ok (Spec.limit sharp L).
Proof. exact eih_ok. Qed.

(** The levels of dav1d_calc_lf_values: for every segment, direction or plane, reference and mode type. A plane that
    is not filtered has level 0, with which no sample changes. *)
Theorem C52_levels : forall h H DeltaLF v, same_header h H -> exists v', calc_lf_values h DeltaLF v = Ok v' /\
  forall s i r m, 0 <= s < (if seg_enabled h then 8 else 1) -> 0 <= i < 4 -> 0 <= r < 8 -> 0 <= m < 2 ->
    v' s i r m = Some (if Spec.filtered H i then Spec.level H DeltaLF i s r m else 0).
Proof. exact levels_ok. Qed.
Theorem C52_level_zero : forall bd plane sharp fs line pos x, Spec.edge_filter bd plane sharp fs 0 0 line pos x = line x.
Proof. reflexivity. Qed.

(** * Four lines *)
(** loop_filter at an edge before sample [b] of lines [a0] to [a0 + 3], which are rows when [hor] and columns otherwise. *)
Theorem C52_edge : forall bd rows cols (hor : bool) pl sharp fs lvl a0 b d v, depth bd -> 0 <= sharp <= 7 -> fsize pl fs -> 0 <= lvl < 64 ->
  holds bd rows cols d v -> 0 <= a0 -> a0 + 4 <= (if hor then rows else cols) -> reach pl fs <= b -> b + reach pl fs <= (if hor then cols else rows) ->
  exists d', loop_filter bd rows cols hor (Spec.blimit sharp lvl) (Spec.limit sharp lvl) (Spec.thresh lvl) (width pl fs) (if hor then a0 else b) (if hor then b else a0) d = Ok d' /\
    holds bd rows cols d' (fun y x => let a := if hor then y else x in
      if (a0 <=? a) && (a <? a0 + 4) then Spec.sample_filter bd pl fs sharp lvl (fun i => if hor then v y (b + i) else v (b + i) x) ((if hor then x else y) - b) else v y x).
Proof.
  intros bd rows cols hor pl sharp fs lvl a0 b d v Hd Hs Hf Hl G H1 H2 H3 H4. destruct hor.
  - apply good_h in G. destruct (four_ok bd rows cols true pl sharp Hd Hs fs lvl a0 b d v Hf Hl G H1 H2 H3 H4) as (d' & E & G'). exists d'. split; [exact E|]. apply good_h in G'.
    intros y x Hy Hx. specialize (G' y x Hy Hx). cbv beta zeta in *. destruct ((a0 <=? y) && (y <? a0 + 4)); exact G'.
  - apply good_v in G. destruct (four_ok bd rows cols false pl sharp Hd Hs fs lvl a0 b d _ Hf Hl G H1 H2 H3 H4) as (d' & E & G'). exists d'. split; [exact E|]. apply good_v.
    apply (good_ext bd rows cols false d' _ _ G'). intros x y Hx Hy. cbv beta zeta. destruct ((a0 <=? x) && (x <? a0 + 4)); reflexivity.
Qed.

(** * A superblock row *)
(** A frame of [w4] x [h4] luma units of four samples, a superblock row [sby] inside of it; [L] are the levels. The
    plane has subsampling [ssv], [ssh]; [W] x [H] units. The superblock row is rows [row0] to [row1] of units.
    [filter] holds the masks of each 128x128 block; [Ecol] and [Erow] read the sizes of the edges from them:
    a bit in the mask of index 0, 1 or 2 is an edge of size 4, 8 or 16. *)
Section Row.
Variables (bd rows cols sharp : Z) (t0 t : lut) (lev : levels) (L : Z -> Z -> Z) (w4 h4 sby : Z) (sb128 : bool) (filter : Z -> masks).
Hypothesis Hd : depth bd.
Hypothesis Hs : 0 <= sharp <= 7.
Hypothesis Ht : calc_eih sharp t0 = Ok t.
Hypothesis Hw4 : 0 < w4.
Hypothesis Hby : 0 <= sby.
Hypothesis Hin : sby * size_sb sb128 < h4.
Lemma tables : lut_ok sharp t.
Proof. destruct (eih_ok sharp t0 Hs) as (t' & E & G). rewrite Ht in E. injection E as <-. exact G. Qed.
Notation n128 := ((w4 + 31) / 32).

Section Plane.
Variables (pl i ssv ssh : Z).
Hypothesis Hv : ssv = 0 \/ ssv = 1.
Hypothesis Hh : ssh = 0 \/ ssh = 1.
Notation W := ((w4 + ssh) / 2 ^ ssh). Notation H := ((h4 + ssv) / 2 ^ ssv).
Notation R0 := (row0 sby sb128 ssv). Notation R1 := (row1 h4 sby sb128 ssv).
Notation hv := (half ssv). Notation hh := (half ssh).
Notation Ecol := (Ecol pl hv hh filter).
Notation Erow := (Erow pl hv hh filter).
(** The levels of the plane, and masks without edges outside the frame or with filters that reach outside *)
Definition plane_ok : Prop := 4 * H <= rows /\ 4 * W <= cols /\
  forall r c, 0 <= r < H -> 0 <= c < W -> lev r c i = Ok (L r c) /\ 0 <= L r c < 64.
Definition cols_masks : Prop :=
  (forall X x j s, 0 <= X < n128 -> 0 <= x < 32 -> 0 <= j < (if negb (pl =? 0) then 2 else 3) -> 0 <= s < 2 -> 0 <= filter X x j s < 2 ^ hv) /\
  (forall r c, r / (2 * hv) = R0 / (2 * hv) -> H <= r -> 0 <= c < W -> Ecol r c = None) /\
  (forall r c fs, R0 <= r < R1 -> 0 < c < W -> Ecol r c = Some fs -> reach pl fs <= 4 * c /\ 4 * c + reach pl fs <= cols).
Definition rows_masks : Prop :=
  (forall X x j s, 0 <= X < n128 -> 0 <= x < 32 -> 0 <= j < (if negb (pl =? 0) then 2 else 3) -> 0 <= s < 2 -> 0 <= filter X x j s < 2 ^ hh) /\
  (forall r c, R0 <= r < R1 -> W <= c < 2 * hh * n128 -> Erow c r = None) /\
  (forall r c fs, R0 <= r < R1 -> 0 < r -> 0 <= c < W -> Erow c r = Some fs -> reach pl fs <= 4 * r /\ 4 * r + reach pl fs <= rows).
(** What the passes do to samples [v]: vertical edges in the rows of the superblock row, then horizontal edges *)
Definition cols_result (v : Z -> Z -> Z) (y : Z) : Z -> Z :=
  if (R0 <=? y / 4) && (y / 4 <? R1) then Spec.filter_line bd pl sharp (Ecol (y / 4)) (L (y / 4)) 0 W (v y) else v y.
Definition rows_result (v : Z -> Z -> Z) (y x : Z) : Z :=
  if x / 4 <? W then Spec.filter_line bd pl sharp (Erow (x / 4)) (fun r => L r (x / 4)) R0 R1 (fun y => v y x) y else v y x.
Lemma cols_done : plane_ok -> cols_masks -> forall d v, holds bd rows cols d v -> exists d', pass_cols bd rows cols pl t lev i w4 h4 sby sb128 ssv ssh filter d = Ok d' /\ holds bd rows cols d' (cols_result v).
Proof.
  intros (P1 & P2 & P3) (M1 & M2 & M3) d v G.
  exact (pass_cols_ok bd rows cols pl sharp t lev i L w4 h4 sby sb128 ssv ssh filter Hd Hs tables Hv Hh Hw4 Hby Hin P1 P3 (fun X HX x j s => M1 X x j s HX) M2 M3 d v G).
Qed.
Lemma rows_done : plane_ok -> rows_masks -> forall d v, holds bd rows cols d v -> exists d', pass_rows bd rows cols pl t lev i w4 h4 sby sb128 ssv ssh filter d = Ok d' /\ holds bd rows cols d' (rows_result v).
Proof.
  intros (P1 & P2 & P3) (M1 & M2 & M3) d v G.
  exact (pass_rows_ok bd rows cols pl sharp t lev i L w4 h4 sby sb128 ssv ssh filter Hd Hs tables Hv Hh Hw4 Hby Hin P2 P3 (fun X HX x j s => M1 X x j s HX) M2 M3 d v G).
Qed.
End Plane.

(** Luma: vertical edges use level 0, horizontal edges level 1. *)
Theorem C52_luma_cols : plane_ok 0 0 0 -> cols_masks 0 0 0 -> forall d v, holds bd rows cols d v ->
  exists d', sbrow_cols_y bd rows cols t lev w4 h4 n128 sby sb128 filter (4 * row0 sby sb128 0) d = Ok d' /\ holds bd rows cols d' (cols_result 0 0 0 v).
Proof. intros P M d v G. rewrite cols_y_pass. exact (cols_done 0 0 0 0 zero_ss zero_ss P M d v G). Qed.
Theorem C52_luma_rows : plane_ok 1 0 0 -> rows_masks 0 0 0 -> forall d v, holds bd rows cols d v ->
  exists d', sbrow_rows_y bd rows cols t lev h4 n128 sby sb128 filter (4 * row0 sby sb128 0) d = Ok d' /\ holds bd rows cols d' (rows_result 0 0 0 v).
Proof. intros P M d v G. rewrite rows_y_pass. exact (rows_done 0 1 0 0 zero_ss zero_ss P M d v G). Qed.

(** Chroma: plane [pl] is 1 or 2 and uses level [1 + pl] for both directions. *)
Theorem C52_chroma_cols : forall pl ssv ssh, pl = 1 \/ pl = 2 -> ssv = 0 \/ ssv = 1 -> ssh = 0 \/ ssh = 1 -> plane_ok (1 + pl) ssv ssh -> cols_masks pl ssv ssh -> forall d v, holds bd rows cols d v ->
  exists d', sbrow_cols_uv bd rows cols t lev w4 h4 n128 sby sb128 ssv ssh (1 + pl) filter (4 * row0 sby sb128 ssv) d = Ok d' /\ holds bd rows cols d' (cols_result pl ssv ssh v).
Proof. intros pl ssv ssh Hp Hv Hh P M d v G. rewrite (cols_uv_pass bd rows cols t lev w4 h4 sby sb128 filter pl) by (try assumption; lia). exact (cols_done pl (1 + pl) ssv ssh Hv Hh P M d v G). Qed.
Theorem C52_chroma_rows : forall pl ssv ssh, pl = 1 \/ pl = 2 -> ssv = 0 \/ ssv = 1 -> ssh = 0 \/ ssh = 1 -> plane_ok (1 + pl) ssv ssh -> rows_masks pl ssv ssh -> forall d v, holds bd rows cols d v ->
  exists d', sbrow_rows_uv bd rows cols t lev h4 n128 sby sb128 ssv ssh (1 + pl) filter (4 * row0 sby sb128 ssv) d = Ok d' /\ holds bd rows cols d' (rows_result pl ssv ssh v).
Proof. intros pl ssv ssh Hp Hv Hh P M d v G. rewrite (rows_uv_pass bd rows cols t lev w4 h4 sby sb128 filter pl) by (try assumption; lia). exact (rows_done pl (1 + pl) ssv ssh Hv Hh P M d v G). Qed.
End Row.

(** * Examples *)
(** An 8x8 frame with an edge of size 8 between two halves of different brightness *)
Definition ex_mask : Z -> masks := fun _ x j s => if (x =? 1) && (j =? 1) && (s =? 0) then 3 else 0.
Definition ex_lut : outcome lut := calc_eih 0 (fun _ => None, fun _ => None).
Definition ex_plane : plane := fun y x => if (0 <=? y) && (y <? 8) && (0 <=? x) && (x <? 8) then Some (if x <? 4 then 100 else 108) else None.
Definition ex_row (y : Z) : outcome (list (option Z)) :=
  let! t := ex_lut in let! d := sbrow_cols_y 8 8 8 t (fun _ _ _ => Ok 32) 2 2 1 0 false ex_mask 0 ex_plane in Ok (map (fun x => d y (Z.of_nat x)) (seq 0 8)).
Example C52_filtered : ex_row 3 = Ok (map Some [100; 101; 102; 103; 105; 106; 107; 108]).
Proof. vm_compute. reflexivity. Qed.
Example C52_masks_possible : cols_masks 8 2 2 0 false ex_mask 0 0 0.
Proof.
  unfold cols_masks. split; [|split].
  - intros X x j s _ _ _ _. unfold ex_mask. change (2 ^ half 0) with 65536. destruct ((x =? 1) && (j =? 1) && (s =? 0)); lia.
  - intros r c Hr H2 Hc. change (half 0) with 16 in *. change ((2 + 0) / 2 ^ 0) with 2 in *. change (row0 0 false 0 / (2 * 16)) with 0 in Hr. unfold Ecol. change (2 * 16) with 32 in *. assert (r mod 32 = r) by (rewrite Z.mod_eq, Hr by lia; lia). assert (0 <= r < 32) by (pose proof (Z.div_mod r 32 ltac:(lia)); pose proof (Z.mod_pos_bound r 32 ltac:(lia)); lia).
    rewrite H, (Z.mod_small c 32) by lia. unfold edge, sz, ex_mask. change (2 =? 1) with false. change (0 =? 1) with false. change (1 =? 1) with true. rewrite !andb_false_r, !andb_true_r. cbn [andb negb Z.eqb]. rewrite !Z.bits_0. cbn [andb].
    destruct (Z.eqb_spec c 1); cbn [andb]; [|rewrite Z.bits_0; reflexivity]. destruct (Z.eqb_spec (r / 16) 0) as [E|E]; [|rewrite Z.bits_0; reflexivity].
    assert (r mod 16 = r) by (rewrite Z.mod_eq, E by lia; lia). rewrite H1. rewrite Z.bits_above_log2; [reflexivity|lia|change (Z.log2 3) with 1; lia].
  - intros r c fs Hr Hc E. assert (c = 1) by (change ((2 + 0) / 2 ^ 0) with 2 in Hc; lia). subst c.
    unfold Ecol, edge, sz, ex_mask in E. change (1 mod (2 * half 0) =? 1) with true in E. change (2 =? 1) with false in E. change (0 =? 1) with false in E. change (1 =? 1) with true in E. cbn [andb negb Z.eqb] in E. rewrite !Z.bits_0 in E. cbn [andb] in E.
    destruct (Z.testbit _ _); [|discriminate E]. injection E as <-. vm_compute. split; discriminate.
Qed.
Definition ex_hdr : hdr := {| level_y := fun i => 20 + i; level_u := 0; level_v := 31; mode_ref_delta_enabled := true;
  ref_delta := fun r => nth (Z.to_nat r) [1; 0; 0; 0; -1; 0; -1; -1] 0; mode_delta := fun _ => 0; seg_enabled := false;
  delta_lf_y_v := fun _ => 0; delta_lf_y_h := fun _ => 0; delta_lf_u := fun _ => 0; delta_lf_v := fun _ => 0; lf_multi := false |}.
Example C52_header_possible : exists H, same_header ex_hdr H.
Proof.
  exists {| Spec.loop_filter_level := fun i => nth (Z.to_nat i) [20; 21; 0; 31] 0; Spec.delta_lf_multi := false; Spec.segmentation_enabled := false; Spec.FeatureEnabled := fun _ _ => false;
    Spec.FeatureData := fun _ _ => 0; Spec.loop_filter_delta_enabled := true; Spec.loop_filter_ref_deltas := ref_delta ex_hdr; Spec.loop_filter_mode_deltas := fun _ => 0 |}.
  repeat split.
Qed.
Example C52_levels_computed : (let! v := calc_lf_values ex_hdr (fun _ => 3) (fun _ _ _ _ => None) in Ok [v 0 0 0 0; v 0 1 0 1; v 0 2 0 0; v 0 3 0 0; v 0 3 4 1]) = Ok (map Some [24; 25; 0; 36; 32]).
Proof. vm_compute. reflexivity. Qed.

Print Assumptions C52_levels.
Print Assumptions C52_edge.
Print Assumptions C52_luma_cols.
Print Assumptions C52_luma_rows.
Print Assumptions C52_chroma_cols.
Print Assumptions C52_chroma_rows.

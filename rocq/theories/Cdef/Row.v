(** A row of blocks. *)
From Coq Require Import ZArith List Bool Lia.
From Verif Require Import Base.CInt Base.Lemmas Base.Loop Cdef.Model Cdef.Pixel Cdef.Block Cdef.Dir.
From Verif Require Cdef.Spec.
Module S := Cdef.Spec.
Import ListNotations.
Open Scope Z_scope.

(** Planes of the frame. *)
Definition plok (c : config) (pl : Z) : Prop := pl = 0 \/ (c_mono c = false /\ (pl = 1 \/ pl = 2)).
(** Block sizes in plane [pl]. *)
Definition bsx (c : config) (pl : Z) : Z := shift_x c pl 8.
Definition bsy (c : config) (pl : Z) : Z := shift_y c pl 8.
(** The byte in the frame header: primary strength, and secondary strength with 3 for 4. *)
Definition level (l pri sec : Z) : Prop :=
  0 <= pri < 16 /\ (sec = 0 \/ sec = 1 \/ sec = 2 \/ sec = 4) /\ l = 4 * pri + (if sec =? 4 then 3 else sec).

(** The frame context is that of the frame of the specification. *)
Record setup (v : S.frame) (c : config) (Cur : S.picture) : Prop := {
  su_depth : depth (S.BitDepth v);
  su_bd : c_bd c = S.BitDepth v;
  su_ssx : c_ssx c = S.subX v; su_ssy : c_ssy c = S.subY v;
  su_sub : bit01 (S.subX v) /\ bit01 (S.subY v) /\ (S.subX v = 0 -> S.subY v = 0);
  su_bw : c_bw c = S.MiCols v; su_bh : c_bh c = S.MiRows v;
  su_cols : S.MiCols v = 2 * (S.MiCols v / 2) /\ 0 < S.MiCols v;
  su_rows : S.MiRows v = 2 * (S.MiRows v / 2) /\ 0 < S.MiRows v;
  su_sb64w : S.MiCols v <= 16 * c_sb64w c;
  su_damping : c_damping c = S.CdefDamping v /\ 3 <= S.CdefDamping v <= 6;
  su_y : forall i, 0 <= i < 8 -> exists l, rd_at (c_y_str c) i = Ok l /\ level l (S.cdef_y_pri_strength v i) (S.cdef_y_sec_strength v i);
  su_uv : forall i, 0 <= i < 8 -> exists l, rd_at (c_uv_str c) i = Ok l /\ level l (S.cdef_uv_pri_strength v i) (S.cdef_uv_sec_strength v i);
  su_mono : c_mono c = true -> forall i, 0 <= i < 8 -> S.cdef_uv_pri_strength v i = 0 /\ S.cdef_uv_sec_strength v i = 0;
  su_alloc : forall pl, plok c pl -> shift_y c pl (4 * S.MiRows v) <= c_rows c pl /\ shift_x c pl (4 * S.MiCols v) <= c_stride c pl;
  su_pixels : forall pl y x, plok c pl -> 0 <= y < shift_y c pl (4 * S.MiRows v) -> 0 <= x < shift_x c pl (4 * S.MiCols v) -> 0 <= Cur pl y x < 2 ^ S.BitDepth v }.
(** The masks of the row of superblocks with the rows of 4x4 blocks [by_] and [by_] + 1. *)
Record masks_ok (v : S.frame) (c : config) (m : masks) (by_ : Z) : Prop := {
  mo_idx : forall sbx, 0 <= sbx < c_sb64w c -> -1 <= m_idx m (sbx / 2) (2 * ((by_ / 16) mod 2) + sbx mod 2) < 8 /\
    (16 * sbx < S.MiCols v -> m_idx m (sbx / 2) (2 * ((by_ / 16) mod 2) + sbx mod 2) = S.cdef_idx v (by_ / 16) sbx);
  mo_range : forall i k, 0 <= k < 2 -> 0 <= m_noskip m i ((by_ mod 32) / 2) k < 2 ^ 16;
  mo_noskip : forall bx, 0 <= bx < S.MiCols v ->
    Z.testbit (m_noskip m (bx / 32) ((by_ mod 32) / 2) ((bx / 16) mod 2)) (bx mod 16) = negb (S.Skips v by_ bx && S.Skips v (by_ + 1) bx) }.

Lemma set_at_same : forall A (f : Z -> A) i a, set_at f i a i = a.
Proof. intros. unfold set_at. rewrite Z.eqb_refl. reflexivity. Qed.
Lemma set_at_other : forall A (f : Z -> A) i j a, j <> i -> set_at f i a j = f j.
Proof. intros. unfold set_at. destruct (Z.eqb_spec j i); [contradiction|reflexivity]. Qed.
Lemma set_bat_same : forall A (f : bool -> A) i a, set_bat f i a i = a.
Proof. intros. unfold set_bat. destruct i; reflexivity. Qed.
Lemma set_bat_neg : forall A (f : bool -> A) i a, set_bat f (negb i) a i = f i.
Proof. intros. unfold set_bat. destruct i; reflexivity. Qed.

Section Frame.
Variable v : S.frame.
Variable Cur : S.picture.
Variable c : config.
Hypothesis SU : setup v c Cur.
Notation Out := (S.CdefFrame v Cur).
Notation bd := (S.BitDepth v).
Definition KX : Z := S.MiCols v / 2.
Definition KY : Z := S.MiRows v / 2.

(** * Geometry *)
Lemma psub_x : forall pl, bit01 (S.psubX v pl).
Proof. intros pl. unfold S.psubX. destruct (pl =? 0); [left; reflexivity|apply (su_sub _ _ _ SU)]. Qed.
Lemma psub_y : forall pl, bit01 (S.psubY v pl).
Proof. intros pl. unfold S.psubY. destruct (pl =? 0); [left; reflexivity|apply (su_sub _ _ _ SU)]. Qed.
Lemma shift_x_eq : forall pl a, shift_x c pl a = a / 2 ^ S.psubX v pl.
Proof.
  intros pl a. unfold shift_x, S.psubX. rewrite (su_ssx _ _ _ SU). destruct (pl =? 0); [rewrite Z.div_1_r; reflexivity|].
  apply Z.shiftr_div_pow2. destruct (su_sub _ _ _ SU) as ([E|E] & _); rewrite E; lia.
Qed.
Lemma shift_y_eq : forall pl a, shift_y c pl a = a / 2 ^ S.psubY v pl.
Proof.
  intros pl a. unfold shift_y, S.psubY. rewrite (su_ssy _ _ _ SU). destruct (pl =? 0); [rewrite Z.div_1_r; reflexivity|].
  apply Z.shiftr_div_pow2. destruct (su_sub _ _ _ SU) as (_ & [E|E] & _); rewrite E; lia.
Qed.
Lemma bsx_size : forall pl, size48 (bsx c pl) /\ bsx c pl * 2 ^ S.psubX v pl = 8.
Proof. intros pl. unfold bsx. rewrite shift_x_eq. destruct (psub_x pl) as [E|E]; rewrite E; (split; [|reflexivity]); [right|left]; reflexivity. Qed.
Lemma bsy_size : forall pl, size48 (bsy c pl) /\ bsy c pl * 2 ^ S.psubY v pl = 8.
Proof. intros pl. unfold bsy. rewrite shift_y_eq. destruct (psub_y pl) as [E|E]; rewrite E; (split; [|reflexivity]); [right|left]; reflexivity. Qed.
Lemma x_at : forall pl k, shift_x c pl (2 * k * 4) = bsx c pl * k.
Proof.
  intros pl k. destruct (bsx_size pl) as (_ & E). rewrite shift_x_eq. destruct (psub_x pl) as [F|F]; rewrite F in *;
    [change (2 ^ 0) with 1 in *|change (2 ^ 1) with 2 in *]; Z.div_mod_to_equations; nia.
Qed.
Lemma y_at : forall pl k, shift_y c pl (2 * k * 4) = bsy c pl * k.
Proof.
  intros pl k. destruct (bsy_size pl) as (_ & E). rewrite shift_y_eq. destruct (psub_y pl) as [F|F]; rewrite F in *;
    [change (2 ^ 0) with 1 in *|change (2 ^ 1) with 2 in *]; Z.div_mod_to_equations; nia.
Qed.
Lemma width_eq : forall pl, shift_x c pl (4 * S.MiCols v) = bsx c pl * KX.
Proof. intros pl. rewrite <- x_at. f_equal. unfold KX. pose proof (su_cols _ _ _ SU). lia. Qed.
Lemma height_eq : forall pl, shift_y c pl (4 * S.MiRows v) = bsy c pl * KY.
Proof. intros pl. rewrite <- y_at. f_equal. unfold KY. pose proof (su_rows _ _ _ SU). lia. Qed.
Lemma placed_mul : forall s k K, size48 s -> 0 <= k < K -> placed (s * k) s (s * K).
Proof. intros s k K [->| ->] H; unfold placed; lia. Qed.
Lemma pixels : forall pl y x, plok c pl -> 0 <= y < bsy c pl * KY -> 0 <= x < bsx c pl * KX -> 0 <= Cur pl y x < 2 ^ bd.
Proof. intros pl y x HP Hy Hx. apply (su_pixels _ _ _ SU pl y x HP); [rewrite height_eq; exact Hy|rewrite width_eq; exact Hx]. Qed.
Lemma inside_pl : forall pl y x, S.is_inside_filter_region v ((y * 2 ^ S.psubY v pl) / 4) ((x * 2 ^ S.psubX v pl) / 4) = true <-> 0 <= y < bsy c pl * KY /\ 0 <= x < bsx c pl * KX.
Proof.
  intros pl y x. apply (inside_iff v pl); [apply psub_y|apply psub_x| |].
  - destruct (bsy_size pl) as (_ & E). pose proof (su_rows _ _ _ SU). fold KY in *. nia.
  - destruct (bsx_size pl) as (_ & E). pose proof (su_cols _ _ _ SU). fold KX in *. nia.
Qed.

(** * The result on a block *)
Notation lvl_y idx := (S.cdef_y_pri_strength v idx) (only parsing).
Definition skipped (kr k : Z) : bool :=
  S.Skips v (2 * kr) (2 * k) && S.Skips v (2 * kr + 1) (2 * k) && S.Skips v (2 * kr) (2 * k + 1) && S.Skips v (2 * kr + 1) (2 * k + 1).
Definition idx_at (kr k : Z) : Z := S.cdef_idx v (2 * kr / 16) (2 * k / 16).
(** Rows of the blocks [kr], columns of the blocks [k]. *)
Definition in_row (pl kr Y : Z) : Prop := bsy c pl * kr <= Y < bsy c pl * (kr + 1).
Definition in_col (pl k X : Z) : Prop := bsx c pl * k <= X < bsx c pl * (k + 1).
Lemma out_block : forall pl kr k Y X, in_row pl kr Y -> in_col pl k X -> Out pl Y X = S.block_pixel v Cur pl Y X (2 * kr) (2 * k).
Proof.
  intros pl kr k Y X HY HX. unfold S.CdefFrame. cbv zeta. unfold in_row, in_col in *.
  assert (E1 : Y * 2 ^ S.psubY v pl / 8 = kr).
  { destruct (bsy_size pl) as (_ & E). set (b := bsy c pl) in *. clearbody b. destruct (psub_y pl) as [F|F]; rewrite F in *; [change (2 ^ 0) with 1 in *|change (2 ^ 1) with 2 in *];
      Z.div_mod_to_equations; nia. }
  assert (E2 : X * 2 ^ S.psubX v pl / 8 = k).
  { destruct (bsx_size pl) as (_ & E). set (b := bsx c pl) in *. clearbody b. destruct (psub_x pl) as [F|F]; rewrite F in *; [change (2 ^ 0) with 1 in *|change (2 ^ 1) with 2 in *];
      Z.div_mod_to_equations; nia. }
  rewrite E1, E2. reflexivity.
Qed.
Lemma skipped_eq : forall kr k, (S.Skips v (2 * kr) (2 * k) && S.Skips v (2 * kr + 1) (2 * k) && S.Skips v (2 * kr) (2 * k + 1) && S.Skips v (2 * kr + 1) (2 * k + 1)) = skipped kr k.
Proof. reflexivity. Qed.
Lemma out_skip : forall pl kr k Y X, in_row pl kr Y -> in_col pl k X -> idx_at kr k = -1 \/ skipped kr k = true -> Out pl Y X = Cur pl Y X.
Proof.
  intros pl kr k Y X HY HX H. rewrite (out_block pl kr k Y X HY HX). unfold S.block_pixel. cbv zeta. fold (idx_at kr k). rewrite skipped_eq.
  replace ((idx_at kr k =? -1) || skipped kr k) with true; [reflexivity|]. destruct H as [H|H]; rewrite H; [reflexivity|rewrite orb_true_r; reflexivity].
Qed.
(** The strengths and the direction of a block. *)
Definition dirvar (kr k : Z) : Z * Z := S.direction v Cur (2 * kr) (2 * k).
Definition y_pri (kr k : Z) : Z := S.cdef_y_pri_strength v (idx_at kr k) * 2 ^ (bd - 8).
Definition y_sec (kr k : Z) : Z := S.cdef_y_sec_strength v (idx_at kr k) * 2 ^ (bd - 8).
Definition uv_pri (kr k : Z) : Z := S.cdef_uv_pri_strength v (idx_at kr k) * 2 ^ (bd - 8).
Definition uv_sec (kr k : Z) : Z := S.cdef_uv_sec_strength v (idx_at kr k) * 2 ^ (bd - 8).
Definition uv_dir (d : Z) : Z := nth (Z.to_nat d) (nth (Z.to_nat (S.subY v)) (nth (Z.to_nat (S.subX v)) S.Cdef_Uv_Dir []) []) 0.
Lemma block_y : forall Y X r k d var, S.cdef_idx v (r / 16) (k / 16) <> -1 ->
  (S.Skips v r k && S.Skips v (r + 1) k && S.Skips v r (k + 1) && S.Skips v (r + 1) (k + 1)) = false -> S.direction v Cur r k = (d, var) ->
  S.block_pixel v Cur 0 Y X r k =
  S.filter_pixel v Cur 0 Y X
    (if var =? 0 then 0 else (S.cdef_y_pri_strength v (S.cdef_idx v (r / 16) (k / 16)) * 2 ^ S.coeffShift v * (4 + (if var / 2 ^ 6 =? 0 then 0 else Z.min (S.FloorLog2 (var / 2 ^ 6)) 12)) + 8) / 2 ^ 4)
    (S.cdef_y_sec_strength v (S.cdef_idx v (r / 16) (k / 16)) * 2 ^ S.coeffShift v) (S.CdefDamping v + S.coeffShift v)
    (if S.cdef_y_pri_strength v (S.cdef_idx v (r / 16) (k / 16)) * 2 ^ S.coeffShift v =? 0 then 0 else d).
Proof.
  intros Y X r k d var HI HS HD. unfold S.block_pixel. rewrite HS, HD. rewrite (proj2 (Z.eqb_neq _ _) HI). reflexivity.
Qed.
Lemma block_uv : forall pl Y X r k d var, pl <> 0 -> S.cdef_idx v (r / 16) (k / 16) <> -1 ->
  (S.Skips v r k && S.Skips v (r + 1) k && S.Skips v r (k + 1) && S.Skips v (r + 1) (k + 1)) = false -> S.direction v Cur r k = (d, var) ->
  S.block_pixel v Cur pl Y X r k =
  S.filter_pixel v Cur pl Y X (S.cdef_uv_pri_strength v (S.cdef_idx v (r / 16) (k / 16)) * 2 ^ S.coeffShift v)
    (S.cdef_uv_sec_strength v (S.cdef_idx v (r / 16) (k / 16)) * 2 ^ S.coeffShift v) (S.CdefDamping v + S.coeffShift v - 1)
    (if S.cdef_uv_pri_strength v (S.cdef_idx v (r / 16) (k / 16)) * 2 ^ S.coeffShift v =? 0 then 0 else uv_dir d).
Proof.
  intros pl Y X r k d var HP HI HS HD. unfold S.block_pixel. rewrite HS, HD. rewrite (proj2 (Z.eqb_neq _ _) HI), (proj2 (Z.eqb_neq _ _) HP). reflexivity.
Qed.
Lemma adjust_eq : forall p var, adjust_strength p var = if var =? 0 then 0 else (p * (4 + (if var / 2 ^ 6 =? 0 then 0 else Z.min (S.FloorLog2 (var / 2 ^ 6)) 12)) + 8) / 2 ^ 4.
Proof. intros p var. unfold adjust_strength. rewrite !Z.shiftr_div_pow2 by lia. reflexivity. Qed.
Lemma out_y : forall kr k Y X, in_row 0 kr Y -> in_col 0 k X -> idx_at kr k <> -1 -> skipped kr k = false ->
  Out 0 Y X = S.filter_pixel v Cur 0 Y X (adjust_strength (y_pri kr k) (snd (dirvar kr k))) (y_sec kr k) (c_damping c + (bd - 8))
    (if y_pri kr k =? 0 then 0 else fst (dirvar kr k)).
Proof.
  intros kr k Y X HY HX HI HS. rewrite (out_block 0 kr k Y X HY HX).
  rewrite (block_y Y X (2 * kr) (2 * k) (fst (dirvar kr k)) (snd (dirvar kr k)) HI HS (surjective_pairing _)).
  rewrite adjust_eq, (proj1 (su_damping _ _ _ SU)). reflexivity.
Qed.
Lemma out_uv : forall pl kr k Y X, pl <> 0 -> in_row pl kr Y -> in_col pl k X -> idx_at kr k <> -1 -> skipped kr k = false ->
  Out pl Y X = S.filter_pixel v Cur pl Y X (uv_pri kr k) (uv_sec kr k) (c_damping c + (bd - 8) - 1)
    (if uv_pri kr k =? 0 then 0 else uv_dir (fst (dirvar kr k))).
Proof.
  intros pl kr k Y X HP HY HX HI HS. rewrite (out_block pl kr k Y X HY HX).
  rewrite (block_uv pl Y X (2 * kr) (2 * k) (fst (dirvar kr k)) (snd (dirvar kr k)) HP HI HS (surjective_pairing _)).
  rewrite (proj1 (su_damping _ _ _ SU)). reflexivity.
Qed.
Lemma nb_range : forall pl Y X dy dx, plok c pl -> match nb v Cur pl Y X dy dx with Some p => 0 <= p < 2 ^ bd | None => True end.
Proof. intros pl Y X dy dx HP. unfold nb. destruct (S.is_inside_filter_region _ _ _) eqn:E; [|exact I]. apply inside_pl in E. apply pixels; tauto. Qed.
Lemma out_none : forall pl Y X dmp d, plok c pl -> 0 <= d < 8 -> 0 <= Y < bsy c pl * KY -> 0 <= X < bsx c pl * KX -> S.filter_pixel v Cur pl Y X 0 0 dmp d = Cur pl Y X.
Proof.
  intros pl Y X dmp d HP Hd HY HX. apply filter_none; try reflexivity; try exact Hd.
  - exact (su_depth _ _ _ SU).
  - apply pixels; assumption.
  - intros dy dx _ _. apply nb_range. exact HP.
Qed.
Lemma in_frame : forall pl kr k Y X, 0 <= kr < KY -> 0 <= k < KX -> in_row pl kr Y -> in_col pl k X -> 0 <= Y < bsy c pl * KY /\ 0 <= X < bsx c pl * KX.
Proof.
  intros pl kr k Y X Hr Hk HY HX. unfold in_row, in_col in *. destruct (bsy_size pl) as (A & _). destruct (bsx_size pl) as (B & _).
  destruct A as [A|A], B as [B|B]; rewrite A, B in *; lia.
Qed.
(** Direction and variance of the block are those of the code. *)
Lemma dirvar_ok : forall kr k img, 0 <= kr < KY -> 0 <= k < KX ->
  (forall Y X, in_row 0 kr Y -> in_col 0 k X -> img (Y - 8 * kr) (X - 8 * k) = Ok (Cur 0 Y X)) ->
  find_dir bd img = Ok (dirvar kr k) /\ 0 <= fst (dirvar kr k) < 8 /\ 0 <= snd (dirvar kr k).
Proof.
  intros kr k img Hr Hk H. refine (find_dir_ok v Cur (2 * kr) (2 * k) img (su_depth _ _ _ SU) _).
  assert (B : bsy c 0 = 8 /\ bsx c 0 = 8) by (split; reflexivity). destruct B as (B1 & B2).
  intros y x Hy Hx. assert (IR : in_row 0 kr (2 * kr * 4 + y)) by (unfold in_row; rewrite B1; lia). assert (IC : in_col 0 k (2 * k * 4 + x)) by (unfold in_col; rewrite B2; lia). split.
  - rewrite <- (H _ _ IR IC). f_equal; lia.
  - destruct (in_frame 0 kr k _ _ Hr Hk IR IC) as (A & B). apply pixels; [left; reflexivity|exact A|exact B].
Qed.
Lemma level_pri : forall l p s, level l p s -> Z.shiftl (Z.shiftr l 2) (bd - 8) = p * 2 ^ (bd - 8).
Proof.
  intros l p s (A & B & ->). pose proof (su_depth _ _ _ SU) as D. rewrite Z.shiftl_mul_pow2 by (unfold depth in D; lia). f_equal. rewrite Z.shiftr_div_pow2 by lia. change (2 ^ 2) with 4.
  clear D. destruct B as [->|[->|[->| ->]]]; cbn [Z.eqb Pos.eqb]; Z.div_mod_to_equations; lia.
Qed.
Lemma level_sec : forall l p s, level l p s -> sec_level l bd = s * 2 ^ (bd - 8).
Proof.
  intros l p s (A & B & ->). unfold sec_level. pose proof (su_depth _ _ _ SU) as D. rewrite Z.shiftl_mul_pow2 by (unfold depth in D; lia). f_equal. clear D.
  assert (M : forall t, 0 <= t < 4 -> Z.land (4 * p + t) 3 = t).
  { intros t Ht. change 3 with (Z.ones 2). rewrite Z.land_ones by lia. change (2 ^ 2) with 4. rewrite Z.add_comm, Z.mul_comm, Z.mod_add by lia. apply Z.mod_small. lia. }
  destruct B as [->|[->|[->| ->]]]; cbn [Z.eqb Pos.eqb]; rewrite M by lia; reflexivity.
Qed.
Lemma level_zero : forall l p s, level l p s -> (l = 0 <-> p = 0 /\ s = 0).
Proof. intros l p s (A & B & ->). destruct B as [->|[->|[->| ->]]]; cbn [Z.eqb Pos.eqb]; lia. Qed.
Lemma strength_bounds : forall p s, 0 <= p < 16 -> s = 0 \/ s = 1 \/ s = 2 \/ s = 4 ->
  0 <= p * 2 ^ (bd - 8) <= 4096 /\ 0 <= s * 2 ^ (bd - 8) <= 4096 /\ (s * 2 ^ (bd - 8) <> 0 -> forall d, 2 + (bd - 8) <= d -> 0 <= d - ulog2 (s * 2 ^ (bd - 8))).
Proof.
  intros p s Hp Hs. pose proof (su_depth _ _ _ SU) as D. unfold depth in D.
  assert (E : 2 ^ (bd - 8) = 1 \/ 2 ^ (bd - 8) = 4 \/ 2 ^ (bd - 8) = 16) by (destruct D as [->|[->| ->]]; [left|right; left|right; right]; reflexivity).
  repeat split; try (destruct E as [->|[->| ->]]; lia).
  intros N d Hd. unfold ulog2. cut (Z.log2 (s * 2 ^ (bd - 8)) <= 2 + (bd - 8)); [lia|].
  rewrite Z.log2_mul_pow2 by lia. assert (Z.log2 s <= 2) by (destruct Hs as [->|[->|[->| ->]]]; vm_compute; congruence). lia.
Qed.
Lemma adjust_bounds : forall p var, 0 <= p <= 4096 -> 0 <= var -> 0 <= adjust_strength p var <= 4096.
Proof.
  intros p var Hp Hv. unfold adjust_strength. destruct (var =? 0); [lia|]. cbv zeta.
  set (i := if Z.shiftr var 6 =? 0 then 0 else Z.min (ulog2 (Z.shiftr var 6)) 12). assert (0 <= i <= 12).
  { unfold i. destruct (_ =? 0); [lia|]. unfold ulog2. pose proof (Z.log2_nonneg (Z.shiftr var 6)). lia. }
  rewrite Z.shiftr_div_pow2 by lia. change (2 ^ 4) with 16. split; [apply Z.div_pos; nia|]. apply Z.lt_succ_r, Z.div_lt_upper_bound; [lia|]. nia.
Qed.
Lemma uv_dir_ok : forall d, 0 <= d < 8 ->
  (let! l := rd_at uv_dirs (if (c_ssx c =? 1) && (c_ssy c =? 0) then 1 else 0) in rd_at l d)%outcome = Ok (uv_dir d) /\ 0 <= uv_dir d < 8.
Proof.
  intros d Hd. rewrite (su_ssx _ _ _ SU), (su_ssy _ _ _ SU). unfold uv_dir. destruct (su_sub _ _ _ SU) as (A & B & C).
  destruct A as [A|A]; [rewrite A, (C A)|destruct B as [B|B]; rewrite A, B];
    destruct (cases_dir d Hd) as [->|[->|[->|[->|[->|[->|[->| ->]]]]]]]; vm_compute; (split; [reflexivity|split; congruence]).
Qed.

(** * A row of blocks *)
Section BlockRow.
Variables (m : masks) (st : state) (by_start by_end : Z) (sbrow_start : bool) (sby : Z).
Variables (kr : Z).
Hypothesis Hkr : 0 <= kr < KY.
Let by_ := 2 * kr.
Hypothesis MO : masks_ok v c m by_.
(** The rows above and below are those of the deblocked frame. *)
Hypothesis HTop : 0 < kr -> forall pl y bx x, plok c pl -> 0 <= y < 2 -> 0 <= shift_x c pl (bx * 4) + x < bsx c pl * KX ->
  top_of c st sbrow_start by_start by_ bx sby pl y x = Ok (Cur pl (bsy c pl * kr - 2 + y) (shift_x c pl (bx * 4) + x)).
Hypothesis HBot : kr + 1 < KY -> forall fr pl y bx x, plok c pl -> 0 <= y < 2 -> 0 <= shift_x c pl (bx * 4) + x < bsx c pl * KX ->
  (forall Y X, ~ in_row pl kr Y -> fr pl Y X = s_fr st pl Y X) ->
  bot_of c fr sbrow_start by_start by_end by_ bx sby pl y x = Ok (Cur pl (bsy c pl * (kr + 1) + y) (shift_x c pl (bx * 4) + x)).

(** Plane [pl] when the blocks before [k] are filtered. *)
Definition pl_inv (k pl : Z) (p : plane) : Prop :=
  (forall Y X, in_row pl kr Y -> 0 <= X < bsx c pl * k -> p Y X = Some (Out pl Y X)) /\
  (forall Y X, in_row pl kr Y -> bsx c pl * k <= X < bsx c pl * KX -> p Y X = Some (Cur pl Y X)) /\
  (forall Y X, ~ in_row pl kr Y -> p Y X = s_fr st pl Y X).
Lemma bsx_pos : forall pl, 4 <= bsx c pl <= 8.
Proof. intros pl. apply size48_bounds, bsx_size. Qed.
Lemma bsy_pos : forall pl, 4 <= bsy c pl <= 8.
Proof. intros pl. apply size48_bounds, bsy_size. Qed.
Lemma pl_skip : forall k k' pl p, 0 <= k <= k' -> k' <= KX -> pl_inv k pl p -> (forall Y X, in_row pl kr Y -> bsx c pl * k <= X < bsx c pl * k' -> Out pl Y X = Cur pl Y X) -> pl_inv k' pl p.
Proof.
  intros k k' pl p Hk Hk' (A & B & C) H. pose proof (bsx_pos pl). split; [|split; [|exact C]].
  - intros Y X HY HX. destruct (Z.lt_ge_cases X (bsx c pl * k)); [apply A; [exact HY|lia]|]. rewrite H by (auto; lia). apply B; [exact HY|nia].
  - intros Y X HY HX. apply B; [exact HY|nia].
Qed.

(** A plane of a block is filtered. *)
Lemma plane_filter : forall k pl (fr : Z -> plane) (left : Z -> Z -> outcome Z) pri sec dir damping, plok c pl -> 0 <= k < KX -> pl_inv k pl (fr pl) ->
  (0 < k -> forall y x, 0 <= y < bsy c pl -> -2 <= x < 0 -> left y (2 + x) = Ok (Cur pl (bsy c pl * kr + y) (bsx c pl * k + x))) ->
  0 <= dir < 8 -> damping <= 14 -> 0 <= pri <= 4096 -> 0 <= sec <= 4096 -> (sec <> 0 -> 0 <= damping - ulog2 sec) -> pri <> 0 \/ sec <> 0 ->
  (forall Y X, in_row pl kr Y -> in_col pl k X -> Out pl Y X = S.filter_pixel v Cur pl Y X pri sec damping dir) ->
  exists p', filter_block bd (c_rows c pl) (c_stride c pl) (shift_y c pl (by_ * 4)) (shift_x c pl (2 * k * 4)) left
      (top_of c st sbrow_start by_start by_ (2 * k) sby pl) (bot_of c fr sbrow_start by_start by_end by_ (2 * k) sby pl)
      pri sec dir damping (shift_x c pl 8) (shift_y c pl 8) (mkEdges (0 <? k) (k + 1 <? KX) (0 <? kr) (kr + 1 <? KY)) (fr pl) = Ok p' /\ pl_inv (k + 1) pl p'.
Proof.
  intros k pl fr left pri sec dir damping HP Hk (A & B & C) HL H1 H2 H3 H4 H5 H6 HO.
  pose proof (bsx_pos pl) as PX. pose proof (bsy_pos pl) as PY. destruct (bsx_size pl) as (SX & _). destruct (bsy_size pl) as (SY & _).
  unfold by_. rewrite x_at, y_at. fold (bsx c pl) (bsy c pl).
  destruct (su_alloc _ _ _ SU pl HP) as (AR & AS). rewrite height_eq in AR. rewrite width_eq in AS.
  assert (FX : bsx c pl * k + bsx c pl <= bsx c pl * KX) by nia. assert (FY : bsy c pl * kr + bsy c pl <= bsy c pl * KY) by nia.
  assert (X0 : 0 <= bsx c pl * k) by nia. assert (Y0 : 0 <= bsy c pl * kr) by nia.
  set (e := mkEdges (0 <? k) (k + 1 <? KX) (0 <? kr) (kr + 1 <? KY)).
  assert (HE : e = mkEdges (0 <? bsx c pl * k) (bsx c pl * k + bsx c pl <? bsx c pl * KX) (0 <? bsy c pl * kr) (bsy c pl * kr + bsy c pl <? bsy c pl * KY)).
  { unfold e. f_equal; match goal with |- ?a = ?b => destruct a eqn:E1, b eqn:E2 end; try reflexivity; exfalso; rewrite ?Z.ltb_lt, ?Z.ltb_ge in E1; rewrite ?Z.ltb_lt, ?Z.ltb_ge in E2; nia. }
  assert (PXL : forall x, (if e_left e then -2 else 0) <= x < (if e_right e then bsx c pl + 2 else bsx c pl) -> 0 <= bsx c pl * k + x < bsx c pl * KX).
  { intros x. unfold e. cbn [e_left e_right]. destruct (Z.ltb_spec 0 k), (Z.ltb_spec (k + 1) KX); intros; nia. }
  destruct (filter_block_ok v Cur (su_depth _ _ _ SU) pl (bsy c pl * KY) (bsx c pl * KX) (bsx c pl) (bsy c pl) SX SY (psub_y pl) (psub_x pl)
    ltac:(destruct (bsy_size pl) as (_ & E); pose proof (su_rows _ _ _ SU); fold KY in *; nia)
    ltac:(destruct (bsx_size pl) as (_ & E); pose proof (su_cols _ _ _ SU); fold KX in *; nia)
    ltac:(intros; apply pixels; assumption)
    (c_rows c pl) (c_stride c pl) (bsy c pl * kr) (bsx c pl * k) left
    (top_of c st sbrow_start by_start (2 * kr) (2 * k) sby pl) (bot_of c fr sbrow_start by_start by_end (2 * kr) (2 * k) sby pl)
    pri sec dir damping e (fr pl) AR AS (placed_mul _ _ _ SY Hkr) (placed_mul _ _ _ SX Hk) HE) as (d' & E & Q1 & Q2); try assumption.
  - intros y x Hy Hx. apply B; [unfold in_row; nia|]. specialize (PXL x). destruct (e_left e); lia.
  - intros F y x Hy Hx. apply HL; [|assumption|assumption]. unfold e in F. cbn [e_left] in F. lia.
  - intros F y x Hy Hx. unfold e in F. cbn [e_top] in F. fold by_. rewrite HTop; [|lia|exact HP|lia|rewrite x_at; apply PXL; exact Hx]. rewrite x_at. f_equal. f_equal. lia.
  - intros F y x Hy Hx. unfold e in F. cbn [e_bottom] in F. fold by_. rewrite HBot; [|lia|exact HP|lia|rewrite x_at; apply PXL; exact Hx|exact C]. rewrite x_at. f_equal. f_equal. lia.
  - exists d'. split; [exact E|]. split; [|split].
    + intros Y X HY HX. destruct (Z.lt_ge_cases X (bsx c pl * k)) as [L|L].
      * rewrite Q2 by (unfold within; lia). apply A; [exact HY|lia].
      * replace Y with (bsy c pl * kr + (Y - bsy c pl * kr)) by lia. replace X with (bsx c pl * k + (X - bsx c pl * k)) by lia.
        unfold in_row in HY. rewrite Q1 by lia. f_equal. symmetry. apply HO; [unfold in_row; lia|unfold in_col; lia].
    + intros Y X HY HX. rewrite Q2 by (unfold within; lia). apply B; [exact HY|lia].
    + intros Y X HY. rewrite Q2 by (unfold within; unfold in_row in HY; lia). apply C. exact HY.
Qed.

(** ** The pixels to the left *)
Definition grp (fl : bool * bool) (pl : Z) : bool := if pl =? 0 then fst fl else snd fl.
(** [b] has the two columns before block [k]. *)
Definition saved (k : Z) (b : Z -> plane) (pl : Z) : Prop :=
  forall y x, 0 <= y < bsy c pl -> -2 <= x < 0 -> b pl y (2 + x) = Some (Cur pl (bsy c pl * kr + y) (bsx c pl * k + x)).
(** They are not changed by the filter. *)
Definition same (k pl : Z) : Prop := forall Y X, in_row pl kr Y -> bsx c pl * k - 2 <= X < bsx c pl * k -> Out pl Y X = Cur pl Y X.

Lemma backup_p : forall k k' xo fr bak pl, plok c pl -> 0 < k' <= KX -> (xo = 0 /\ k' = k \/ xo = 8 /\ k' = k + 1) ->
  (forall Y X, in_row pl kr Y -> bsx c pl * k' - 2 <= X < bsx c pl * k' -> fr pl Y X = Some (Cur pl Y X)) ->
  exists b', backup2x8p c fr bak by_ (2 * k) xo pl = Ok b' /\ saved k' b' pl /\ (forall j, j <> pl -> b' j = bak j).
Proof.
  intros k k' xo fr bak pl HP Hk Hxo HF. unfold backup2x8p. cbv zeta. unfold by_. rewrite x_at, y_at. fold (bsy c pl).
  pose proof (bsx_pos pl) as PX. pose proof (bsy_pos pl) as PY.
  destruct (su_alloc _ _ _ SU pl HP) as (AR & AS). rewrite height_eq in AR. rewrite width_eq in AS.
  assert (EX : bsx c pl * k + shift_x c pl xo = bsx c pl * k').
  { destruct Hxo as [(-> & ->)|(-> & ->)]; [rewrite shift_x_eq, Z.div_0_l by (apply Z.pow_nonzero; [lia|destruct (psub_x pl) as [E|E]; rewrite E; lia]); lia|].
    fold (bsx c pl). lia. }
  rewrite EX.
  assert (G : (0 <=? bsy c pl * kr) && (bsy c pl * kr + bsy c pl <=? c_rows c pl) && (0 <=? bsx c pl * k' - 2) && (bsx c pl * k' - 2 + 2 <=? c_stride c pl) = true).
  { rewrite !andb_true_iff, !Z.leb_le. repeat split; nia. }
  rewrite G. eexists. split; [reflexivity|]. split.
  - intros y x Hy Hx. rewrite set_at_same. unfold copy_rect.
    replace ((0 <=? y) && (y <? 0 + bsy c pl) && (0 <=? 2 + x) && (2 + x <? 0 + 2)) with true by lia.
    rewrite HF; [f_equal; f_equal; lia|unfold in_row; lia|lia].
  - intros j Hj. apply set_at_other. exact Hj.
Qed.
Lemma backup_ok : forall k k' xo fr bak flag, 0 < k' <= KX -> (xo = 0 /\ k' = k \/ xo = 8 /\ k' = k + 1) ->
  (forall pl, plok c pl -> grp flag pl = true -> forall Y X, in_row pl kr Y -> bsx c pl * k' - 2 <= X < bsx c pl * k' -> fr pl Y X = Some (Cur pl Y X)) ->
  exists b', backup2x8 c fr bak by_ (2 * k) xo flag = Ok b' /\ (forall pl, plok c pl -> grp flag pl = true -> saved k' b' pl) /\
    (forall pl, plok c pl -> grp flag pl = false -> b' pl = bak pl).
Proof.
  intros k k' xo fr bak flag Hk Hxo HF. unfold backup2x8.
  assert (ST : forall pl b, plok c pl -> grp flag pl = true -> exists b', backup2x8p c fr b by_ (2 * k) xo pl = Ok b' /\ saved k' b' pl /\ (forall j, j <> pl -> b' j = b j)).
  { intros pl b HP HG. apply (backup_p k k' xo fr b pl HP Hk Hxo). intros Y X. apply HF; assumption. }
  assert (KEEP : forall b b' pl, b' pl = b pl -> saved k' b pl -> saved k' b' pl) by (intros b b' pl E Q y x Hy Hx; rewrite E; apply Q; assumption).
  assert (L0 : exists b0, ofold (fun pl b => backup2x8p c fr b by_ (2 * k) xo pl) (if fst flag then [0] else []) bak = Ok b0 /\ (fst flag = true -> saved k' b0 0) /\
    (forall pl, pl <> 0 \/ fst flag = false -> b0 pl = bak pl)).
  { destruct (fst flag) eqn:F0.
    - destruct (ST 0 bak (or_introl eq_refl) F0) as (b0 & E & A & B). exists b0. cbn [ofold]. rewrite E. split; [reflexivity|]. split; [auto|]. intros pl [N|N]; [apply B; exact N|discriminate].
    - exists bak. split; [reflexivity|]. split; [discriminate|reflexivity]. }
  destruct L0 as (b0 & E0 & A0 & B0).
  assert (APP : forall (l1 l2 : list Z) (f : Z -> (Z -> plane) -> outcome (Z -> plane)) s, ofold f (l1 ++ l2) s = obind (ofold f l1 s) (fun s => ofold f l2 s)).
  { induction l1 as [|a l1 IH]; intros l2 f s; [reflexivity|]. cbn [app ofold]. destruct (f a s); cbn [obind]; [apply IH|reflexivity]. }
  rewrite APP, E0. cbn [obind].
  destruct (snd flag && negb (c_mono c)) eqn:F1.
  - apply andb_true_iff in F1. destruct F1 as (F1 & FM). apply negb_true_iff in FM.
    assert (P1 : plok c 1) by (right; auto). assert (P2 : plok c 2) by (right; auto).
    destruct (ST 1 b0 P1 F1) as (b1 & E1 & A1 & B1). destruct (ST 2 b1 P2 F1) as (b2 & E2 & A2 & B2).
    exists b2. cbn [ofold]. rewrite E1. cbn [obind]. rewrite E2. split; [reflexivity|]. split.
    + intros pl HP HG. destruct HP as [->|(_ & [->| ->])]; [|apply (KEEP b1); [apply B2; lia|exact A1]|exact A2].
      apply (KEEP b0); [rewrite B2, B1 by lia; reflexivity|]. apply A0. exact HG.
    + intros pl HP HG. destruct HP as [->|(_ & [->| ->])]; [|unfold grp in HG; cbn [Z.eqb] in HG; congruence..].
      rewrite B2, B1 by lia. apply B0. right. exact HG.
  - exists b0. split; [reflexivity|]. split.
    + intros pl HP HG. destruct HP as [->|(M & HP)]; [apply A0; exact HG|].
      exfalso. rewrite M, andb_true_r in F1. destruct HP as [->| ->]; unfold grp in HG; cbn [Z.eqb] in HG; congruence.
    + intros pl HP HG. apply B0. destruct HP as [->|(M & HP)]; [right; exact HG|left; lia].
Qed.

(** ** A block *)
Definition left_inv (k : Z) (r : rowst) : Prop := forall pl, plok c pl ->
  (r_last_skip r = false /\ grp (r_prev r) pl = true /\ saved k (r_bak r (r_bit r)) pl) \/
  ((r_last_skip r = true \/ grp (r_prev r) pl = false) /\ same k pl).
Definition fr_inv (k : Z) (fr : Z -> plane) : Prop := forall pl, plok c pl -> pl_inv k pl (fr pl).

Lemma adjust_zero : forall var, adjust_strength 0 var = 0.
Proof. intros var. unfold adjust_strength. destruct (var =? 0); [reflexivity|]. cbv zeta. rewrite Z.mul_0_l. reflexivity. Qed.
Lemma pow_pos : 0 < 2 ^ (bd - 8).
Proof. pose proof (su_depth _ _ _ SU) as D. destruct D as [D|[D|D]]; rewrite D; reflexivity. Qed.
(** Planes whose level is zero do not change. *)
Lemma zero_same : forall k pl y_lvl uv_lvl, plok c pl -> 0 <= k < KX -> idx_at kr k <> -1 -> skipped kr k = false ->
  0 <= fst (dirvar kr k) < 8 ->
  level y_lvl (S.cdef_y_pri_strength v (idx_at kr k)) (S.cdef_y_sec_strength v (idx_at kr k)) ->
  level uv_lvl (S.cdef_uv_pri_strength v (idx_at kr k)) (S.cdef_uv_sec_strength v (idx_at kr k)) ->
  grp (negb (y_lvl =? 0), negb (uv_lvl =? 0)) pl = false -> forall Y X, in_row pl kr Y -> in_col pl k X -> Out pl Y X = Cur pl Y X.
Proof.
  intros k pl y_lvl uv_lvl HP Hk HI HS HD LY LU HG Y X HY HX. destruct (in_frame pl kr k Y X Hkr Hk HY HX) as (IY & IX).
  unfold grp in HG. cbn [fst snd] in HG. destruct (Z.eqb_spec pl 0) as [->|NP].
  - apply negb_false_iff, Z.eqb_eq in HG. apply (level_zero _ _ _ LY) in HG. destruct HG as (Z1 & Z2).
    rewrite (out_y kr k Y X HY HX HI HS). unfold y_pri, y_sec. rewrite Z1, Z2, !Z.mul_0_l, adjust_zero. cbn [Z.eqb].
    apply out_none; [exact HP|lia|exact IY|exact IX].
  - apply negb_false_iff, Z.eqb_eq in HG. apply (level_zero _ _ _ LU) in HG. destruct HG as (Z1 & Z2).
    rewrite (out_uv pl kr k Y X NP HY HX HI HS). unfold uv_pri, uv_sec. rewrite Z1, Z2, !Z.mul_0_l. cbn [Z.eqb].
    apply out_none; [exact HP|lia|exact IY|exact IX].
Qed.

Lemma block_ok : forall k y_lvl uv_lvl r, 0 <= k < KX -> fr_inv k (r_fr r) -> r_left r = (0 <? k) -> r_right r = (k + 1 <? KX) -> (0 < k -> left_inv k r) ->
  0 <= idx_at kr k < 8 -> skipped kr k = false ->
  level y_lvl (S.cdef_y_pri_strength v (idx_at kr k)) (S.cdef_y_sec_strength v (idx_at kr k)) ->
  level uv_lvl (S.cdef_uv_pri_strength v (idx_at kr k)) (S.cdef_uv_sec_strength v (idx_at kr k)) ->
  exists r', block c st by_start by_end sbrow_start sby (0 <? kr) (kr + 1 <? KY) by_ (2 * k) y_lvl uv_lvl r = Ok r' /\
    fr_inv (k + 1) (r_fr r') /\ r_left r' = r_left r /\ r_right r' = r_right r /\ (k + 1 < KX -> left_inv (k + 1) r').
Proof.
  intros k y_lvl uv_lvl r Hk HF HLe HRi HLI HIdx HSk LY LU. unfold block. rewrite (su_bd _ _ _ SU).
  set (flag := (negb (y_lvl =? 0), negb (uv_lvl =? 0))).
  set (do_left := if r_last_skip r then flag else (xorb (fst (r_prev r)) (fst flag) && fst flag, xorb (snd (r_prev r)) (snd flag) && snd flag)).
  set (bit := r_bit r). cbv zeta.
  assert (DL : forall pl, grp do_left pl = true <-> grp flag pl = true /\ (r_last_skip r = true \/ grp (r_prev r) pl = false)).
  { intros pl. unfold do_left, grp. destruct (pl =? 0); destruct (r_last_skip r); cbn [fst snd];
      [destruct (negb (y_lvl =? 0)); tauto|destruct (fst (r_prev r)), (fst flag); cbn; intuition congruence|destruct (negb (uv_lvl =? 0)); tauto|destruct (snd (r_prev r)), (snd flag); cbn; intuition congruence]. }
  (* the left side *)
  match goal with |- context [obind ?e _] => assert (B1 : exists bak1, e = Ok bak1 /\ (0 < k -> forall pl, plok c pl -> grp flag pl = true -> saved k (bak1 bit) pl)) end.
  { rewrite HLe. destruct (Z.ltb_spec 0 k) as [K0|K0]; [|rewrite andb_false_r; exists (r_bak r); split; [reflexivity|lia]].
    specialize (HLI K0).
    assert (OLD : forall pl, plok c pl -> grp flag pl = true -> grp do_left pl = false -> saved k (r_bak r bit) pl).
    { intros pl HP HG HN. destruct (HLI pl HP) as [(_ & _ & Q)|(Q & _)]; [exact Q|]. pose proof (proj2 (DL pl) (conj HG Q)). congruence. }
    rewrite andb_true_r. destruct (fst do_left || snd do_left) eqn:ED.
    - destruct (backup_ok k k 0 (r_fr r) (r_bak r bit) do_left ltac:(lia) ltac:(lia)) as (b' & E & A & B).
      + intros pl HP HG Y X HY HX. apply DL in HG. destruct HG as (_ & HG). destruct (HF pl HP) as (F1 & _).
        pose proof (bsx_pos pl). rewrite F1; [|exact HY|nia]. f_equal.
        destruct (HLI pl HP) as [(Q1 & Q2 & _)|(_ & Q)]; [rewrite Q1, Q2 in HG; destruct HG; discriminate|]. apply Q; assumption.
      + rewrite E. cbn [obind]. eexists. split; [reflexivity|]. intros _ pl HP HG. rewrite set_bat_same.
        destruct (grp do_left pl) eqn:EG; [apply A; assumption|]. intros y x Hy Hx. rewrite (B pl HP EG). apply (OLD pl HP HG EG); assumption.
    - exists (r_bak r). split; [reflexivity|]. intros _ pl HP HG. apply OLD; [assumption|assumption|].
      apply orb_false_iff in ED. unfold grp. destruct (pl =? 0); tauto. }
  destruct B1 as (bak1 & EB1 & HB1). rewrite EB1. cbn [obind]. clear EB1 DL.
  (* the right side *)
  match goal with |- context [obind ?e _] => assert (B2 : exists bak2, e = Ok bak2 /\ bak2 bit = bak1 bit /\ (k + 1 < KX -> forall pl, plok c pl -> grp flag pl = true -> saved (k + 1) (bak2 (negb bit)) pl)) end.
  { rewrite HRi. destruct (Z.ltb_spec (k + 1) KX) as [K1|K1]; [|exists bak1; split; [reflexivity|]; split; [reflexivity|lia]].
    destruct (backup_ok k (k + 1) 8 (r_fr r) (bak1 (negb bit)) flag ltac:(lia) ltac:(lia)) as (b' & E & A & B).
    - intros pl HP HG Y X HY HX. destruct (HF pl HP) as (_ & F2 & _). pose proof (bsx_pos pl). apply F2; [exact HY|nia].
    - rewrite E. cbn [obind]. eexists. split; [reflexivity|]. split; [apply set_bat_neg|]. intros _ pl HP HG. rewrite set_bat_same. apply A; assumption. }
  destruct B2 as (bak2 & EB2 & HB2 & HB3). rewrite EB2. cbn [obind]. clear EB2.
  rewrite (level_pri _ _ _ LY), (level_sec _ _ _ LY), (level_pri _ _ _ LU), (level_sec _ _ _ LU).
  fold (y_pri kr k) (y_sec kr k) (uv_pri kr k) (uv_sec kr k).
  (* the direction *)
  match goal with |- context [find_dir bd ?img] => destruct (dirvar_ok kr k img Hkr Hk) as (ED & HDr & HVr) end.
  { intros Y X HY HX. destruct (HF 0 (or_introl eq_refl)) as (_ & F2 & _). destruct (in_frame 0 kr k Y X Hkr Hk HY HX) as (IY & IX).
    destruct (su_alloc _ _ _ SU 0 (or_introl eq_refl)) as (AR & AS). rewrite height_eq in AR. rewrite width_eq in AS.
    unfold by_. replace (2 * kr * 4 + (Y - 8 * kr)) with Y by lia. replace (2 * k * 4 + (X - 8 * k)) with X by lia.
    apply rd2_ok; [lia|lia|]. apply F2; [exact HY|unfold in_col in HX; lia]. }
  rewrite ED. clear ED. cbn [obind].
  assert (NI : idx_at kr k <> -1) by lia.
  pose proof pow_pos as PP. pose proof (su_depth _ _ _ SU) as DEP. pose proof (su_damping _ _ _ SU) as (EDa & RDa).
  assert (DM : 8 <= bd <= 12) by (unfold depth in DEP; lia).
  destruct LY as (LY1 & LY2 & LY3). destruct (strength_bounds _ _ LY1 LY2) as (SB1 & SB2 & SB3). fold (y_pri kr k) in SB1. fold (y_sec kr k) in SB2, SB3.
  destruct LU as (LU1 & LU2 & LU3). destruct (strength_bounds _ _ LU1 LU2) as (SB4 & SB5 & SB6). fold (uv_pri kr k) in SB4. fold (uv_sec kr k) in SB5, SB6.
  set (dv := if negb (y_pri kr k =? 0) || negb (uv_pri kr k =? 0) then Some (dirvar kr k) else None).
  assert (EDV : (if negb (y_pri kr k =? 0) || negb (uv_pri kr k =? 0) then Ok (Some (dirvar kr k)) else Ok None) = Ok dv) by (unfold dv; destruct (_ || _); reflexivity).
  rewrite EDV. cbn [obind]. clear EDV.
  assert (DVS : y_pri kr k <> 0 \/ uv_pri kr k <> 0 -> dv = Some (dirvar kr k)).
  { unfold dv. intros [N|N]; rewrite (proj2 (Z.eqb_neq _ _) N); [reflexivity|rewrite orb_true_r; reflexivity]. }
  clearbody dv.
  pose proof (adjust_bounds (y_pri kr k) (snd (dirvar kr k)) SB1 HVr) as AB.
  assert (LEFT : forall pl, plok c pl -> grp flag pl = true -> 0 < k -> forall y x, 0 <= y < bsy c pl -> -2 <= x < 0 ->
    rd2 8 2 (bak2 bit pl) y (2 + x) = Ok (Cur pl (bsy c pl * kr + y) (bsx c pl * k + x))).
  { intros pl HP HG K0 y x Hy Hx. pose proof (bsy_pos pl). apply rd2_ok; [lia|lia|]. rewrite HB2. apply (HB1 K0 pl HP HG); assumption. }
  assert (ZS : forall pl, plok c pl -> grp flag pl = false -> forall Y X, in_row pl kr Y -> in_col pl k X -> Out pl Y X = Cur pl Y X).
  { intros pl HP HG Y X HY HX. apply (zero_same k pl y_lvl uv_lvl HP Hk NI HSk HDr (conj LY1 (conj LY2 LY3)) (conj LU1 (conj LU2 LU3)) HG Y X HY HX). }
  assert (FY : y_lvl <> 0 -> grp flag 0 = true) by (intros N; unfold grp, flag; cbn [Z.eqb fst]; apply negb_true_iff, Z.eqb_neq; exact N).
  assert (FU : forall pl, pl <> 0 -> uv_lvl <> 0 -> grp flag pl = true) by (intros pl N0 N; unfold grp, flag; rewrite (proj2 (Z.eqb_neq _ _) N0); apply negb_true_iff, Z.eqb_neq; exact N).
  assert (FZ : forall pl, pl <> 0 -> uv_lvl = 0 -> grp flag pl = false) by (intros pl N0 N; unfold grp, flag; rewrite (proj2 (Z.eqb_neq _ _) N0), N; reflexivity).
  clearbody flag.
  assert (SKIP : forall pl (p : plane), pl_inv k pl p -> (forall Y X, in_row pl kr Y -> in_col pl k X -> Out pl Y X = Cur pl Y X) -> pl_inv (k + 1) pl p).
  { intros pl p Q N. apply (pl_skip k (k + 1)); [lia|lia|exact Q|]. intros Y X HY HX. apply N; [exact HY|exact HX]. }
  rewrite HLe, HRi.
  (* luma *)
  match goal with |- context [obind ?e _] => assert (L1 : exists fr1, e = Ok fr1 /\ pl_inv (k + 1) 0 (fr1 0) /\ (forall pl, pl <> 0 -> fr1 pl = r_fr r pl)) end.
  { assert (FLT : forall pri dir, 0 <= pri <= 4096 -> 0 <= dir < 8 -> pri <> 0 \/ y_sec kr k <> 0 -> y_lvl <> 0 ->
      (forall Y X, in_row 0 kr Y -> in_col 0 k X -> Out 0 Y X = S.filter_pixel v Cur 0 Y X pri (y_sec kr k) (c_damping c + (bd - 8)) dir) ->
      exists fr1, (let! p := filter_block bd (c_rows c 0) (c_stride c 0) (shift_y c 0 (by_ * 4)) (shift_x c 0 (2 * k * 4))
        (fun y x => rd2 8 2 (bak2 bit 0) y x) (top_of c st sbrow_start by_start by_ (2 * k) sby 0)
        (bot_of c (r_fr r) sbrow_start by_start by_end by_ (2 * k) sby 0) pri (y_sec kr k) dir (c_damping c + (bd - 8)) (shift_x c 0 8) (shift_y c 0 8)
        {| e_left := 0 <? k; e_right := k + 1 <? KX; e_top := 0 <? kr; e_bottom := kr + 1 <? KY |} (r_fr r 0) in
        Ok (set_at (r_fr r) 0 p))%outcome = Ok fr1 /\ pl_inv (k + 1) 0 (fr1 0) /\ (forall pl, pl <> 0 -> fr1 pl = r_fr r pl)).
    { intros pri dir Hp Hd Hn Hl HO.
      destruct (plane_filter k 0 (r_fr r) (fun y x => rd2 8 2 (bak2 bit 0) y x) pri (y_sec kr k) dir (c_damping c + (bd - 8)) (or_introl eq_refl) Hk (HF 0 (or_introl eq_refl))) as (p' & E & Q); try assumption.
      - intros K0 y x Hy Hx. apply (LEFT 0 (or_introl eq_refl)); [|assumption..]. apply FY. exact Hl.
      - rewrite EDa. lia.
      - intros N. apply (SB3 N). rewrite EDa. lia.
      - rewrite E. cbn [obind]. eexists. split; [reflexivity|]. split; [rewrite set_at_same; exact Q|]. intros pl HP. apply set_at_other. exact HP. }
    assert (KEEP : (forall Y X, in_row 0 kr Y -> in_col 0 k X -> Out 0 Y X = Cur 0 Y X) ->
      exists fr1, Ok (r_fr r) = Ok fr1 /\ pl_inv (k + 1) 0 (fr1 0) /\ (forall pl, pl <> 0 -> fr1 pl = r_fr r pl)).
    { intros N. exists (r_fr r). split; [reflexivity|]. split; [apply SKIP; [apply HF; left; reflexivity|exact N]|reflexivity]. }
    assert (OY : forall Y X, in_row 0 kr Y -> in_col 0 k X -> Out 0 Y X = S.filter_pixel v Cur 0 Y X (adjust_strength (y_pri kr k) (snd (dirvar kr k))) (y_sec kr k) (c_damping c + (bd - 8))
      (if y_pri kr k =? 0 then 0 else fst (dirvar kr k))) by (intros Y X HY HX; apply out_y; assumption).
    destruct (Z.eqb_spec (y_pri kr k) 0) as [PZ|PZ]; cbn [negb].
    - rewrite PZ in OY. destruct (Z.eqb_spec (y_sec kr k) 0) as [SZ|SZ]; cbn [negb].
      + apply KEEP. intros Y X HY HX. rewrite (OY Y X HY HX), SZ, adjust_zero. destruct (in_frame 0 kr k Y X Hkr Hk HY HX). apply out_none; [left; reflexivity|lia|assumption|assumption].
      + apply FLT; [lia|lia|right; exact SZ| |].
        * intros Q. apply SZ. unfold y_sec. rewrite Q in LY3. destruct LY2 as [E|[E|[E|E]]]; rewrite E in LY3 |- *; cbn [Z.eqb Pos.eqb] in LY3; lia.
        * intros Y X HY HX. rewrite (OY Y X HY HX), adjust_zero. reflexivity.
    - assert (LN : y_lvl <> 0) by (intros Q; apply PZ; unfold y_pri; assert (S.cdef_y_pri_strength v (idx_at kr k) = 0) as -> by (destruct LY2 as [E|[E|[E|E]]]; rewrite E in LY3; cbn [Z.eqb Pos.eqb] in LY3; lia); lia).
      rewrite (DVS (or_introl PZ)).
      destruct (dirvar kr k) as (d & var) eqn:EDV. cbn [fst snd obind] in *.
      destruct (negb (adjust_strength (y_pri kr k) var =? 0) || negb (y_sec kr k =? 0)) eqn:EN.
      + apply FLT; [exact AB|exact HDr| |exact LN|exact OY]. apply orb_true_iff in EN. rewrite !negb_true_iff, !Z.eqb_neq in EN. exact EN.
      + apply KEEP. apply orb_false_iff in EN. rewrite !negb_false_iff, !Z.eqb_eq in EN. destruct EN as (N1 & N2).
        intros Y X HY HX. rewrite (OY Y X HY HX), N1, N2. destruct (in_frame 0 kr k Y X Hkr Hk HY HX). apply out_none; [left; reflexivity|exact HDr|assumption|assumption]. }
  destruct L1 as (fr1 & E1 & Q1 & R1). rewrite E1. cbn [obind]. clear E1 AB.
  (* chroma *)
  match goal with |- context [obind ?e _] => assert (L2 : exists fr2, e = Ok fr2 /\ fr_inv (k + 1) fr2) end.
  { destruct (Z.eqb_spec uv_lvl 0) as [UZ|UZ]; cbn [negb].
    - exists fr1. split; [reflexivity|]. intros pl HP. destruct (Z.eq_dec pl 0) as [->|NP]; [exact Q1|]. rewrite (R1 pl NP).
      apply SKIP; [apply HF; exact HP|]. apply ZS; [exact HP|]. apply FZ; assumption.
    - assert (NM : c_mono c = false).
      { destruct (c_mono c) eqn:EM; [|reflexivity]. exfalso. apply UZ. destruct (su_mono _ _ _ SU EM _ HIdx) as (M1 & M2). rewrite LU3, M1, M2. reflexivity. }
      rewrite NM. cbn [negb].
      set (dir := if uv_pri kr k =? 0 then 0 else uv_dir (fst (dirvar kr k))).
      destruct (uv_dir_ok _ HDr) as (EU & RU).
      assert (HDi : 0 <= dir < 8) by (unfold dir; destruct (_ =? 0); [lia|exact RU]).
      match goal with |- exists fr2, obind ?e _ = Ok fr2 /\ _ => assert (ED : e = Ok dir) end.
      { unfold dir. destruct (Z.eqb_spec (uv_pri kr k) 0) as [UP|UP]; cbn [negb]; [reflexivity|].
        rewrite (DVS (or_intror UP)).
        destruct (dirvar kr k) as (d & var). cbn [fst snd obind] in *. exact EU. }
      rewrite ED. cbn [obind]. clear ED.
      assert (NZ : uv_pri kr k <> 0 \/ uv_sec kr k <> 0).
      { destruct (Z.eq_dec (uv_pri kr k) 0) as [U1|U1]; [|left; exact U1]. destruct (Z.eq_dec (uv_sec kr k) 0) as [U2|U2]; [|right; exact U2]. exfalso. apply UZ.
        apply (level_zero _ _ _ (conj LU1 (conj LU2 LU3))). unfold uv_pri, uv_sec in U1, U2. clear - PP U1 U2. nia. }
      assert (FLT : forall pl (fr : Z -> plane), pl = 1 \/ pl = 2 -> fr pl = r_fr r pl ->
        exists p', filter_block bd (c_rows c pl) (c_stride c pl) (shift_y c pl (by_ * 4)) (shift_x c pl (2 * k * 4))
          (fun y x => rd2 8 2 (bak2 bit pl) y x) (top_of c st sbrow_start by_start by_ (2 * k) sby pl)
          (bot_of c fr sbrow_start by_start by_end by_ (2 * k) sby pl) (uv_pri kr k) (uv_sec kr k) dir (c_damping c + (bd - 8) - 1) (shift_x c pl 8) (shift_y c pl 8)
          {| e_left := 0 <? k; e_right := k + 1 <? KX; e_top := 0 <? kr; e_bottom := kr + 1 <? KY |} (fr pl) = Ok p' /\ pl_inv (k + 1) pl p').
      { intros pl fr HPl EF. assert (HP : plok c pl) by (right; auto).
        apply (plane_filter k pl fr (fun y x => rd2 8 2 (bak2 bit pl) y x)); try assumption.
        - rewrite EF. apply HF. exact HP.
        - intros K0 y x Hy Hx. apply (LEFT pl HP); [|assumption..]. apply FU; [lia|exact UZ].
        - rewrite EDa. lia.
        - intros N. apply (SB6 N). rewrite EDa. lia.
        - intros Y X HY HX. unfold dir. apply out_uv; [lia|assumption..]. }
      destruct (FLT 1 fr1 ltac:(lia) (R1 1 ltac:(lia))) as (p1 & E1 & Q2). rewrite E1. cbn [obind].
      destruct (FLT 2 (set_at fr1 1 p1) ltac:(lia)) as (p2 & E2 & Q3); [rewrite set_at_other by lia; apply R1; lia|]. rewrite E2. cbn [obind].
      eexists. split; [reflexivity|]. intros pl HP. destruct HP as [->|(_ & [->| ->])].
      + rewrite !set_at_other by lia. exact Q1.
      + rewrite set_at_other, set_at_same by lia. exact Q2.
      + rewrite set_at_same. exact Q3. }
  destruct L2 as (fr2 & E2 & Q2). rewrite E2. cbn [obind]. eexists. split; [reflexivity|]. cbn [r_fr r_left r_right].
  split; [exact Q2|]. split; [reflexivity|]. split; [reflexivity|]. intros K1 pl HP. cbn [r_last_skip r_prev r_bak r_bit].
  destruct (grp flag pl) eqn:EG; [left; split; [reflexivity|]; split; [reflexivity|]; apply (HB3 K1 pl HP EG)|].
  right. split; [right; reflexivity|]. intros Y X HY HX. apply (ZS pl HP EG); [exact HY|]. pose proof (bsx_pos pl). unfold in_col. lia.
Qed.

(** ** The row *)
Lemma bit_at : forall M s, 0 <= s -> (Z.land M (Z.shiftl 3 s) =? 0) = negb (Z.testbit M s) && negb (Z.testbit M (s + 1)).
Proof.
  clear. intros M s Hs.
  assert (T : forall i, 0 <= i -> Z.testbit (Z.shiftl 3 s) i = (i =? s) || (i =? s + 1)).
  { intros i Hi. rewrite Z.shiftl_spec by lia. destruct (Z.eqb_spec i s) as [->|]; [rewrite Z.sub_diag; reflexivity|].
    destruct (Z.eqb_spec i (s + 1)) as [->|]; [replace (s + 1 - s) with 1 by lia; reflexivity|]. cbn [orb].
    destruct (Z.lt_ge_cases i s); [apply Z.testbit_neg_r; lia|]. apply (Z.bits_above_log2 3); [lia|]. change (Z.log2 3) with 1. lia. }
  destruct (Z.testbit M s) eqn:A, (Z.testbit M (s + 1)) eqn:B; cbn [negb andb]; try apply Z.eqb_neq; try apply Z.eqb_eq.
  1,2: intros E; assert (Q : Z.testbit (Z.land M (Z.shiftl 3 s)) s = true) by (rewrite Z.land_spec, T, A, Z.eqb_refl by lia; reflexivity); rewrite E, Z.bits_0 in Q; discriminate.
  - intros E; assert (Q : Z.testbit (Z.land M (Z.shiftl 3 s)) (s + 1) = true) by (rewrite Z.land_spec, T, B, Z.eqb_refl, orb_true_r by lia; reflexivity); rewrite E, Z.bits_0 in Q; discriminate.
  - apply Z.bits_inj'. intros i Hi. rewrite Z.land_spec, T, Z.bits_0 by lia.
    destruct (Z.eqb_spec i s) as [->|]; [rewrite A; reflexivity|]. destruct (Z.eqb_spec i (s + 1)) as [->|]; [rewrite B; reflexivity|]. apply andb_false_r.
Qed.
Lemma bit_pair : forall n0 n1 b, 0 <= n0 < 2 ^ 16 -> 0 <= n1 < 2 ^ 16 -> 0 <= b < 32 ->
  Z.testbit (Z.lor (Z.shiftl n1 16) n0) b = if b <? 16 then Z.testbit n0 b else Z.testbit n1 (b - 16).
Proof.
  clear. intros n0 n1 b H0 H1 Hb. rewrite Z.lor_spec, Z.shiftl_spec by lia. destruct (Z.ltb_spec b 16).
  - rewrite (Z.testbit_neg_r n1) by lia. reflexivity.
  - rewrite <- (Z.mod_small n0 (2 ^ 16)) by lia. rewrite (Z.mod_pow2_bits_high n0) by lia. apply orb_false_r.
Qed.
Lemma land_even : forall a b, Z.land (2 * a) (2 * b) = 2 * Z.land a b.
Proof. clear. intros a b. rewrite <- !(Z.shiftl_mul_pow2 _ 1) || idtac. replace (2 * a) with (Z.shiftl a 1) by (rewrite Z.shiftl_mul_pow2 by lia; lia).
  replace (2 * b) with (Z.shiftl b 1) by (rewrite Z.shiftl_mul_pow2 by lia; lia). rewrite <- Z.shiftl_land. rewrite Z.shiftl_mul_pow2 by lia. lia. Qed.
Lemma land30 : forall a, Z.land (2 * a) 30 = 2 * (a mod 16).
Proof. clear. intros a. change 30 with (2 * 15). rewrite land_even. change 15 with (Z.ones 4). rewrite Z.land_ones by lia. reflexivity. Qed.
Lemma land16 : forall a, Z.shiftr (Z.land a 16) 3 = 2 * ((a / 16) mod 2).
Proof.
  clear. intros a. change 16 with (2 ^ 4) at 2. rewrite <- Z.testbit_spec' by lia.
  assert (E : Z.land a 16 = Z.shiftl (Z.b2z (Z.testbit a 4)) 4).
  { apply Z.bits_inj'. intros i Hi. rewrite Z.land_spec, Z.shiftl_spec by lia. change 16 with (2 ^ 4). rewrite Z.pow2_bits_eqb by lia.
    destruct (Z.eqb_spec 4 i) as [<-|N]; [rewrite Z.sub_diag, andb_true_r, Z.b2z_bit0; reflexivity|]. rewrite andb_false_r. symmetry.
    destruct (Z.lt_ge_cases i 4); [apply Z.testbit_neg_r; lia|]. destruct (Z.testbit a 4); cbn [Z.b2z]; [|apply Z.bits_0]. apply (Z.bits_above_log2 1); [lia|]. change (Z.log2 1) with 0. lia. }
  rewrite E. destruct (Z.testbit a 4); reflexivity.
Qed.
Lemma noskip_eq : forall sbx k, 8 * sbx <= k < 8 * sbx + 8 -> 0 <= k < KX ->
  (Z.land (Z.lor (Z.shiftl (m_noskip m (sbx / 2) ((by_ mod 32) / 2) 1) 16) (m_noskip m (sbx / 2) ((by_ mod 32) / 2) 0)) (u32 (Z.shiftl 3 (Z.land (2 * k) 30))) =? 0) = skipped kr k.
Proof.
  intros sbx k Hs Hk. rewrite land30. pose proof (Z.mod_pos_bound k 16 ltac:(lia)) as R.
  assert (U : u32 (Z.shiftl 3 (2 * (k mod 16))) = Z.shiftl 3 (2 * (k mod 16))).
  { apply u32_small. rewrite Z.shiftl_mul_pow2 by lia. assert (P : 2 ^ (2 * (k mod 16)) <= 2 ^ 30) by (apply Z.pow_le_mono_r; lia).
    pose proof (Z.pow_pos_nonneg 2 (2 * (k mod 16)) ltac:(lia) ltac:(lia)). lia. }
  rewrite U, bit_at by lia.
  pose proof (mo_range _ _ _ _ MO (sbx / 2) 0 ltac:(lia)) as R0. pose proof (mo_range _ _ _ _ MO (sbx / 2) 1 ltac:(lia)) as R1.
  pose proof (su_cols _ _ _ SU) as (CC & _). fold KX in CC.
  assert (B : forall e, e = 0 \/ e = 1 -> negb (Z.testbit (Z.lor (Z.shiftl (m_noskip m (sbx / 2) ((by_ mod 32) / 2) 1) 16) (m_noskip m (sbx / 2) ((by_ mod 32) / 2) 0)) (2 * (k mod 16) + e))
    = S.Skips v by_ (2 * k + e) && S.Skips v (by_ + 1) (2 * k + e)).
  { intros e He. rewrite <- (negb_involutive (S.Skips v by_ (2 * k + e) && _)). f_equal. rewrite <- (mo_noskip _ _ _ _ MO (2 * k + e) ltac:(lia)).
    rewrite bit_pair by lia.
    assert (E1 : (2 * k + e) / 32 = sbx / 2) by (clear - Hs He; Z.div_mod_to_equations; lia).
    rewrite E1. destruct (Z.ltb_spec (2 * (k mod 16) + e) 16).
    - assert (E2 : (2 * k + e) / 16 mod 2 = 0) by (clear - H He; Z.div_mod_to_equations; lia).
      assert (E3 : (2 * k + e) mod 16 = 2 * (k mod 16) + e) by (clear - H He; Z.div_mod_to_equations; lia). rewrite E2, E3. reflexivity.
    - assert (E2 : (2 * k + e) / 16 mod 2 = 1) by (clear - H He; Z.div_mod_to_equations; lia).
      assert (E3 : (2 * k + e) mod 16 = 2 * (k mod 16) + e - 16) by (clear - H He; Z.div_mod_to_equations; lia). rewrite E2, E3. reflexivity. }
  pose proof (B 0 ltac:(lia)) as B0. pose proof (B 1 ltac:(lia)) as B1. rewrite !Z.add_0_r in B0. rewrite B0, B1. unfold skipped. fold by_.
  destruct (S.Skips v by_ (2 * k)), (S.Skips v (by_ + 1) (2 * k)), (S.Skips v by_ (2 * k + 1)), (S.Skips v (by_ + 1) (2 * k + 1)); reflexivity.
Qed.

Definition row_inv (k : Z) (r : rowst) : Prop :=
  fr_inv k (r_fr r) /\ r_left r = (0 <? k) /\ (k < KX -> r_right r = true) /\ (0 < k < KX -> left_inv k r).
Lemma dir_range : forall k, 0 <= k < KX -> 0 <= fst (dirvar kr k) < 8.
Proof.
  intros k Hk. apply (dirvar_ok kr k (fun y x => Ok (Cur 0 (8 * kr + y) (8 * k + x))) Hkr Hk). intros Y X _ _. f_equal. f_equal; lia.
Qed.
(** Blocks that do not change. *)
Lemma skip_inv : forall k k' r r', 0 <= k < k' -> k' <= KX -> row_inv k r -> r_fr r' = r_fr r -> r_left r' = true -> (k' < KX -> r_right r' = true) -> r_last_skip r' = true ->
  (forall pl kk Y X, plok c pl -> k <= kk < k' -> in_row pl kr Y -> in_col pl kk X -> Out pl Y X = Cur pl Y X) -> row_inv k' r'.
Proof.
  intros k k' r r' Hk Hk' (A & B & C & D) E1 E2 E3 E4 H.
  assert (H' : forall pl Y X, plok c pl -> in_row pl kr Y -> bsx c pl * k <= X < bsx c pl * k' -> Out pl Y X = Cur pl Y X).
  { intros pl Y X HP HY HX. pose proof (bsx_pos pl) as PX. apply (H pl (X / bsx c pl)); [exact HP| |exact HY|].
    - split; [apply Z.div_le_lower_bound; lia|apply Z.div_lt_upper_bound; lia].
    - unfold in_col. set (b := bsx c pl) in *. clearbody b. clear - PX. pose proof (Z.div_mod X b ltac:(lia)). pose proof (Z.mod_pos_bound X b ltac:(lia)). nia. }
  split; [|split; [|split; [exact E3|]]].
  - intros pl HP. rewrite E1. apply (pl_skip k k'); [lia|lia|apply A; exact HP|]. intros Y X HY HX. apply (H' pl); assumption.
  - rewrite E2. symmetry. apply Z.ltb_lt. lia.
  - intros _ pl HP. right. split; [left; exact E4|]. intros Y X HY HX. pose proof (bsx_pos pl) as PX. apply (H' pl Y X HP HY).
    split; [|lia]. assert (k + 1 <= k') by lia. nia.
Qed.
Hypothesis HCur : fr_inv 0 (s_fr st).
Lemma row_ok : forall bit, exists r, brow_row c m st by_start by_end sbrow_start sby (0 <? kr) (kr + 1 <? KY) by_ bit = Ok r /\ fr_inv KX (r_fr r).
Proof.
  intros bit. unfold brow_row. cbv zeta.
  pose proof (su_cols _ _ _ SU) as (CC & CP). fold KX in CC. pose proof (su_sb64w _ _ _ SU) as CW.
  match goal with |- context [for_ 0 _ ?f ?s0] => destruct (for_inv _ (fun sbx r => row_inv (Z.min (8 * sbx) KX) r) f 0 (c_sb64w c) s0 ltac:(lia)) as (r & E & Q) end.
  - rewrite Z.min_l by lia. split; [exact HCur|]. cbn [r_left r_right]. split; [reflexivity|]. split; [reflexivity|lia].
  - intros sbx r Hs HI. set (k0 := Z.min (8 * sbx) KX) in *. set (k1 := Z.min (8 * (sbx + 1)) KX).
    assert (EI : Z.shiftr (Z.land by_ 16) 3 + Z.land sbx 1 = 2 * ((by_ / 16) mod 2) + sbx mod 2).
    { rewrite land16. f_equal. change 1 with (Z.ones 1). rewrite Z.land_ones by lia. reflexivity. }
    rewrite EI. rewrite !(Z.shiftr_div_pow2 sbx 1) by lia. change (2 ^ 1) with 2.
    assert (EB : Z.shiftr (Z.land by_ 30) 1 = (by_ mod 32) / 2).
    { unfold by_. rewrite land30. rewrite Z.shiftr_div_pow2 by lia. change (2 ^ 1) with 2. clear. Z.div_mod_to_equations; lia. }
    rewrite EB. clear EI EB.
    destruct (mo_idx _ _ _ _ MO sbx Hs) as (IR & IE). set (idx := m_idx m (sbx / 2) (2 * ((by_ / 16) mod 2) + sbx mod 2)) in *.
    assert (IA : forall k, k0 <= k < k1 -> idx_at kr k = idx).
    { intros k Hk. unfold idx_at. fold by_. rewrite IE by lia. f_equal. clear - Hk. subst k0 k1. Z.div_mod_to_equations; lia. }
    (* a 64x64 block that does not change *)
    assert (WHOLE : (forall pl kk Y X, plok c pl -> k0 <= kk < k1 -> in_row pl kr Y -> in_col pl kk X -> Out pl Y X = Cur pl Y X) ->
      row_inv k1 (mkRow (r_fr r) (r_bak r) (r_bit r) true (r_prev r) true (r_right r))).
    { intros H. destruct (Z.lt_ge_cases k0 k1) as [L|L].
      - apply (skip_inv k0 k1 r); try reflexivity; try assumption; [lia|lia|]. cbn [r_right]. intros. apply HI. lia.
      - assert (k1 = KX /\ k0 = KX) as (-> & EK) by lia. rewrite EK in HI. destruct HI as (A & B & _ & _). split; [exact A|]. cbn [r_left r_right]. split; [|split; intros; lia].
        symmetry. apply Z.ltb_lt. lia. }
    destruct (Z.eqb_spec idx (-1)) as [EM|EM].
    + cbn [obind r_fr r_bak r_bit r_last_skip r_prev r_left r_right]. eexists. split; [reflexivity|]. apply WHOLE.
      intros pl kk Y X HP Hkk HY HX. apply (out_skip pl kr kk Y X HY HX). left. rewrite IA by exact Hkk. exact EM.
    + destruct (su_y _ _ _ SU idx ltac:(lia)) as (y_lvl & EY & LY). rewrite EY. cbn [obind].
      destruct (su_uv _ _ _ SU idx ltac:(lia)) as (uv_lvl & EU & LU). rewrite EU. cbn [obind].
      destruct ((y_lvl =? 0) && (uv_lvl =? 0)) eqn:EZ.
      * cbn [obind r_fr r_bak r_bit r_last_skip r_prev r_left r_right]. eexists. split; [reflexivity|]. apply WHOLE.
        apply andb_true_iff in EZ. destruct EZ as (Z1 & Z2). apply Z.eqb_eq in Z1, Z2.
        intros pl kk Y X HP Hkk HY HX. destruct (skipped kr kk) eqn:ES; [apply (out_skip pl kr kk Y X HY HX); right; exact ES|].
        rewrite <- (IA kk Hkk) in EM, LY, LU.
        apply (zero_same kk pl y_lvl uv_lvl HP ltac:(lia) EM ES (dir_range kk ltac:(lia)) LY LU); [|exact HY|exact HX].
        rewrite Z1, Z2. unfold grp. destruct (pl =? 0); reflexivity.
      * rewrite (su_bw _ _ _ SU).
        replace ((Z.min ((sbx + 1) * 16) (S.MiCols v) - sbx * 16 + 1) / 2) with (Z.min (8 * (sbx + 1)) KX - 8 * sbx)
          by (rewrite CC; clear; Z.div_mod_to_equations; lia).
        fold k1.
        match goal with |- context [for_ 0 (k1 - 8 * sbx) ?f r] => assert (LOOP : exists r', for_ 0 (k1 - 8 * sbx) f r = Ok r' /\ row_inv k1 r') end.
        { destruct (Z.lt_ge_cases (8 * sbx) KX) as [L|L].
          - assert (EK : k0 = 8 * sbx) by lia. rewrite EK in HI.
            match goal with |- exists r', for_ 0 _ ?f r = Ok r' /\ _ => destruct (for_inv _ (fun j r => row_inv (8 * sbx + j) r) f 0 (k1 - 8 * sbx) r ltac:(lia)) as (r' & E & Q) end.
            + rewrite Z.add_0_r. exact HI.
            + intros j q Hj HQ. set (k := 8 * sbx + j) in *. replace (sbx * 16 + 2 * j) with (2 * k) by lia.
              rewrite (noskip_eq sbx k ltac:(lia) ltac:(lia)).
              set (q1 := if S.MiCols v <=? 2 * k + 2 then mkRow (r_fr q) (r_bak q) (r_bit q) (r_last_skip q) (r_prev q) (r_left q) false else q).
              assert (Q1 : r_fr q1 = r_fr q /\ r_left q1 = r_left q /\ r_right q1 = (k + 1 <? KX) /\ r_last_skip q1 = r_last_skip q /\ r_prev q1 = r_prev q /\ r_bak q1 = r_bak q /\ r_bit q1 = r_bit q).
              { unfold q1. destruct (Z.leb_spec (S.MiCols v) (2 * k + 2)); cbn [r_fr r_bak r_bit r_last_skip r_prev r_left r_right]; repeat split.
                - symmetry. apply Z.ltb_ge. lia.
                - transitivity true; [apply HQ; lia|]. symmetry. apply Z.ltb_lt. lia. }
              clearbody q1. destruct Q1 as (F1 & F2 & F3 & F4 & F5 & F6 & F7).
              destruct (skipped kr k) eqn:ES.
              * cbn [obind r_fr r_bak r_bit r_last_skip r_prev r_left r_right]. eexists. split; [reflexivity|]. replace (8 * sbx + (j + 1)) with (k + 1) by lia.
                apply (skip_inv k (k + 1) q); cbn [r_fr r_bak r_bit r_last_skip r_prev r_left r_right]; try reflexivity; try assumption; [lia|lia|intros; rewrite F3; apply Z.ltb_lt; lia|].
                intros pl kk Y X HP Hkk HY HX. replace kk with k in HX by lia. apply (out_skip pl kr k Y X HY HX). right. exact ES.
              * destruct HQ as (A & B & C & D).
                assert (IK : idx_at kr k = idx) by (apply IA; lia).
                destruct (block_ok k y_lvl uv_lvl q1 ltac:(lia)) as (r' & E & R1 & R2 & R3 & R4).
                -- intros pl HP. rewrite F1. apply A. exact HP.
                -- rewrite F2. exact B.
                -- exact F3.
                -- intros K0 pl HP. rewrite F4, F5, F6, F7. apply (D ltac:(lia) pl HP).
                -- rewrite IK. lia.
                -- exact ES.
                -- rewrite IK. exact LY.
                -- rewrite IK. exact LU.
                -- rewrite E. cbn [obind]. eexists. split; [reflexivity|]. replace (8 * sbx + (j + 1)) with (k + 1) by lia.
                   split; [exact R1|]. cbn [r_fr r_bak r_bit r_last_skip r_prev r_left r_right]. split; [symmetry; apply Z.ltb_lt; lia|].
                   split; [intros; rewrite R3, F3; apply Z.ltb_lt; lia|]. intros (_ & K1). exact (R4 K1).
            + exists r'. split; [exact E|]. replace (8 * sbx + (k1 - 8 * sbx)) with k1 in Q by lia. exact Q.
          - exists r. split; [apply for_nil; lia|]. replace k1 with k0 by lia. exact HI. }
        destruct LOOP as (r' & EL & Q). rewrite EL. cbn [obind]. eexists. split; [reflexivity|].
        destruct Q as (A & B & C & D). split; [exact A|]. cbn [r_fr r_bak r_bit r_last_skip r_prev r_left r_right]. split; [symmetry; apply Z.ltb_lt; lia|]. split; [exact C|exact D].
  - exists r. split; [exact E|]. replace (Z.min (8 * c_sb64w c) KX) with KX in Q by lia. apply Q.
Qed.
End BlockRow.
End Frame.

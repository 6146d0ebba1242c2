(** C46: translational motion compensation. The prediction of a block by mc() is that of the AV1 specification, from
    reference frames of the same or of another size, and so is the combination of two predictions of a compound block. *)
From Coq Require Import ZArith List Bool Lia.
From Verif Require Import Base.CInt Base.Loop Cdef.Block Mc.Model Mc.Kernel Mc.Blocks Mc.Whole Mc.Compound.
From Verif Require Mc.Spec.
Import ListNotations.
Open Scope Z_scope.
Local Open Scope outcome_scope.

(** One prediction: every sample of the block is the clipped block inter prediction, and nothing else is written.
    [S] are the samples of the plane of the reference frame; nothing outside of it is read. *)
Theorem C46_single : forall f d rows stride y0 x0 bw4 bh4 bx by_ pl mvx mvy refdata S f0 f1 filter_2d,
  let sx := Spec.subX (m_layout f) pl in let sy := Spec.subY (m_layout f) pl in
  let x := bx * 4 / 2 ^ sx in let y := by_ * 4 / 2 ^ sy in let w := bw4 * 4 / 2 ^ sx in let h := bh4 * 4 / 2 ^ sy in
  frame_ok f -> m_same f = false -> 1 <= bw4 <= 32 -> 1 <= bh4 <= 32 -> 0 <= bx < 2 ^ 15 -> 0 <= by_ < 2 ^ 15 -> int16 mvx -> int16 mvy ->
  filter_ok f0 f1 filter_2d -> ref_ok f pl refdata S ->
  0 <= y0 -> y0 + h <= rows -> 0 <= x0 -> x0 + w <= stride ->
  exists d', mc f true (st_px rows stride y0 x0) d bw4 bh4 bx by_ pl mvx mvy refdata filter_2d = Ok d' /\
    (forall r c, 0 <= r < h -> 0 <= c < w -> d' (y0 + r) (x0 + c) =
      Some (Spec.single (m_bd f) (Spec.block_inter (m_bd f) false S (m_rw f) (m_rh f) (m_w f) (m_h f) sx sy x y w h mvy mvx f0 f1 r c))) /\
    (forall Y X, ~ (y0 <= Y < y0 + h /\ x0 <= X < x0 + w) -> d' Y X = d Y X).
Proof.
  intros f d rows stride y0 x0 bw4 bh4 bx by_ pl mvx mvy refdata S f0 f1 filter_2d sx sy x y w h FO NS Hw Hh Hx Hy Mx My HF HR B1 B2 B3 B4.
  exact (mc_at f true (st_px rows stride y0 x0) d y0 x0 bw4 bh4 bx by_ pl mvx mvy refdata S f0 f1 filter_2d Hw Hh HF
    (st_px_ok rows stride y0 x0 w h (fun _ => True) B1 B2 B3 B4) FO NS Hx Hy Mx My HR).
Qed.
Print Assumptions C46_single.

(** The prediction for a compound block is the same without the clipping, less a constant that makes it fit 16 bits. *)
Theorem C46_prepared : forall f d bw4 bh4 bx by_ pl mvx mvy refdata S f0 f1 filter_2d,
  let sx := Spec.subX (m_layout f) pl in let sy := Spec.subY (m_layout f) pl in
  let x := bx * 4 / 2 ^ sx in let y := by_ * 4 / 2 ^ sy in let w := bw4 * 4 / 2 ^ sx in let h := bh4 * 4 / 2 ^ sy in
  frame_ok f -> m_same f = false -> 1 <= bw4 <= 32 -> 1 <= bh4 <= 32 -> 0 <= bx < 2 ^ 15 -> 0 <= by_ < 2 ^ 15 -> int16 mvx -> int16 mvy ->
  filter_ok f0 f1 filter_2d -> ref_ok f pl refdata S ->
  exists d', mc f false (st_tmp w h) d bw4 bh4 bx by_ pl mvx mvy refdata filter_2d = Ok d' /\
    (forall r c, 0 <= r < h -> 0 <= c < w -> d' r c =
      Some (Spec.block_inter (m_bd f) true S (m_rw f) (m_rh f) (m_w f) (m_h f) sx sy x y w h mvy mvx f0 f1 r c - (if m_bd f =? 8 then 0 else 8192))).
Proof.
  intros f d bw4 bh4 bx by_ pl mvx mvy refdata S f0 f1 filter_2d sx sy x y w h FO NS Hw Hh Hx Hy Mx My HF HR.
  destruct (mc_at f false (st_tmp w h) d 0 0 bw4 bh4 bx by_ pl mvx mvy refdata S f0 f1 filter_2d Hw Hh HF (st_tmp_ok w h) FO NS Hx Hy Mx My HR) as (d' & E & A & _).
  exists d'. split; [exact E|]. intros r c Hr Hc. specialize (A r c Hr Hc). rewrite !Z.add_0_l in A. rewrite A. unfold value, at_block, prep_bias. cbn [negb]. cbv zeta. reflexivity.
Qed.
Print Assumptions C46_prepared.

(** A compound block: average, distance weights, difference weights and wedges, luma and then chroma with the mask of
    luma. [two] is the block inter prediction from either reference and [Spec.compound] their combination. *)
Theorem C46_compound_luma : forall k ct layout bd S wedge f0 f1 d rows stride y0 x0,
  comp_ok k layout bd f0 f1 -> wedge_ok k ct layout wedge -> refs_ok k S 0 ->
  let w := k_bw4 k * 4 in let h := k_bh4 k * 4 in
  0 <= y0 -> y0 + h <= rows -> 0 <= x0 -> x0 + w <= stride ->
  exists d' mask, comp_luma k ct (st_px rows stride y0 x0) d = Ok (d', mask) /\
    (forall r c, 0 <= r < h -> 0 <= c < w -> d' (y0 + r) (x0 + c) = Some (Spec.compound bd layout (ctype ct) (two k S f0 f1) wedge 0 r c)) /\
    (forall Y X, ~ (y0 <= Y < y0 + h /\ x0 <= X < x0 + w) -> d' Y X = d Y X) /\
    mask_good k ct layout bd S wedge f0 f1 mask.
Proof.
  intros k ct layout bd S wedge f0 f1 d rows stride y0 x0 CO WO RO w h B1 B2 B3 B4.
  assert (EW : bw k layout 0 = w) by (unfold bw; change (Spec.subX layout 0) with 0; apply Z.div_1_r).
  assert (EH : bh k layout 0 = h) by (unfold bh; change (Spec.subY layout 0) with 0; apply Z.div_1_r).
  destruct (comp_luma_ok k ct layout bd S wedge f0 f1 CO WO (st_px rows stride y0 x0) d y0 x0 RO) as (d' & mask & E & (A & B) & M).
  - rewrite EW, EH. apply st_px_ok; assumption.
  - rewrite EW, EH in A, B. exists d', mask. split; [exact E|]. split; [exact A|]. split; [exact B|exact M].
Qed.
Print Assumptions C46_compound_luma.

Theorem C46_compound_chroma : forall k ct layout bd S wedge f0 f1 d rows stride y0 x0 pl mask,
  comp_ok k layout bd f0 f1 -> wedge_ok k ct layout wedge -> refs_ok k S pl -> layout <> 0 -> pl = 1 \/ pl = 2 ->
  mask_good k ct layout bd S wedge f0 f1 mask ->
  let w := k_bw4 k * 4 / 2 ^ Spec.subX layout pl in let h := k_bh4 k * 4 / 2 ^ Spec.subY layout pl in
  0 <= y0 -> y0 + h <= rows -> 0 <= x0 -> x0 + w <= stride ->
  exists d', comp_chroma k ct pl mask (st_px rows stride y0 x0) d = Ok d' /\
    (forall r c, 0 <= r < h -> 0 <= c < w -> d' (y0 + r) (x0 + c) = Some (Spec.compound bd layout (ctype ct) (two k S f0 f1) wedge pl r c)) /\
    (forall Y X, ~ (y0 <= Y < y0 + h /\ x0 <= X < x0 + w) -> d' Y X = d Y X).
Proof.
  intros k ct layout bd S wedge f0 f1 d rows stride y0 x0 pl mask CO WO RO NZ Hpl MG w h B1 B2 B3 B4.
  exact (comp_chroma_ok k ct layout bd S wedge f0 f1 CO (st_px rows stride y0 x0) d y0 x0 pl mask ltac:(lia) NZ MG RO
    (st_px_ok rows stride y0 x0 w h (fun _ => True) B1 B2 B3 B4)).
Qed.
Print Assumptions C46_compound_chroma.

(** Intra block copy: of a block that lies inside of the tile, only samples of the tile matter. *)
Theorem C46_intrabc : forall f d rows stride y0 x0 bw4 bh4 bx by_ pl mvx mvy refdata S lastX lastY,
  let sx := Spec.subX (m_layout f) pl in let sy := Spec.subY (m_layout f) pl in
  let w := bw4 * 4 / 2 ^ sx in let h := bh4 * 4 / 2 ^ sy in let x := bx * 4 / 2 ^ sx in let y := by_ * 4 / 2 ^ sy in
  let W := m_bw f * 4 / 2 ^ sx in let H := m_bh f * 4 / 2 ^ sy in
  depth (m_bd f) -> m_same f = true -> m_rw f = m_w f -> m_rh f = m_h f -> 1 <= m_bw f -> 1 <= m_bh f -> 1 <= bw4 <= 32 -> 1 <= bh4 <= 32 ->
  (forall r c, 0 <= r < H -> 0 <= c < W -> refdata r c = Ok (S r c) /\ pixel (m_bd f) (S r c)) ->
  inside sx x mvx w lastX -> inside sy y mvy h lastY -> lastX <= W - 1 -> lastY <= H - 1 ->
  0 <= y0 -> y0 + h <= rows -> 0 <= x0 -> x0 + w <= stride ->
  exists d', mc f true (st_px rows stride y0 x0) d bw4 bh4 bx by_ pl mvx mvy refdata 9 = Ok d' /\
    (forall r c, 0 <= r < h -> 0 <= c < w -> d' (y0 + r) (x0 + c) = Some (Spec.single (m_bd f) (Spec.block_copy (m_bd f) S lastX lastY sx sy x y w h mvy mvx r c))) /\
    (forall Y X, ~ (y0 <= Y < y0 + h /\ x0 <= X < x0 + w) -> d' Y X = d Y X).
Proof.
  intros f d rows stride y0 x0 bw4 bh4 bx by_ pl mvx mvy refdata S lastX lastY sx sy w h x y W H D SM E1 E2 BW BH Hw Hh HS IX IY LX LY B1 B2 B3 B4.
  exact (copy_at f (st_px rows stride y0 x0) d y0 x0 bw4 bh4 bx by_ pl mvx mvy refdata S lastX lastY D SM E1 E2 BW BH Hw Hh
    (st_px_ok rows stride y0 x0 w h (fun _ => True) B1 B2 B3 B4) HS IX IY LX LY).
Qed.
Print Assumptions C46_intrabc.

(** * The hypotheses can be met, and the model computes *)
Definition ramp (r c : Z) : Z := (37 * r + 11 * c + r * c) mod 256.
Definition small (rw rh : Z) : mc_in := {| m_bd := 8; m_layout := 1; m_w := 12; m_h := 12; m_bw := 4; m_bh := 4; m_rw := rw; m_rh := rh; m_same := false;
  m_scale_x := (rw * 16384 + 6) / 12; m_step_x := ((rw * 16384 + 6) / 12 + 8) / 16; m_scale_y := (rh * 16384 + 6) / 12; m_step_y := ((rh * 16384 + 6) / 12 + 8) / 16 |}.
Definition ramp_ref (rw rh r c : Z) : outcome Z := if (0 <=? r) && (r <? rh) && (0 <=? c) && (c <? rw) then Ok (ramp r c) else Undef.
Example small_frame : frame_ok (small 12 12) /\ frame_ok (small 16 9) /\ ref_ok (small 16 9) 0 (ramp_ref 16 9) ramp /\ filter_ok 2 1 8 /\ filter_ok 1 2 4 /\ int16 (-23).
Proof.
  assert (F : forall rw rh, 1 <= rw <= 24 -> 1 <= rh <= 24 -> frame_ok (small rw rh)).
  { intros rw rh H1 H2. constructor; cbn [small m_bd m_w m_h m_rw m_rh m_scale_x m_scale_y m_step_x m_step_y]; try lia; [left; reflexivity| |];
    (intros _; unfold scale_fac, svc_step; rewrite Z.shiftl_mul_pow2, !Z.shiftr_div_pow2 by lia; change (2 ^ 14) with 16384; change (2 ^ 4) with 16; change (12 / 2 ^ 1) with 6;
     rewrite ck_ok by (unfold INT_MIN, INT_MAX; lia); cbn [obind]; rewrite ck_ok by (unfold INT_MIN, INT_MAX; lia); cbn [obind negb Z.eqb]; rewrite Z.quot_div_nonneg by lia; split; reflexivity). }
  split; [apply F; lia|]. split; [apply F; lia|]. split; [|split; [|split]].
  - intros r c Hr Hc. cbn in Hr, Hc. unfold ramp_ref, pixel. replace ((0 <=? r) && (r <? 9) && (0 <=? c) && (c <? 16)) with true by (symmetry; repeat (apply andb_true_iff; split); first [apply Z.leb_le|apply Z.ltb_lt]; lia).
    split; [reflexivity|]. change (2 ^ m_bd (small 16 9) - 1) with 255. assert (B := Z.mod_pos_bound (37 * r + 11 * c + r * c) 256 eq_refl). unfold ramp. lia.
  - unfold filter_ok. repeat split; lia.
  - unfold filter_ok. repeat split; lia.
  - unfold int16. lia.
Qed.
Example small_put : (let! d := mc (small 12 12) true (st_px 8 8 0 0) plane0 1 1 1 0 0 (-23) 13 (ramp_ref 12 12) 8 in rd2 8 8 d 2 1)
  = Ok (Spec.single 8 (Spec.block_inter 8 false ramp 12 12 12 12 0 0 4 0 4 4 13 (-23) 2 1 2 1)).
Proof. vm_compute. reflexivity. Qed.
Example small_scaled : (let! d := mc (small 16 9) true (st_px 8 8 0 0) plane0 1 1 1 0 0 (-23) 13 (ramp_ref 16 9) 4 in rd2 8 8 d 2 1)
  = Ok (Spec.single 8 (Spec.block_inter 8 false ramp 16 9 12 12 0 0 4 0 4 4 13 (-23) 1 2 2 1)).
Proof. vm_compute. reflexivity. Qed.
Example small_inside : inside 0 4 (-32) 4 7 /\ inside 1 4 (-8) 4 7.
Proof. unfold inside. cbv zeta. vm_compute. intuition discriminate. Qed.

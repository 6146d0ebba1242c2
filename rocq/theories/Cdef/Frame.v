(** Rows of blocks, superblock rows and the frame. *)
From Coq Require Import ZArith List Bool Lia Permutation.
From Verif Require Import Base.CInt Base.Lemmas Base.Loop Cdef.Model Cdef.Pixel Cdef.Block Cdef.Dir Cdef.Row.
From Verif Require Cdef.Spec.
Import ListNotations.
Open Scope Z_scope.

Section Frame.
Variable v : S.frame.
Variable Cur : S.picture.
Variable c : config.
Hypothesis SU : setup v c Cur.
Notation Out := (S.CdefFrame v Cur).
Notation KX := (KX v).
Notation KY := (KY v).

(** The rows of the blocks from [a] until [b], and the first two of the blocks at [a]. *)
Definition rows_are (P : S.picture) (fr : Z -> plane) (a b : Z) : Prop :=
  forall pl Y X, plok c pl -> bsy c pl * a <= Y < bsy c pl * b -> 0 <= X < bsx c pl * KX -> fr pl Y X = Some (P pl Y X).
Definition two_below (fr : Z -> plane) (a : Z) : Prop :=
  forall pl y X, plok c pl -> 0 <= y < 2 -> 0 <= X < bsx c pl * KX -> fr pl (bsy c pl * a + y) X = Some (Cur pl (bsy c pl * a + y) X).
(** Only the rows of the blocks from [a] until [b] differ. *)
Definition only_rows (fr fr' : Z -> plane) (a b : Z) : Prop :=
  forall pl Y X, plok c pl -> ~ (bsy c pl * a <= Y < bsy c pl * b) -> fr' pl Y X = fr pl Y X.
(** The saved rows are the two above the blocks at [kr]. *)
Definition line_has (st : state) (sby kr : Z) : Prop :=
  forall pl y X, plok c pl -> 0 <= y < 2 -> 0 <= X < bsx c pl * KX ->
    s_line st (s_tf st) pl (line_slot c sby pl + y) X = Some (Cur pl (bsy c pl * kr - 2 + y) X).
Definition only_lines (st st' : state) (sby : Z) : Prop :=
  forall t pl Y X, ~ (line_slot c sby pl <= Y < line_slot c sby pl + 2) -> s_line st' t pl Y X = s_line st t pl Y X.
(** What copy_lpf saved for other threads: rows above the blocks before superblock row
    [sby] ([kr] rows of blocks from the top), and rows below its last blocks. *)
Definition lpf_top (sby kr : Z) : Prop :=
  forall pl y X, plok c pl -> 0 <= y < 2 -> 0 <= X < bsx c pl * KX ->
    (if c_resize c then rd2 (c_cdef_rows c) (c_stride c pl) (c_cdef_lpf c pl) ((sby - 1) * 4 + y) X
     else rd2 (c_lr_rows c) (c_stride c pl) (c_lr_lpf c pl) (sby * Z.shiftl 4 (c_sb128 c) - 4 + y) X) = Ok (Cur pl (bsy c pl * kr - 2 + y) X).
Definition lpf_bottom (sby kr : Z) : Prop :=
  forall pl y X, plok c pl -> 0 <= y < 2 -> 0 <= X < bsx c pl * KX ->
    (if c_resize c then rd2 (c_cdef_rows c) (c_stride c pl) (c_cdef_lpf c pl) (sby * 4 + 2 + y) X
     else rd2 (c_lr_rows c) (c_stride c pl) (c_lr_lpf c pl) (sby * Z.shiftl 4 (c_sb128 c) + 4 * c_sb128 c + 2 + y) X) = Ok (Cur pl (bsy c pl * kr + y) X).

Lemma bsy_bounds : forall pl, 4 <= bsy c pl <= 8.
Proof. intros pl. apply size48_bounds, (bsy_size v Cur c SU). Qed.
Lemma bsx_bounds : forall pl, 4 <= bsx c pl <= 8.
Proof. intros pl. apply size48_bounds, (bsx_size v Cur c SU). Qed.
Lemma rows_alloc : forall pl, plok c pl -> bsy c pl * KY <= c_rows c pl /\ bsx c pl * KX <= c_stride c pl.
Proof. intros pl HP. destruct (su_alloc _ _ _ SU pl HP) as (A & B). rewrite (height_eq v Cur c SU) in A. rewrite (width_eq v Cur c SU) in B. split; assumption. Qed.
Lemma planes_ok : forall pl, plok c pl -> In pl (planes c).
Proof. intros pl [->|(M & H)]; unfold planes; [destruct (c_mono c); left; reflexivity|]. rewrite M. destruct H as [->| ->]; cbn; tauto. Qed.
Lemma planes_plok : forall pl, In pl (planes c) -> plok c pl.
Proof. intros pl. unfold planes. destruct (c_mono c) eqn:M; cbn [In]; intros H; [left; lia|]. destruct H as [<-|[<-|[<-|[]]]]; [left; reflexivity|right; auto|right; auto]. Qed.
Lemma rd2_some : forall h w b y x a, 0 <= y < h -> 0 <= x < w -> b y x = Some a -> rd2 h w b y x = Ok a.
Proof. intros h w b y x a Hy Hx E. unfold rd2. replace (0 <=? y) with true by (symmetry; apply Z.leb_le; lia). replace (y <? h) with true by (symmetry; apply Z.ltb_lt; lia).
  replace (0 <=? x) with true by (symmetry; apply Z.leb_le; lia). replace (x <? w) with true by (symmetry; apply Z.ltb_lt; lia). cbn [andb]. rewrite E. reflexivity. Qed.
Lemma slot_ok : forall sby pl, 0 <= sby < c_sbh c -> 0 <= line_slot c sby pl /\ line_slot c sby pl + 2 <= line_rows c pl.
Proof. intros sby pl H. unfold line_slot, line_rows. destruct (c_have_tt c), (pl =? 0); lia. Qed.

(** The rows saved for the next row of blocks. *)
Lemma backup2line_ok : forall fr line sby kr pl, plok c pl -> 0 <= kr < KY -> 0 <= sby < c_sbh c ->
  exists p, backup2line c fr line sby (2 * kr) pl = Ok (set_at line pl p) /\
    (forall y X, 0 <= y < 2 -> 0 <= X < bsx c pl * KX -> p (line_slot c sby pl + y) X = fr pl (bsy c pl * (kr + 1) - 2 + y) X) /\
    (forall Y X, ~ (line_slot c sby pl <= Y < line_slot c sby pl + 2) -> p Y X = line pl Y X).
Proof.
  intros fr line sby kr pl HP Hk Hs. unfold backup2line. cbv zeta. rewrite (y_at v Cur c SU).
  assert (EO : (if negb (pl =? 0) && (c_ssy c =? 1) then 2 else 6) = bsy c pl - 2).
  { unfold bsy, shift_y. destruct (pl =? 0); cbn [negb andb]; [reflexivity|]. rewrite (su_ssy _ _ _ SU). destruct (su_sub _ _ _ SU) as (_ & [E|E] & _); rewrite E; reflexivity. }
  rewrite EO. destruct (rows_alloc pl HP) as (A & B). pose proof (bsy_bounds pl). pose proof (slot_ok sby pl Hs) as (S0 & S1).
  set (y0 := bsy c pl * kr + (bsy c pl - 2)). assert (0 <= y0 /\ y0 + 2 <= c_rows c pl) as (G0 & G1) by (unfold y0; nia).
  apply Z.leb_le in G0, G1, S0, S1. rewrite G0, G1, S0, S1. cbn [andb]. eexists. split; [reflexivity|]. split.
  - intros y X Hy HX. unfold copy_rect. replace (line_slot c sby pl <=? line_slot c sby pl + y) with true by (symmetry; apply Z.leb_le; lia).
    replace (line_slot c sby pl + y <? line_slot c sby pl + 2) with true by (symmetry; apply Z.ltb_lt; lia).
    replace (0 <=? X) with true by (symmetry; apply Z.leb_le; lia). replace (X <? 0 + c_stride c pl) with true by (symmetry; apply Z.ltb_lt; lia). cbn [andb].
    f_equal; [unfold y0; ring|ring].
  - intros Y X HY. unfold copy_rect. destruct (Z.leb_spec (line_slot c sby pl) Y), (Z.ltb_spec Y (line_slot c sby pl + 2)); cbn [andb]; try reflexivity. lia.
Qed.
Lemma backup_ofold : forall fr sby kr, 0 <= kr < KY -> 0 <= sby < c_sbh c -> forall l, NoDup l -> (forall pl, In pl l -> plok c pl) -> forall line,
  exists line', ofold (fun pl line => backup2line c fr line sby (2 * kr) pl) l line = Ok line' /\
    (forall pl y X, In pl l -> 0 <= y < 2 -> 0 <= X < bsx c pl * KX -> line' pl (line_slot c sby pl + y) X = fr pl (bsy c pl * (kr + 1) - 2 + y) X) /\
    (forall pl Y X, ~ In pl l \/ ~ (line_slot c sby pl <= Y < line_slot c sby pl + 2) -> line' pl Y X = line pl Y X).
Proof.
  intros fr sby kr Hk Hs. induction l as [|p l IH]; intros ND HP line.
  - exists line. split; [reflexivity|]. split; [intros pl y X []|reflexivity].
  - inversion ND as [|? ? NI ND']; subst. destruct (backup2line_ok fr line sby kr p (HP p (or_introl eq_refl)) Hk Hs) as (q & E & Q1 & Q2).
    destruct (IH ND' (fun pl H => HP pl (or_intror H)) (set_at line p q)) as (line' & E' & R1 & R2).
    exists line'. split; [cbn [ofold]; rewrite E; cbn [obind]; exact E'|]. split.
    + intros pl y X [<-|HI] Hy HX; [|apply R1; assumption]. rewrite R2 by (left; exact NI). rewrite set_at_same. apply Q1; assumption.
    + intros pl Y X H. destruct (Z.eq_dec pl p) as [->|N].
      * rewrite R2 by (left; exact NI). rewrite set_at_same. apply Q2. destruct H as [H|H]; [exfalso; apply H; left; reflexivity|exact H].
      * rewrite R2 by (destruct H as [H|H]; [left; intros HI; apply H; right; exact HI|right; exact H]). rewrite set_at_other by exact N. reflexivity.
Qed.
Lemma backup2lines_ok : forall fr line sby kr, 0 <= kr < KY -> 0 <= sby < c_sbh c ->
  exists line', backup2lines c fr line sby (2 * kr) = Ok line' /\
    (forall pl y X, plok c pl -> 0 <= y < 2 -> 0 <= X < bsx c pl * KX -> line' pl (line_slot c sby pl + y) X = fr pl (bsy c pl * (kr + 1) - 2 + y) X) /\
    (forall pl Y X, ~ (line_slot c sby pl <= Y < line_slot c sby pl + 2) -> line' pl Y X = line pl Y X).
Proof.
  intros fr line sby kr Hk Hs. destruct (backup_ofold fr sby kr Hk Hs (planes c)) with (line := line) as (line' & E & A & B).
  - unfold planes. destruct (c_mono c); repeat constructor; cbn; intuition congruence.
  - exact planes_plok.
  - exists line'. split; [exact E|]. split; [intros; apply A; auto using planes_ok|]. intros; apply B; right; assumption.
Qed.

(** ** dav1d_cdef_brow *)
Section Brow.
Variables (m : masks) (ks ke sby : Z) (sbrow_start : bool).
Hypothesis Hs : 0 <= sby < c_sbh c.
Hypothesis HK : 0 <= ks /\ ks <= ke /\ ke <= KY.
Hypothesis MO : forall kr, ks <= kr < ke -> masks_ok v c m (2 * kr).
Definition top_ready (st : state) (kr : Z) : Prop :=
  0 < kr -> if c_have_tt c && sbrow_start && (kr =? ks) then lpf_top sby kr else line_has st sby kr.
Definition bottom_ready (fr : Z -> plane) : Prop :=
  ke < KY -> if c_have_tt c && negb sbrow_start then lpf_bottom sby ke else two_below fr ke.

Lemma brow_step : forall st0 st kr bit, ks <= kr < ke -> rows_are Cur (s_fr st0) ks ke -> bottom_ready (s_fr st0) ->
  rows_are Out (s_fr st) ks kr -> only_rows (s_fr st0) (s_fr st) ks kr -> top_ready st kr ->
  forall line, line (s_tf st) = s_line st (s_tf st) ->
  exists r, brow_row c m (mkState (s_fr st) line (s_tf st)) (2 * ks) (2 * ke) sbrow_start sby (0 <? kr) (kr + 1 <? KY) (2 * kr) bit = Ok r /\
    rows_are Out (r_fr r) ks (kr + 1) /\ only_rows (s_fr st0) (r_fr r) ks (kr + 1).
Proof.
  intros st0 st kr bit Hkr HC HB HO HR HT line HL.
  assert (CUR : forall pl Y X, plok c pl -> bsy c pl * kr <= Y < bsy c pl * ke -> 0 <= X < bsx c pl * KX -> s_fr st pl Y X = Some (Cur pl Y X)).
  { intros pl Y X HP HY HX. pose proof (bsy_bounds pl). rewrite HR by (try exact HP; lia). apply HC; [exact HP|nia|exact HX]. }
  destruct (row_ok v Cur c SU m (mkState (s_fr st) line (s_tf st)) (2 * ks) (2 * ke) sbrow_start sby kr ltac:(lia) (MO kr Hkr)) with (bit := bit) as (r & E & Q).
  - intros K0 pl y bx x HP Hy Hx. specialize (HT K0). unfold top_of. cbv zeta. cbn [s_line s_tf]. rewrite HL.
    replace (2 * kr =? 2 * ks) with (kr =? ks) by (destruct (Z.eqb_spec kr ks), (Z.eqb_spec (2 * kr) (2 * ks)); try reflexivity; lia).
    destruct (c_have_tt c && sbrow_start && (kr =? ks)).
    + rewrite <- (HT pl y _ HP Hy Hx). reflexivity.
    + destruct (rows_alloc pl HP) as (_ & B). pose proof (slot_ok sby pl Hs). apply rd2_some; [lia|lia|]. apply HT; assumption.
  - intros K1 fr pl y bx x HP Hy Hx HF. unfold bot_of. cbv zeta. cbn [s_fr] in HF. rewrite (y_at v Cur c SU). fold (bsy c pl).
    destruct (rows_alloc pl HP) as (A & B). pose proof (bsy_bounds pl) as PB.
    assert (DIR : s_fr st pl (bsy c pl * (kr + 1) + y) (shift_x c pl (bx * 4) + x) = Some (Cur pl (bsy c pl * (kr + 1) + y) (shift_x c pl (bx * 4) + x)) ->
      rd2 (c_rows c pl) (c_stride c pl) (fr pl) (bsy c pl * kr + bsy c pl + y) (shift_x c pl (bx * 4) + x) = Ok (Cur pl (bsy c pl * (kr + 1) + y) (shift_x c pl (bx * 4) + x))).
    { intros D. apply rd2_some; [nia|lia|]. replace (bsy c pl * kr + bsy c pl + y) with (bsy c pl * (kr + 1) + y) by ring. rewrite HF; [exact D|]. unfold in_row. lia. }
    destruct (Z.leb_spec (2 * ke) (2 * kr + 2)) as [LE|LT].
    + assert (EK : kr + 1 = ke) by lia. assert (KE : ke < KY) by lia. specialize (HB KE).
      destruct (c_have_tt c) eqn:TT, sbrow_start eqn:SS; cbn [andb negb] in *; rewrite ?andb_false_r;
        try (apply DIR; rewrite EK; rewrite HR; [apply HB; assumption|exact HP|nia]).
      rewrite EK. rewrite <- (HB pl y _ HP Hy Hx). reflexivity.
    + rewrite !andb_false_r. apply DIR. apply CUR; [exact HP|nia|exact Hx].
  - intros pl HP. cbn [s_fr]. split; [|split].
    + intros Y X _ HX. lia.
    + cbn [s_fr]. intros Y X HY HX. unfold in_row in HY. pose proof (bsy_bounds pl). apply CUR; [exact HP|nia|lia].
    + intros. reflexivity.
  - exists r. split; [exact E|]. cbn [s_fr] in Q. split.
    + intros pl Y X HP HY HX. destruct (Q pl HP) as (Q1 & _ & Q3). destruct (Z.lt_ge_cases Y (bsy c pl * kr)) as [L|L].
      * rewrite Q3 by (unfold in_row; lia). apply HO; [exact HP|lia|exact HX].
      * apply Q1; [unfold in_row; lia|exact HX].
    + intros pl Y X HP HY. destruct (Q pl HP) as (_ & _ & Q3). pose proof (bsy_bounds pl). rewrite Q3 by (unfold in_row; nia). apply HR; [exact HP|nia].
Qed.

Lemma cdef_brow_ok : forall st0, rows_are Cur (s_fr st0) ks ke -> bottom_ready (s_fr st0) -> top_ready st0 ks ->
  exists st', cdef_brow c m (2 * ks) (2 * ke) sbrow_start sby st0 = Ok st' /\ rows_are Out (s_fr st') ks ke /\ only_rows (s_fr st0) (s_fr st') ks ke /\
    only_lines st0 st' sby /\ (ks < ke -> c_have_tt c && negb sbrow_start = false -> ke < KY -> line_has st' sby ke).
Proof.
  intros st0 HC HB HT. unfold cdef_brow.
  replace ((2 * ke - 2 * ks + 1) / 2) with (ke - ks) by (clear; Z.div_mod_to_equations; lia).
  match goal with |- context [for_ 0 _ ?f ?s0] => destruct (for_inv _ (fun j q => let '(st, bit, ht, hb) := q in
      rows_are Out (s_fr st) ks (ks + j) /\ only_rows (s_fr st0) (s_fr st) ks (ks + j) /\ only_lines st0 st sby /\ (ks + j < ke -> top_ready st (ks + j)) /\
      ht = (0 <? ks + j) /\ (ks + j < KY -> hb = true) /\ (0 < j -> ks + j = ke -> c_have_tt c && negb sbrow_start = false -> ke < KY -> line_has st sby ke)) f 0 (ke - ks) s0 ltac:(lia)) as (q & E & Q) end.
  - rewrite Z.add_0_r. split; [intros pl Y X HP HY; lia|]. split; [intros pl Y X HP HY; reflexivity|]. split; [intros t pl Y X HY; reflexivity|].
    split; [intros _; exact HT|]. split; [destruct (Z.ltb_spec 0 (2 * ks)), (Z.ltb_spec 0 ks); try reflexivity; lia|]. split; [reflexivity|lia].
  - intros j q Hj. destruct q as [[[st bit] ht] hb]. intros (I1 & I2 & I3 & I4 & I5 & I6 & I7). set (kr := ks + j) in *. replace (2 * ks + 2 * j) with (2 * kr) by (unfold kr; ring).
    assert (Hkr : ks <= kr < ke) by lia.
    set (hb' := if c_bh c <=? 2 * kr + 2 then false else hb).
    assert (EH : hb' = (kr + 1 <? KY)).
    { unfold hb'. rewrite (su_bh _ _ _ SU). pose proof (su_rows _ _ _ SU) as (R & _). fold KY in R. rewrite I6 by lia.
      destruct (Z.leb_spec (S.MiRows v) (2 * kr + 2)), (Z.ltb_spec (kr + 1) KY); try reflexivity; unfold Row.KY in *; lia. }
    clearbody hb'. rewrite EH. clear EH.
    set (cond := (negb (c_have_tt c) || sbrow_start || (2 * kr + 2 <? 2 * ke)) && (kr + 1 <? KY)).
    assert (LINE : exists line, (if cond then let! l := backup2lines c (s_fr st) (s_line st (negb (s_tf st))) sby (2 * kr) in Ok (set_bat (s_line st) (negb (s_tf st)) l)
        else Ok (s_line st))%outcome = Ok line /\ line (s_tf st) = s_line st (s_tf st) /\
        (forall t pl Y X, ~ (line_slot c sby pl <= Y < line_slot c sby pl + 2) -> line t pl Y X = s_line st t pl Y X) /\
        (cond = true -> forall pl y X, plok c pl -> 0 <= y < 2 -> 0 <= X < bsx c pl * KX -> line (negb (s_tf st)) pl (line_slot c sby pl + y) X = s_fr st pl (bsy c pl * (kr + 1) - 2 + y) X)).
    { destruct cond.
      - destruct (backup2lines_ok (s_fr st) (s_line st (negb (s_tf st))) sby kr ltac:(lia) Hs) as (l & E & A & B). rewrite E. cbn [obind]. eexists. split; [reflexivity|].
        split; [apply set_bat_neg|]. split.
        + intros t pl Y X HY. unfold set_bat. destruct (Bool.eqb t (negb (s_tf st))) eqn:EB; [|reflexivity]. apply eqb_prop in EB. rewrite EB. apply B. exact HY.
        + intros _ pl y X HP Hy HX. rewrite set_bat_same. apply A; assumption.
      - exists (s_line st). split; [reflexivity|]. split; [reflexivity|]. split; [reflexivity|discriminate]. }
    destruct LINE as (line & EL & L1 & L2 & L3). rewrite EL. cbn [obind]. rewrite I5.
    destruct (brow_step st0 st kr bit Hkr HC HB I1 I2 (I4 ltac:(lia)) line L1) as (r & E & R1 & R2).
    cbn [s_fr]. rewrite E. cbn [obind]. eexists. split; [reflexivity|]. cbv beta iota. cbn [s_fr s_line s_tf]. replace (ks + (j + 1)) with (kr + 1) by (unfold kr; ring).
    assert (NEXT : cond = true -> forall pl y X, plok c pl -> 0 <= y < 2 -> 0 <= X < bsx c pl * KX ->
        line (negb (s_tf st)) pl (line_slot c sby pl + y) X = Some (Cur pl (bsy c pl * (kr + 1) - 2 + y) X)).
    { intros C pl y X HP Hy HX. rewrite (L3 C pl y X HP Hy HX). pose proof (bsy_bounds pl). rewrite I2 by (try exact HP; lia). apply HC; [exact HP|nia|exact HX]. }
    split; [exact R1|]. split; [exact R2|]. split; [intros t pl Y X HY; cbn [s_line]; rewrite L2 by exact HY; apply I3; exact HY|].
    split; [|split; [|split]].
    + intros KE _. unfold top_ready. replace (kr + 1 =? ks) with false by (symmetry; apply Z.eqb_neq; lia). rewrite andb_false_r.
      intros pl y X HP Hy HX. cbn [s_line s_tf]. apply NEXT; try assumption. unfold cond.
      replace (2 * kr + 2 <? 2 * ke) with true by (symmetry; apply Z.ltb_lt; lia). rewrite orb_true_r. apply Z.ltb_lt. lia.
    + symmetry. apply Z.ltb_lt. lia.
    + intros. apply Z.ltb_lt. lia.
    + intros _ KE TT KE' pl y X HP Hy HX. cbn [s_line s_tf]. rewrite <- KE. apply NEXT; try assumption. unfold cond. apply andb_true_iff. split; [|apply Z.ltb_lt; lia].
      destruct (c_have_tt c), sbrow_start; try reflexivity. discriminate.
  - rewrite E. destruct q as [[[st bit] ht] hb]. cbn [obind]. exists st. split; [reflexivity|]. replace (ks + (ke - ks)) with ke in Q by ring.
    destruct Q as (Q1 & Q2 & Q3 & _ & _ & _ & Q7). split; [exact Q1|]. split; [exact Q2|]. split; [exact Q3|]. intros L. apply Q7; [lia|reflexivity].
Qed.
End Brow.

(** ** dav1d_filter_sbrow_cdef *)
Definition sbB : Z := c_sb_step c / 2.
(** Rows of blocks filtered with superblock row [sby]. *)
Definition first_row (sby : Z) : Z := if 0 <? sby then sbB * sby - 1 else 0.
Definition end_row (sby : Z) : Z := if sby + 1 <? c_sbh c then sbB * (sby + 1) - 1 else KY.
Record sbrows (ms : Z -> masks) : Prop := {
  sb_size : bit01 (c_sb128 c) /\ c_sb_step c = 16 * 2 ^ c_sb128 c;
  sb_count : c_sbh c = (S.MiRows v + c_sb_step c - 1) / c_sb_step c;
  sb_masks : forall kr, 0 <= kr < KY -> masks_ok v c (ms (2 * kr / 32)) (2 * kr) }.

Section Sbrow.
Variable ms : Z -> masks.
Hypothesis SB : sbrows ms.
Lemma sbB_val : (c_sb128 c = 0 /\ sbB = 8 /\ c_sb_step c = 16) \/ (c_sb128 c = 1 /\ sbB = 16 /\ c_sb_step c = 32).
Proof. destruct (sb_size _ SB) as ([E|E] & F); unfold sbB; rewrite F, E; [left|right]; auto. Qed.
Lemma sbh_rows : forall sby, 0 <= sby < c_sbh c -> sbB * sby < KY.
Proof.
  intros sby H. rewrite (sb_count _ SB) in H. pose proof (su_rows _ _ _ SU) as (R & _). unfold Row.KY. set (M := S.MiRows v) in *. clearbody M.
  destruct sbB_val as [(_ & -> & E)|(_ & -> & E)]; rewrite E in H; revert H R; clear; intros; Z.div_mod_to_equations; lia.
Qed.
Lemma sbh_end : KY <= sbB * c_sbh c.
Proof.
  rewrite (sb_count _ SB). unfold Row.KY. set (M := S.MiRows v). clearbody M.
  destruct sbB_val as [(_ & -> & E)|(_ & -> & E)]; rewrite E; clear; Z.div_mod_to_equations; lia.
Qed.
Lemma row_bounds : forall sby, 0 <= sby < c_sbh c -> 0 <= first_row sby <= sbB * sby /\ sbB * sby < end_row sby <= KY.
Proof.
  intros sby H. pose proof (sbh_rows sby H). assert (8 <= sbB) by (destruct sbB_val as [(_ & -> & _)|(_ & -> & _)]; lia). unfold first_row, end_row.
  destruct (Z.ltb_spec 0 sby), (Z.ltb_spec (sby + 1) (c_sbh c)); try (pose proof (sbh_rows (sby + 1) ltac:(lia))); nia.
Qed.
Lemma row_masks : forall sby kr, 0 <= sby -> sbB * sby <= kr < sbB * (sby + 1) -> Z.shiftr sby (1 - c_sb128 c) = 2 * kr / 32.
Proof.
  intros sby kr H Hk. destruct sbB_val as [(E & EB & _)|(E & EB & _)]; rewrite E; rewrite EB in Hk; rewrite Z.shiftr_div_pow2 by lia;
    [change (2 ^ (1 - 0)) with 2|change (2 ^ (1 - 1)) with 1]; clear - H Hk; Z.div_mod_to_equations; lia.
Qed.
Lemma end_row_eq : forall sby, 0 <= sby < c_sbh c -> Z.min (sby * c_sb_step c + (c_sb_step c - 2 * (if sby + 1 <? c_sbh c then 1 else 0))) (c_bh c) = 2 * end_row sby.
Proof.
  intros sby H. rewrite (su_bh _ _ _ SU). pose proof (su_rows _ _ _ SU) as (R & _). fold KY in R. unfold end_row. pose proof sbh_end as SE.
  assert (EB : c_sb_step c = 2 * sbB) by (destruct sbB_val as [(_ & -> & ->)|(_ & -> & ->)]; reflexivity). rewrite EB. set (b := sbB) in *. clearbody b.
  destruct (Z.ltb_spec (sby + 1) (c_sbh c)).
  - pose proof (row_bounds (sby + 1) ltac:(lia)) as Q. unfold end_row in Q. clear - R SE H H0 Q EB. pose proof (Z.le_refl 0). unfold sbB in Q. rewrite EB in Q.
    replace (2 * b / 2) with b in Q by (rewrite Z.mul_comm, Z.div_mul; lia). destruct (sby + 1 + 1 <? c_sbh c); unfold Row.KY in *; nia.
  - assert (sby + 1 = c_sbh c) by lia. unfold Row.KY in *. nia.
Qed.

(** What the pass needs. *)
Definition pass_pre (sby : Z) (st : state) : Prop :=
  rows_are Cur (s_fr st) (first_row sby) (end_row sby) /\
  (end_row sby < KY -> if c_have_tt c then lpf_bottom sby (end_row sby) else two_below (s_fr st) (end_row sby)) /\
  (0 < sby -> if c_have_tt c then lpf_top sby (first_row sby) else line_has st sby (first_row sby)).
Lemma sbrow_ok : forall sby st, 0 <= sby < c_sbh c -> pass_pre sby st ->
  exists st', filter_sbrow_cdef c ms sby st = Ok st' /\ rows_are Out (s_fr st') (first_row sby) (end_row sby) /\
    only_rows (s_fr st) (s_fr st') (first_row sby) (end_row sby) /\ only_lines st st' sby /\
    (c_have_tt c = false -> end_row sby < KY -> line_has st' sby (end_row sby)).
Proof.
  intros sby st Hs (P1 & P2 & P3). pose proof (row_bounds sby Hs) as (RB1 & RB2).
  assert (EB : c_sb_step c = 2 * sbB) by (destruct sbB_val as [(_ & -> & ->)|(_ & -> & ->)]; reflexivity).
  assert (B8 : 8 <= sbB) by (destruct sbB_val as [(_ & -> & _)|(_ & -> & _)]; lia).
  unfold filter_sbrow_cdef. cbv zeta. rewrite (end_row_eq sby Hs). rewrite !EB. replace (sby * (2 * sbB)) with (2 * (sbB * sby)) by ring.
  assert (FIRST : exists st1, (if negb (sby =? 0) then cdef_brow c (ms (Z.shiftr (sby - 1) (1 - c_sb128 c))) (2 * (sbB * sby) - 2) (2 * (sbB * sby)) true sby st else Ok st) = Ok st1 /\
    rows_are Out (s_fr st1) (first_row sby) (sbB * sby) /\ only_rows (s_fr st) (s_fr st1) (first_row sby) (sbB * sby) /\ only_lines st st1 sby /\ (0 < sby -> line_has st1 sby (sbB * sby))).
  { destruct (Z.eqb_spec sby 0) as [->|N]; cbn [negb].
    - exists st. split; [reflexivity|]. rewrite Z.mul_0_r. split; [intros pl Y X HP HY; unfold first_row in HY; cbn in HY; lia|]. split; [intros pl Y X HP HY; reflexivity|].
      split; [intros t pl Y X HY; reflexivity|lia].
    - assert (EF : first_row sby = sbB * sby - 1) by (unfold first_row; replace (0 <? sby) with true by (symmetry; apply Z.ltb_lt; lia); reflexivity).
      rewrite EF in *. replace (2 * (sbB * sby) - 2) with (2 * (sbB * sby - 1)) by ring.
      rewrite (row_masks (sby - 1) (sbB * sby - 1)) by nia.
      destruct (cdef_brow_ok (ms (2 * (sbB * sby - 1) / 32)) (sbB * sby - 1) (sbB * sby) sby true Hs ltac:(lia)) with (st0 := st) as (st1 & E & Q1 & Q2 & Q3 & Q4).
      + intros kr Hk. replace kr with (sbB * sby - 1) by lia. apply (sb_masks _ SB). lia.
      + intros pl Y X HP HY HX. pose proof (bsy_bounds pl). apply P1; [exact HP|nia|exact HX].
      + intros _. rewrite andb_false_r. intros pl y X HP Hy HX. pose proof (bsy_bounds pl). apply P1; [exact HP|nia|exact HX].
      + intros _. rewrite Z.eqb_refl, !andb_true_r. exact (P3 ltac:(lia)).
      + exists st1. split; [exact E|]. split; [exact Q1|]. split; [exact Q2|]. split; [exact Q3|]. intros _. apply Q4; [lia|apply andb_false_r|lia]. }
  destruct FIRST as (st1 & E1 & A1 & A2 & A3 & A4). rewrite E1. cbn [obind].
  rewrite (row_masks sby (sbB * sby)) by nia.
  destruct (cdef_brow_ok (ms (2 * (sbB * sby) / 32)) (sbB * sby) (end_row sby) sby false Hs ltac:(lia)) with (st0 := st1) as (st2 & E2 & B1 & B2 & B3 & B4).
  - intros kr Hk. rewrite <- (row_masks sby (sbB * sby)) by nia. rewrite (row_masks sby kr); [apply (sb_masks _ SB); lia|lia|].
    split; [lia|]. destruct (Z.lt_ge_cases kr (sbB * (sby + 1))) as [|G]; [assumption|]. exfalso. unfold end_row in Hk. pose proof sbh_end. destruct (Z.ltb_spec (sby + 1) (c_sbh c)); [nia|].
    assert (sby + 1 = c_sbh c) by lia. nia.
  - intros pl Y X HP HY HX. pose proof (bsy_bounds pl). rewrite A2 by (try exact HP; lia). apply P1; [exact HP|nia|exact HX].
  - intros HE. specialize (P2 HE). rewrite andb_true_r. destruct (c_have_tt c); [exact P2|]. intros pl y X HP Hy HX. pose proof (bsy_bounds pl).
    rewrite A2; [apply P2; assumption|exact HP|nia].
  - intros H0. rewrite andb_false_r. apply A4. nia.
  - exists st2. split; [exact E2|]. split; [|split; [|split]].
    + intros pl Y X HP HY HX. destruct (Z.lt_ge_cases Y (bsy c pl * (sbB * sby))) as [L|L]; [rewrite B2 by (try exact HP; lia); apply A1; [exact HP|lia|exact HX]|apply B1; [exact HP|lia|exact HX]].
    + intros pl Y X HP HY. pose proof (bsy_bounds pl). rewrite B2 by (try exact HP; nia). apply A2; [exact HP|nia].
    + intros t pl Y X HY. rewrite B3 by exact HY. apply A3. exact HY.
    + intros TT HE. apply B4; [lia|rewrite TT; reflexivity|exact HE].
Qed.

(** ** The frame, one thread: deblocking a superblock row and then this filter *)
Inductive passes (st0 : state) : Z -> state -> Prop :=
| passes_start : passes st0 0 st0
| passes_next : forall sby st fr st', passes st0 sby st -> sby < c_sbh c ->
    only_rows (s_fr st) fr (first_row sby) KY ->
    rows_are Cur fr (first_row sby) (end_row sby) -> (end_row sby < KY -> two_below fr (end_row sby)) ->
    filter_sbrow_cdef c ms sby (mkState fr (s_line st) (s_tf st)) = Ok st' -> passes st0 (sby + 1) st'.
Definition done_rows (sby : Z) : Z := if sby <? c_sbh c then first_row sby else KY.
Lemma end_first : forall sby, 0 <= sby < c_sbh c -> end_row sby = done_rows (sby + 1).
Proof. intros sby H. unfold end_row, done_rows, first_row. destruct (Z.ltb_spec (sby + 1) (c_sbh c)); [|reflexivity]. replace (0 <? sby + 1) with true by (symmetry; apply Z.ltb_lt; lia). reflexivity. Qed.
Lemma pass_ok : forall sby st fr, c_have_tt c = false -> 0 <= sby < c_sbh c -> only_rows (s_fr st) fr (first_row sby) KY ->
  rows_are Cur fr (first_row sby) (end_row sby) -> (end_row sby < KY -> two_below fr (end_row sby)) ->
  rows_are Out (s_fr st) 0 (done_rows sby) -> (0 < sby -> line_has st sby (first_row sby)) ->
  exists st', filter_sbrow_cdef c ms sby (mkState fr (s_line st) (s_tf st)) = Ok st' /\ rows_are Out (s_fr st') 0 (done_rows (sby + 1)) /\
    (sby + 1 < c_sbh c -> line_has st' (sby + 1) (first_row (sby + 1))).
Proof.
  intros sby st fr TT Hs HO HC H2 HR HL.
  destruct (sbrow_ok sby (mkState fr (s_line st) (s_tf st)) Hs) as (st' & E & Q1 & Q2 & Q3 & Q4).
  - split; [exact HC|]. rewrite TT. split; [exact H2|exact HL].
  - exists st'. split; [exact E|]. rewrite <- (end_first sby Hs). split.
    + intros pl Y X HP HY HX. destruct (Z.lt_ge_cases Y (bsy c pl * first_row sby)) as [L|L]; [|apply Q1; [exact HP|lia|exact HX]].
      rewrite Q2 by (try exact HP; lia). cbn [s_fr]. rewrite HO by (try exact HP; lia). apply HR; [exact HP| |exact HX].
      unfold done_rows. replace (sby <? c_sbh c) with true by (symmetry; apply Z.ltb_lt; lia). lia.
    + intros L. assert (EF : end_row sby = first_row (sby + 1)) by (rewrite (end_first sby Hs); unfold done_rows; replace (sby + 1 <? c_sbh c) with true by (symmetry; apply Z.ltb_lt; lia); reflexivity).
      rewrite <- EF. intros pl y X HP Hy HX. unfold line_slot. rewrite TT. pose proof (row_bounds (sby + 1) ltac:(lia)) as RB.
      specialize (Q4 TT ltac:(rewrite EF; lia) pl y X HP Hy HX). unfold line_slot in Q4. rewrite TT in Q4. exact Q4.
Qed.
Lemma passes_inv : forall st0 sby st, c_have_tt c = false -> passes st0 sby st -> 0 <= sby <= c_sbh c /\ rows_are Out (s_fr st) 0 (done_rows sby) /\ (0 < sby < c_sbh c -> line_has st sby (first_row sby)).
Proof.
  intros st0 sby st TT H. induction H as [|sby st fr st' H (I0 & I1 & I2) L HO HC H2 HF].
  - assert (0 < c_sbh c). { pose proof sbh_end. pose proof (su_rows _ _ _ SU) as (R & P). fold KY in R. unfold Row.KY in *. destruct sbB_val as [(_ & E & _)|(_ & E & _)]; rewrite E in *; lia. }
    split; [lia|]. split; [|lia]. unfold done_rows. replace (0 <? c_sbh c) with true by (symmetry; apply Z.ltb_lt; lia). intros pl Y X HP HY. unfold first_row in HY. cbn in HY. lia.
  - destruct (pass_ok sby st fr TT ltac:(lia) HO HC H2 I1 ltac:(intros; apply I2; lia)) as (st'' & E & Q1 & Q2). rewrite HF in E. injection E as <-.
    split; [lia|]. split; [exact Q1|]. intros. apply Q2. lia.
Qed.
Theorem frame_ok : forall st0 st, c_have_tt c = false -> passes st0 (c_sbh c) st -> rows_are Out (s_fr st) 0 KY.
Proof.
  intros st0 st TT H. destruct (passes_inv st0 _ st TT H) as (_ & Q & _). unfold done_rows in Q. rewrite Z.ltb_irrefl in Q. exact Q.
Qed.
Theorem frame_defined : forall st0 sby st fr, c_have_tt c = false -> passes st0 sby st -> sby < c_sbh c ->
  only_rows (s_fr st) fr (first_row sby) KY -> rows_are Cur fr (first_row sby) (end_row sby) -> (end_row sby < KY -> two_below fr (end_row sby)) ->
  exists st', filter_sbrow_cdef c ms sby (mkState fr (s_line st) (s_tf st)) = Ok st'.
Proof.
  intros st0 sby st fr TT H L HO HC H2. destruct (passes_inv st0 _ st TT H) as (I0 & I1 & I2).
  destruct (pass_ok sby st fr TT ltac:(lia) HO HC H2 I1 ltac:(intros; apply I2; lia)) as (st' & E & _). exists st'. exact E.
Qed.

(** ** The frame, several threads: the passes in any order; other work changes only rows of
    superblock rows that are not done, and the toggle and the lines are anything. *)
Definition untouched (fr fr' : Z -> plane) (sby : Z) : Prop :=
  forall pl Y X, plok c pl -> bsy c pl * first_row sby <= Y < bsy c pl * end_row sby -> fr' pl Y X = fr pl Y X.
Inductive tasks (st0 : state) : list Z -> state -> Prop :=
| tasks_start : tasks st0 [] st0
| tasks_next : forall done sby st st1 st', tasks st0 done st -> 0 <= sby < c_sbh c -> ~ In sby done ->
    (forall s, In s done -> untouched (s_fr st) (s_fr st1) s) ->
    rows_are Cur (s_fr st1) (first_row sby) (end_row sby) ->
    filter_sbrow_cdef c ms sby st1 = Ok st' -> tasks st0 (sby :: done) st'.
Definition lpf_saved : Prop := forall sby, 0 <= sby < c_sbh c -> (end_row sby < KY -> lpf_bottom sby (end_row sby)) /\ (0 < sby -> lpf_top sby (first_row sby)).
Lemma first_mono : forall s s', 0 <= s < s' -> s' < c_sbh c -> end_row s <= first_row s'.
Proof.
  intros s s' H H'. assert (8 <= sbB) by (destruct sbB_val as [(_ & -> & _)|(_ & -> & _)]; lia). unfold end_row, first_row.
  replace (s + 1 <? c_sbh c) with true by (symmetry; apply Z.ltb_lt; lia). replace (0 <? s') with true by (symmetry; apply Z.ltb_lt; lia). nia.
Qed.
Lemma tasks_inv : forall st0 done st, c_have_tt c = true -> lpf_saved -> tasks st0 done st ->
  forall s, In s done -> 0 <= s < c_sbh c /\ rows_are Out (s_fr st) (first_row s) (end_row s).
Proof.
  intros st0 done st TT HS H. induction H as [|done sby st st1 st' H IH L NI HU HC HF]; [intros s []|].
  destruct (sbrow_ok sby st1 L) as (st'' & E & Q1 & Q2 & Q3 & Q4).
  { split; [exact HC|]. rewrite TT. exact (HS sby L). }
  rewrite HF in E. injection E as <-. intros s [<-|HI]; [split; [exact L|exact Q1]|]. destruct (IH s HI) as (R & I). split; [exact R|].
  intros pl Y X HP HY HX. pose proof (bsy_bounds pl). rewrite Q2; [rewrite (HU s HI pl Y X HP HY); apply I; assumption|exact HP|].
  assert (s <> sby) by congruence. destruct (Z.lt_ge_cases s sby) as [G|G]; [pose proof (first_mono s sby ltac:(lia) ltac:(lia))|pose proof (first_mono sby s ltac:(lia) ltac:(lia))]; nia.
Qed.
Lemma row_of : forall kr, 0 <= kr < KY -> exists s, 0 <= s < c_sbh c /\ first_row s <= kr < end_row s.
Proof.
  intros kr H. assert (B8 : 8 <= sbB) by (destruct sbB_val as [(_ & -> & _)|(_ & -> & _)]; lia). pose proof sbh_end as SE.
  set (q := (kr + 1) / sbB). pose proof (Z.div_mod (kr + 1) sbB ltac:(lia)) as D. pose proof (Z.mod_pos_bound (kr + 1) sbB ltac:(lia)) as Mb. fold q in D.
  assert (0 <= q) by (apply Z.div_pos; lia).
  assert (QB : q <= c_sbh c). { assert (q < c_sbh c + 1); [|lia]. apply Z.div_lt_upper_bound; [lia|]. nia. }
  destruct (Z.lt_ge_cases q (c_sbh c)) as [L|L].
  - exists q. split; [lia|]. unfold first_row, end_row. destruct (Z.ltb_spec 0 q), (Z.ltb_spec (q + 1) (c_sbh c)); nia.
  - assert (Hn : 0 < c_sbh c) by nia. exists (c_sbh c - 1). split; [lia|]. unfold first_row, end_row. replace (c_sbh c - 1 + 1 <? c_sbh c) with false by (symmetry; apply Z.ltb_ge; lia).
    destruct (Z.ltb_spec 0 (c_sbh c - 1)); nia.
Qed.
Theorem threads_ok : forall st0 done st, c_have_tt c = true -> lpf_saved -> tasks st0 done st -> (forall s, 0 <= s < c_sbh c -> In s done) -> rows_are Out (s_fr st) 0 KY.
Proof.
  intros st0 done st TT HS H ALL pl Y X HP HY HX. pose proof (bsy_bounds pl) as PB.
  destruct (row_of (Y / bsy c pl)) as (s & Hs & Hr); [split; [apply Z.div_pos; lia|apply Z.div_lt_upper_bound; lia]|].
  destruct (tasks_inv st0 done st TT HS H s (ALL s Hs)) as (_ & Q). apply Q; [exact HP| |exact HX].
  pose proof (Z.div_mod Y (bsy c pl) ltac:(lia)). pose proof (Z.mod_pos_bound Y (bsy c pl) ltac:(lia)). nia.
Qed.
End Sbrow.
End Frame.

(** Directional prediction. *)
From Coq Require Import ZArith List Bool Lia.
From Verif Require Import Base.CInt Base.Lemmas Base.Loop Cdef.Block Mc.Blocks Ipred.Model Ipred.Kernels Ipred.Arrays.
From Verif Require Ipred.Spec.
Import ListNotations.
Open Scope Z_scope.

(** * Positions *)
Lemma land62 : forall v, Z.land v 62 = 2 * ((v / 2) mod 32).
Proof.
  intros v. change 62 with (Z.shiftl (Z.ones 5) 1). assert (E : v / 2 = Z.shiftr v 1) by (rewrite Z.shiftr_div_pow2 by lia; reflexivity). rewrite E.
  change 32 with (2 ^ 5). rewrite <- Z.land_ones by lia. set (X := Z.land (Z.shiftr v 1) (Z.ones 5)).
  assert (E2 : 2 * X = Z.shiftl X 1) by (rewrite Z.shiftl_mul_pow2 by lia; change (2 ^ 1) with 2; ring). rewrite E2. unfold X. clear E E2 X.
  apply Z.bits_inj'. intros n Hn. rewrite Z.land_spec.
  destruct (Z.eq_dec n 0) as [->|Nz].
  - rewrite (Z.shiftl_spec_low (Z.ones 5)), (Z.shiftl_spec_low (Z.land _ _)) by lia. apply andb_false_r.
  - rewrite !Z.shiftl_spec by lia. rewrite Z.land_spec, Z.shiftr_spec by lia. f_equal. f_equal. lia.
Qed.
Lemma land62_range : forall v, 0 <= Z.land v 62 <= 62.
Proof. intros v. rewrite land62. pose proof (Z.mod_pos_bound (v / 2) 32 ltac:(lia)). lia. Qed.
Definition mix (T : Z -> Z) (b f : Z) : Z := (T b * (64 - f) + T (b + 1) * f + 32) / 64.
Lemma mix_interp : forall T b v, mix T b (Z.land v 62) = Spec.interp T b ((v / 2) mod 32).
Proof.
  intros T b v. rewrite land62. unfold mix, Spec.interp. set (s := (v / 2) mod 32). change (Spec.Round2 ?a 5) with (if 5 =? 0 then a else (a + 2 ^ (5 - 1)) / 2 ^ 5). cbn [Z.eqb].
  change (2 ^ (5 - 1)) with 16. change (2 ^ 5) with 32.
  replace (T b * (64 - 2 * s) + T (b + 1) * (2 * s) + 32) with ((T b * (32 - s) + T (b + 1) * s + 16) * 2) by ring.
  change 64 with (32 * 2). rewrite Z.div_mul_cancel_r by lia. reflexivity.
Qed.
Lemma interp_const : forall T b v s, T b = v -> T (b + 1) = v -> Spec.interp T b s = v.
Proof.
  intros T b v s E1 E2. unfold Spec.interp. rewrite E1, E2. change (Spec.Round2 ?a 5) with (if 5 =? 0 then a else (a + 2 ^ (5 - 1)) / 2 ^ 5). cbn [Z.eqb].
  change (2 ^ (5 - 1)) with 16. change (2 ^ 5) with 32. replace (v * (32 - s) + v * s + 16) with (v * 32 + 16) by ring. lia.
Qed.
Lemma interp_ext : forall e e' b s, e b = e' b -> e (b + 1) = e' (b + 1) -> Spec.interp e b s = Spec.interp e' b s.
Proof. intros e e' b s E1 E2. unfold Spec.interp. rewrite E1, E2. reflexivity. Qed.
Lemma mix_pixel : forall bd T b f, 0 <= f <= 64 -> pixel bd (T b) -> pixel bd (T (b + 1)) -> pixel bd (mix T b f).
Proof.
  intros bd T b f Hf P Q. unfold pixel, mix in *. split; [apply Z.div_pos; nia|]. apply Z.lt_succ_r. apply Z.div_lt_upper_bound; nia.
Qed.
Lemma pos_base : forall idx up, up = 0 \/ up = 1 -> (idx * 2 ^ up) / 64 = idx / 2 ^ (6 - up).
Proof. intros idx up [->| ->]; [change (2 ^ 0) with 1; change (2 ^ (6 - 0)) with 64|change (2 ^ 1) with 2; change (2 ^ (6 - 1)) with 32]; lia. Qed.

Section Dir.
  Variables (bd lw lh : Z).
  Hypothesis Hd : depth bd.
  Hypothesis Hs : size lw lh.
  Notation w := (2 ^ lw).
  Notation h := (2 ^ lh).

  Lemma z_value_ok : forall p T i0 i1 b f, p i0 = Ok (T b) -> p i1 = Ok (T (b + 1)) -> 0 <= f <= 62 -> pixel bd (T b) -> pixel bd (T (b + 1)) ->
    z_value p i0 i1 f = Ok (mix T b f).
  Proof.
    intros p T i0 i1 b f E0 E1 Hf P Q. unfold z_value. rewrite E0. cbn [obind]. rewrite E1. cbn [obind].
    apply (pixel_max bd _ Hd) in P. apply (pixel_max bd _ Hd) in Q. rewrite ck_ok by (unfold INT_MIN, INT_MAX; nia). cbn [obind].
    rewrite Z.shiftr_div_pow2 by lia. reflexivity.
  Qed.

  Definition val (T : Z -> Z) (maxb f b : Z) : Z := if b <? maxb then mix T b f else T maxb.
  Section Line.
    Variables (T : Z -> Z) (maxb inc : Z).
    Hypothesis Hm : 0 <= maxb.
    Hypothesis Hi : 1 <= inc <= 2.
    Hypothesis HP : forall k, 0 <= k <= maxb -> pixel bd (T k).
    Lemma val_pixel : forall f b, 0 <= b -> 0 <= f <= 62 -> pixel bd (val T maxb f b).
    Proof. intros f b Hb Hf. unfold val. destruct (Z.ltb_spec b maxb); [apply mix_pixel; [lia|apply HP; lia|apply HP; lia]|apply HP; lia]. Qed.

    Lemma z1_row_ok : forall top, (forall k, 0 <= k <= maxb -> top k = Ok (T k)) ->
      forall n f y x base d, Z.of_nat n = w - x -> 0 <= x -> 0 <= base -> 0 <= y < h -> 0 <= f <= 62 ->
      exists d', z1_row bd w h n top maxb inc f y x base d = Ok d' /\ (forall i, x <= i < w -> d' y i = Some (val T maxb f (base + (i - x) * inc))) /\
        (forall Y X, ~ (Y = y /\ x <= X < w) -> d' Y X = d Y X).
    Proof.
      intros top HT. induction n as [|n IH]; intros f y x base d Hn Hx Hb Hy Hf; cbn [z1_row].
      - exists d. split; [reflexivity|]. split; [intros; lia|reflexivity].
      - destruct (Z.ltb_spec base maxb) as [l|l].
        + rewrite (z_value_ok top T base (base + 1) base f) by (try apply HT; try apply HP; lia). cbn [obind].
          assert (PM : pixel bd (mix T base f)) by (apply mix_pixel; [lia|apply HP; lia|apply HP; lia]). rewrite (st_ok bd lw lh Hd y x _ d) by (exact PM || lia). cbn [obind].
          destruct (IH f y (x + 1) (base + inc) (set2 d y x (mix T base f)) ltac:(lia) ltac:(lia) ltac:(lia) Hy Hf) as (d' & E & A1 & A2).
          exists d'. split; [exact E|]. split.
          * intros i Hi'. destruct (Z.eq_dec i x) as [->|ne].
            -- rewrite A2 by lia. rewrite set2_same. replace (base + (x - x) * inc) with base by lia. unfold val. destruct (Z.ltb_spec base maxb); [reflexivity|lia].
            -- rewrite A1 by lia. do 2 f_equal. lia.
          * intros Y X N. rewrite A2 by lia. apply set2_other. lia.
        + destruct (for_inv _ (fun k (e : plane) => (forall i, x <= i < k -> e y i = Some (T maxb)) /\ (forall Y X, ~ (Y = y /\ x <= X < k) -> e Y X = d Y X))
            (fun x d => obind (top maxb) (fun v => st bd w h y x v d)) x w d ltac:(lia)) as (d' & E & A1 & A2).
          * split; [intros; lia|reflexivity].
          * intros k e Hk (Q1 & Q2). rewrite HT by lia. cbn [obind]. rewrite (st_ok bd lw lh Hd y k _ e) by (lia || (apply HP; lia)).
            eexists. split; [reflexivity|]. split.
            -- intros i Hi'. destruct (Z.eq_dec i k) as [->|]; [apply set2_same|]. rewrite set2_other by lia. apply Q1. lia.
            -- intros Y X N. rewrite set2_other by lia. apply Q2. lia.
          * exists d'. split; [exact E|]. split; [|exact A2]. intros i Hi'. rewrite A1 by exact Hi'. unfold val. destruct (Z.ltb_spec (base + (i - x) * inc) maxb); [nia|reflexivity].
    Qed.
    Lemma z3_col_ok : forall lft, (forall k, 0 <= k <= maxb -> lft (- k) = Ok (T k)) ->
      forall n f x y base d, Z.of_nat n = h - y -> 0 <= y -> 0 <= base -> 0 <= x < w -> 0 <= f <= 62 ->
      exists d', z3_col bd w h n lft maxb inc f x y base d = Ok d' /\ (forall i, y <= i < h -> d' i x = Some (val T maxb f (base + (i - y) * inc))) /\
        (forall Y X, ~ (X = x /\ y <= Y < h) -> d' Y X = d Y X).
    Proof.
      intros lft HT. induction n as [|n IH]; intros f x y base d Hn Hy Hb Hx Hf; cbn [z3_col].
      - exists d. split; [reflexivity|]. split; [intros; lia|reflexivity].
      - destruct (Z.ltb_spec base maxb) as [l|l].
        + rewrite (z_value_ok lft T (- base) (-(base + 1)) base f) by (try apply HT; try apply HP; lia). cbn [obind].
          assert (PM : pixel bd (mix T base f)) by (apply mix_pixel; [lia|apply HP; lia|apply HP; lia]). rewrite (st_ok bd lw lh Hd y x _ d) by (exact PM || lia). cbn [obind].
          destruct (IH f x (y + 1) (base + inc) (set2 d y x (mix T base f)) ltac:(lia) ltac:(lia) ltac:(lia) Hx Hf) as (d' & E & A1 & A2).
          exists d'. split; [exact E|]. split.
          * intros i Hi'. destruct (Z.eq_dec i y) as [->|ne].
            -- rewrite A2 by lia. rewrite set2_same. replace (base + (y - y) * inc) with base by lia. unfold val. destruct (Z.ltb_spec base maxb); [reflexivity|lia].
            -- rewrite A1 by lia. do 2 f_equal. lia.
          * intros Y X N. rewrite A2 by lia. apply set2_other. lia.
        + destruct (for_inv _ (fun k (e : plane) => (forall i, y <= i < k -> e i x = Some (T maxb)) /\ (forall Y X, ~ (X = x /\ y <= Y < k) -> e Y X = d Y X))
            (fun y d => obind (lft (- maxb)) (fun v => st bd w h y x v d)) y h d ltac:(lia)) as (d' & E & A1 & A2).
          * split; [intros; lia|reflexivity].
          * intros k e Hk (Q1 & Q2). rewrite HT by lia. cbn [obind]. rewrite (st_ok bd lw lh Hd k x _ e) by (lia || (apply HP; lia)).
            eexists. split; [reflexivity|]. split.
            -- intros i Hi'. destruct (Z.eq_dec i k) as [->|]; [apply set2_same|]. rewrite set2_other by lia. apply Q1. lia.
            -- intros Y X N. rewrite set2_other by lia. apply Q2. lia.
          * exists d'. split; [exact E|]. split; [|exact A2]. intros i Hi'. rewrite A1 by exact Hi'. unfold val. destruct (Z.ltb_spec (base + (i - y) * inc) maxb); [nia|reflexivity].
    Qed.
  End Line.

  Lemma z1_all : forall top T maxb up dx d, 0 <= maxb -> (up = 0 \/ up = 1) -> 0 < dx <= 4096 -> (forall k, 0 <= k <= maxb -> top k = Ok (T k) /\ pixel bd (T k)) ->
    exists d' xp, for_ 0 h (fun y s => let '(d, xpos) := s in
      obind (z1_row bd w h (Z.to_nat w) top maxb (1 + up) (Z.land xpos 62) y 0 (Z.shiftr xpos 6) d) (fun d =>
      obind (ck (xpos + dx)) (fun xpos => Ok (d, xpos)))) (d, dx) = Ok (d', xp) /\
      filled d d' w h 0 0 (fun i j => val T maxb (Z.land ((i + 1) * dx) 62) ((i + 1) * dx / 64 + j * (1 + up))).
  Proof.
    intros top T maxb up dx d Hm Hup Hdx HT. pose proof (w_range lw lh Hs). pose proof (h_range lw lh Hs).
    match goal with |- context [for_ 0 h ?F (d, dx)] =>
      destruct (for_inv _ (fun k (s : plane * Z) => snd s = (k + 1) * dx /\
        (forall i j, 0 <= i < k -> 0 <= j < w -> fst s i j = Some (val T maxb (Z.land ((i + 1) * dx) 62) ((i + 1) * dx / 64 + j * (1 + up)))) /\
        (forall Y X, ~ (0 <= Y < k /\ 0 <= X < w) -> fst s Y X = d Y X)) F 0 h (d, dx) ltac:(lia)) as ((d' & xp) & E & _ & Q1 & Q2) end.
    - cbn [fst snd]. split; [lia|]. split; [intros; lia|reflexivity].
    - intros k (e & xpos) Hk (E & Q1 & Q2). cbn [fst snd] in *. subst xpos.
      destruct (z1_row_ok T maxb (1 + up) Hm ltac:(lia) (fun k Hk => proj2 (HT k Hk)) top (fun k Hk => proj1 (HT k Hk)) (Z.to_nat w) (Z.land ((k + 1) * dx) 62) k 0 (Z.shiftr ((k + 1) * dx) 6) e)
        as (e' & -> & A1 & A2); [lia|lia| |exact Hk|apply land62_range|].
      { rewrite Z.shiftr_div_pow2 by lia. apply Z.div_pos; [nia|lia]. }
      cbn [obind]. rewrite ck_ok by (unfold INT_MIN, INT_MAX; nia). cbn [obind]. eexists. split; [reflexivity|]. cbn [fst snd].
      split; [lia|]. rewrite Z.shiftr_div_pow2 in A1 by lia. change (2 ^ 6) with 64 in A1. split.
      + intros i j Hi Hj. destruct (Z.eq_dec i k) as [->|ne].
        * rewrite A1 by lia. do 2 f_equal. lia.
        * rewrite A2 by lia. apply Q1; lia.
      + intros Y X N. rewrite A2 by lia. apply Q2. lia.
    - cbn [fst snd] in *. exists d', xp. split; [exact E|]. split.
      + intros i j Hi Hj. rewrite !Z.add_0_l. apply Q1; assumption.
      + intros Y X N. apply Q2. intros C. apply N. unfold within. lia.
  Qed.
  Lemma z3_all : forall lft T maxb up dy d, 0 <= maxb -> (up = 0 \/ up = 1) -> 0 < dy <= 4096 -> (forall k, 0 <= k <= maxb -> lft (- k) = Ok (T k) /\ pixel bd (T k)) ->
    exists d' yp, for_ 0 w (fun x s => let '(d, ypos) := s in
      obind (z3_col bd w h (Z.to_nat h) lft maxb (1 + up) (Z.land ypos 62) x 0 (Z.shiftr ypos 6) d) (fun d =>
      obind (ck (ypos + dy)) (fun ypos => Ok (d, ypos)))) (d, dy) = Ok (d', yp) /\
      filled d d' w h 0 0 (fun i j => val T maxb (Z.land ((j + 1) * dy) 62) ((j + 1) * dy / 64 + i * (1 + up))).
  Proof.
    intros lft T maxb up dy d Hm Hup Hdy HT. pose proof (w_range lw lh Hs). pose proof (h_range lw lh Hs).
    match goal with |- context [for_ 0 w ?F (d, dy)] =>
      destruct (for_inv _ (fun k (s : plane * Z) => snd s = (k + 1) * dy /\
        (forall i j, 0 <= i < h -> 0 <= j < k -> fst s i j = Some (val T maxb (Z.land ((j + 1) * dy) 62) ((j + 1) * dy / 64 + i * (1 + up)))) /\
        (forall Y X, ~ (0 <= Y < h /\ 0 <= X < k) -> fst s Y X = d Y X)) F 0 w (d, dy) ltac:(lia)) as ((d' & yp) & E & _ & Q1 & Q2) end.
    - cbn [fst snd]. split; [lia|]. split; [intros; lia|reflexivity].
    - intros k (e & ypos) Hk (E & Q1 & Q2). cbn [fst snd] in *. subst ypos.
      destruct (z3_col_ok T maxb (1 + up) Hm ltac:(lia) (fun k Hk => proj2 (HT k Hk)) lft (fun k Hk => proj1 (HT k Hk)) (Z.to_nat h) (Z.land ((k + 1) * dy) 62) k 0 (Z.shiftr ((k + 1) * dy) 6) e)
        as (e' & -> & A1 & A2); [lia|lia| |exact Hk|apply land62_range|].
      { rewrite Z.shiftr_div_pow2 by lia. apply Z.div_pos; [nia|lia]. }
      cbn [obind]. rewrite ck_ok by (unfold INT_MIN, INT_MAX; nia). cbn [obind]. eexists. split; [reflexivity|]. cbn [fst snd].
      split; [lia|]. rewrite Z.shiftr_div_pow2 in A1 by lia. change (2 ^ 6) with 64 in A1. split.
      + intros i j Hi Hj. destruct (Z.eq_dec j k) as [->|ne].
        * rewrite A1 by lia. do 2 f_equal. lia.
        * rewrite A2 by lia. apply Q1; lia.
      + intros Y X N. rewrite A2 by lia. apply Q2. lia.
    - cbn [fst snd] in *. exists d', yp. split; [exact E|]. split.
      + intros i j Hi Hj. rewrite !Z.add_0_l. apply Q1; assumption.
      + intros Y X N. apply Q2. intros C. apply N. unfold within. lia.
  Qed.
End Dir.

(** * The angles *)
Definition angles : list Z := [36; 39; 42; 45; 48; 51; 54; 58; 61; 64; 67; 70; 73; 76; 81; 84; 87; 90; 93; 96; 99; 104; 107; 110; 113; 116; 119; 122; 126; 129; 132; 135; 138; 141; 144; 148; 151; 154; 157; 160; 163; 166; 171; 174; 177; 180; 183; 186; 189; 194; 197; 200; 203; 206; 209; 212].
Definition angle_check (a : Z) : bool :=
  let ok i := match rd_at dr_intra_derivative (Z.shiftr i 1) with Ok v => (v =? Spec.Dr_Intra_Derivative i) && (0 <? v) && (v <=? 1023) | Undef => false end in
  if a <? 90 then ok a
  else if a =? 90 then true
  else if a <? 180 then ok (a - 90) && ok (180 - a) && (Spec.Dr_Intra_Derivative (a - 90) * Spec.Dr_Intra_Derivative (180 - a) <=? 4096)
  else if a =? 180 then true
  else ok (270 - a) && (Spec.Dr_Intra_Derivative (270 - a) <? 64).
Lemma angles_checked : forallb angle_check angles = true.
Proof. vm_compute. reflexivity. Qed.
Definition valid_angle (a : Z) : Prop := In a angles.
Lemma angle_of : forall mode delta, 1 <= mode <= 8 -> -3 <= delta <= 3 -> valid_angle (Spec.at_ Spec.Mode_To_Angle mode + delta * 3) /\
  rd_at mode_to_angle_map (mode - 1) = Ok (Spec.at_ Spec.Mode_To_Angle mode).
Proof.
  intros mode delta Hm Hdl.
  assert (C : mode = 1 \/ mode = 2 \/ mode = 3 \/ mode = 4 \/ mode = 5 \/ mode = 6 \/ mode = 7 \/ mode = 8) by lia.
  assert (D : delta = -3 \/ delta = -2 \/ delta = -1 \/ delta = 0 \/ delta = 1 \/ delta = 2 \/ delta = 3) by lia.
  split.
  - assert (B : existsb (Z.eqb (Spec.at_ Spec.Mode_To_Angle mode + delta * 3)) angles = true).
    { destruct C as [->|[->|[->|[->|[->|[->|[->| ->]]]]]]]; destruct D as [->|[->|[->|[->|[->|[->| ->]]]]]]; vm_compute; reflexivity. }
    apply existsb_exists in B. destruct B as (v & I & E). apply Z.eqb_eq in E. unfold valid_angle. rewrite E. exact I.
  - destruct C as [->|[->|[->|[->|[->|[->|[->| ->]]]]]]]; reflexivity.
Qed.
Lemma angle_facts : forall a, valid_angle a -> 36 <= a <= 212 /\ angle_check a = true.
Proof.
  intros a H. split; [|pose proof angles_checked as C; rewrite forallb_forall in C; apply C; exact H].
  assert (R : forallb (fun a => (36 <=? a) && (a <=? 212)) angles = true) by reflexivity. rewrite forallb_forall in R. specialize (R a H).
  apply andb_prop in R. destruct R as (R1 & R2). apply Z.leb_le in R1, R2. lia.
Qed.
Definition deriv_ok (i : Z) : Prop := rd_at dr_intra_derivative (Z.shiftr i 1) = Ok (Spec.Dr_Intra_Derivative i) /\ 0 < Spec.Dr_Intra_Derivative i <= 1023.
Lemma deriv_of : forall i, match rd_at dr_intra_derivative (Z.shiftr i 1) with Ok v => (v =? Spec.Dr_Intra_Derivative i) && (0 <? v) && (v <=? 1023) | Undef => false end = true -> deriv_ok i.
Proof.
  intros i E. unfold deriv_ok. destruct (rd_at dr_intra_derivative (Z.shiftr i 1)) as [v|]; [|discriminate].
  apply andb_prop in E. destruct E as (E & E3). apply andb_prop in E. destruct E as (E1 & E2). apply Z.eqb_eq in E1. apply Z.ltb_lt in E2. apply Z.leb_le in E3. subst v. split; [reflexivity|lia].
Qed.
Lemma angle_z1 : forall a, valid_angle a -> a < 90 -> 36 <= a /\ deriv_ok a.
Proof.
  intros a H L. destruct (angle_facts a H) as (R & C). unfold angle_check in C. destruct (Z.ltb_spec a 90); [|lia]. split; [lia|]. apply deriv_of. exact C.
Qed.
Lemma angle_z2 : forall a, valid_angle a -> 90 < a < 180 -> deriv_ok (a - 90) /\ deriv_ok (180 - a) /\ Spec.Dr_Intra_Derivative (a - 90) * Spec.Dr_Intra_Derivative (180 - a) <= 4096.
Proof.
  intros a H L. destruct (angle_facts a H) as (R & C). unfold angle_check in C. destruct (Z.ltb_spec a 90); [lia|]. destruct (Z.eqb_spec a 90); [lia|].
  destruct (Z.ltb_spec a 180); [|lia]. apply andb_prop in C. destruct C as (C & C3). apply andb_prop in C. destruct C as (C1 & C2). apply Z.leb_le in C3.
  split; [apply deriv_of; exact C1|]. split; [apply deriv_of; exact C2|exact C3].
Qed.
Lemma angle_z3 : forall a, valid_angle a -> 180 < a -> a <= 212 /\ deriv_ok (270 - a) /\ Spec.Dr_Intra_Derivative (270 - a) < 64.
Proof.
  intros a H L. destruct (angle_facts a H) as (R & C). unfold angle_check in C. destruct (Z.ltb_spec a 90); [lia|]. destruct (Z.eqb_spec a 90); [lia|].
  destruct (Z.ltb_spec a 180); [lia|]. destruct (Z.eqb_spec a 180); [lia|]. apply andb_prop in C. destruct C as (C1 & C2). apply Z.ltb_lt in C2.
  split; [lia|]. split; [apply deriv_of; exact C1|exact C2].
Qed.
(** The flags: src/recon_tmpl.c:1289-1296 *)
Definition flags (a : Z) (sm en : bool) : Z := Z.lor (Z.lor a (Z.shiftl (b2z sm) 9)) (Z.shiftl (b2z en) 10).
Lemma flags_ok : forall a sm en, valid_angle a -> ang_sm (flags a sm en) = sm /\ ang_filter (flags a sm en) = en /\ ang_deg (flags a sm en) = a.
Proof.
  intros a sm en H.
  assert (R : forallb (fun a => Bool.eqb (ang_sm (flags a sm en)) sm && Bool.eqb (ang_filter (flags a sm en)) en && (ang_deg (flags a sm en) =? a)) angles = true)
    by (destruct sm, en; vm_compute; reflexivity).
  rewrite forallb_forall in R. specialize (R a H). apply andb_prop in R. destruct R as (R & R3). apply andb_prop in R. destruct R as (R1 & R2).
  apply eqb_prop in R1. apply eqb_prop in R2. apply Z.eqb_eq in R3. split; [exact R1|]. split; [exact R2|exact R3].
Qed.

(** One picture per temporal unit. *)
From Coq Require Import ZArith List Bool Lia.
From Verif Require Import Base.CInt Obu.SeqModel Obu.FrameModel Dec.State Dec.Submit Dec.ObuModel
  Dec.LibModel Dec.Inv Dec.OutSpec Dec.Micro Dec.Api Dec.Trace Dec.Session Dec.Runs Dec.Again.
Import ListNotations.
Open Scope Z_scope.

(** Only the pictures and the ends of data matter. *)
Definition sel_mark (x : sel) (m : option tpic) : sel := match m with Some p => sel_pic p x | None => sel_cut x end.
Lemma sel_top : forall x m, sl_top (sel_mark x m) = sl_top x.
Proof.
  intros x m. destruct m as [p|]; cbn; unfold sel_pic, sel_cut; destruct (_ =? 0); auto; destruct (sl_held x); auto. destruct (_ || _); auto.
Qed.
Lemma sel_marks : forall M e x, sl_top x = M -> (forall b m r sid, In (EvParse b m r sid) e -> sid = M) ->
  sel_all false e x = fold_left sel_mark (marks e) x.
Proof.
  intros M e. induction e as [|v e IH]; intros x T H; [reflexivity|].
  assert (H2 : forall b m r sid, In (EvParse b m r sid) e -> sid = M) by (intros; eapply H; right; eauto).
  unfold marks. cbn [flat_map]. rewrite fold_left_app. change (sel_all false (v :: e) x) with (sel_all false e (sel_ev false x v)).
  assert (T2 : sl_top (sel_ev false x v) = M).
  { destruct v; cbn; auto; try (change (sel_pic p x) with (sel_mark x (Some p)); rewrite sel_top; auto).
    - eapply H; left; reflexivity.
    - change (sel_cut x) with (sel_mark x None). rewrite sel_top. auto. }
  rewrite (IH _ T2 H2). fold (marks e). f_equal. destruct v; cbn; try reflexivity.
  rewrite (H buf m r sid (or_introl eq_refl)), <- T. destruct x; reflexivity.
Qed.
Lemma sel_before : forall e x, outs_of e = [] -> sl_held x = None ->
  sl_done (sel_all false e x) = sl_done x /\ sl_held (sel_all false e x) = None.
Proof.
  intros e. induction e as [|v e IH]; intros x O H; [auto|].
  change (sel_all false (v :: e) x) with (sel_all false e (sel_ev false x v)).
  destruct v; cbn [outs_of flat_map app] in O; try discriminate; try (apply IH; auto).
  - destruct (IH (sel_ev false x (EvParse buf m r sid)) O H). auto.
  - cbn [sel_ev]. unfold sel_cut. destruct (_ =? 0); [apply IH; auto|]. rewrite H. apply IH; auto.
Qed.
Lemma unit_more : forall M l p dn, M <> 0 -> rising M p l ->
  fold_left sel_mark (map Some l) (mkSel M dn (Some p)) = mkSel M dn (Some (last l p)).
Proof.
  intros M l. induction l as [|q l IH]; intros p dn NZ R; [auto|]. destruct R as (R1 & R2 & R3). cbn [map fold_left sel_mark].
  assert (LQ : layer q <= M).
  { clear - R3. revert q R3. induction l as [|a l IH]; intros q R3; [exact R3|]. destruct R3 as (A & _ & B). specialize (IH _ B). lia. }
  assert (E : sel_pic q (mkSel M dn (Some p)) = mkSel M dn (Some q)).
  { unfold sel_pic. cbn [sl_top sl_held sl_done]. destruct (Z.eqb_spec M 0); [contradiction|]. fold (layer p).
    destruct (Z.eqb_spec (layer p) M); [lia|]. rewrite R2. reflexivity. }
  rewrite E. rewrite (IH q dn NZ R3). f_equal. f_equal. cbn [last]. destruct l as [|y l]; [reflexivity|].
  clear. revert y. induction l as [|z l IH]; intros y; [reflexivity|]. cbn [last] in *. apply IH.
Qed.
Lemma unit_cuts : forall M n dn h, M <> 0 -> exists dn2 h2, fold_left sel_mark (repeat None n) (mkSel M dn h) = mkSel M dn2 h2 /\
  dn2 ++ opt_list h2 = dn ++ opt_list h.
Proof.
  intros M n. induction n as [|n IH]; intros dn h NZ; cbn [repeat fold_left sel_mark]; [eauto|].
  unfold sel_cut. cbn [sl_top sl_held sl_done]. destruct (Z.eqb_spec M 0); [contradiction|]. destruct h as [q|].
  - destruct (IH (dn ++ [q]) None NZ) as (dn2 & h2 & E & F). exists dn2, h2. split; [exact E|]. rewrite F, app_nil_r. reflexivity.
  - apply IH; auto.
Qed.
Lemma units_sel : forall M us dn h, M <> 0 -> Forall (tu_ok M) us ->
  exists dn2 h2, fold_left sel_mark (flat_map tu_marks us) (mkSel M dn h) = mkSel M dn2 h2 /\
    dn2 ++ opt_list h2 = (dn ++ opt_list h) ++ map tu_best us.
Proof.
  intros M us. induction us as [|u us IH]; intros dn h NZ H; cbn [flat_map map].
  - exists dn, h. rewrite app_nil_r. auto.
  - pose proof (Forall_inv H) as (H1 & H2). pose proof (Forall_inv_tail H) as H3.
    rewrite fold_left_app. change (tu_marks u) with (Some (tu_first u) :: map Some (tu_more u) ++ repeat None (tu_cuts u)). cbn [fold_left sel_mark].
    assert (E : sel_pic (tu_first u) (mkSel M dn h) = mkSel M (dn ++ opt_list h) (Some (tu_first u))).
    { unfold sel_pic. cbn [sl_top sl_held sl_done]. destruct (Z.eqb_spec M 0); [contradiction|]. destruct h as [q|].
      - rewrite H1, orb_true_r. reflexivity.
      - cbn [opt_list]. rewrite app_nil_r. reflexivity. }
    rewrite E, fold_left_app. rewrite (unit_more M (tu_more u) (tu_first u) (dn ++ opt_list h) NZ H2).
    destruct (unit_cuts M (tu_cuts u) (dn ++ opt_list h) (Some (last (tu_more u) (tu_first u))) NZ) as (dn2 & h2 & -> & F2).
    destruct (IH dn2 h2 NZ H3) as (dn3 & h3 & -> & F3). exists dn3, h3. split; [reflexivity|]. rewrite F3, F2. cbn [opt_list].
    rewrite <- app_assoc. reflexivity.
Qed.

(** For a run of calls. *)
Theorem run_units : forall o s l d rs d' e1 e2 M us, 1 <= s_n_fc s -> live o s d -> fresh s d -> Forall call_ok l -> ~ In Flush l ->
  calls o s l d = Ok (rs, d', e1 ++ e2) -> s_all_layers s = false -> M <> 0 ->
  outs_of e1 = [] -> top_from M e2 -> marks e2 = flat_map tu_marks us -> Forall (tu_ok M) us ->
  (exists more, takes (e1 ++ e2) ++ more = map tu_best us) /\ (exhausted s d' -> takes (e1 ++ e2) = map tu_best us).
Proof.
  intros o s l d rs d' e1 e2 M us NF L F HC HF E AL NZ O1 ((b & m & r & t & TF) & T2) MK HU.
  destruct (run_choice o s NF l d rs d' _ L F HC HF E) as (S & _). rewrite AL, sel_all_app in S.
  destruct (sel_before e1 (mkSel (top s d) [] None) O1 eq_refl) as (B1 & B2). cbn [sl_done] in B1.
  set (x := sel_all false e1 _) in *. clearbody x. subst e2.
  change (sel_all false (EvParse b m r M :: t) x) with (sel_all false t (mkSel M (sl_done x) (sl_held x))) in S. rewrite B1, B2 in S.
  rewrite (sel_marks M) in S; [|reflexivity|intros; eapply T2; right; eauto].
  change (marks (EvParse b m r M :: t)) with (marks t) in MK. rewrite MK in S.
  destruct (units_sel M us [] None NZ HU) as (dn & h & ES & FE). rewrite ES in S. cbn [app opt_list] in FE. set (tk := takes _) in *. clearbody tk.
  unfold seen in S. split.
  - destruct (d_out d') as [p|].
    + unfold sel_pic in S. cbn [sl_top sl_held sl_done] in S. destruct (_ =? 0).
      * injection S as _ -> ->. rewrite <- app_assoc in FE. eexists. exact FE.
      * destruct (d_cache d') as [q|]; [destruct (_ || _)|]; injection S as _ -> ->; try (rewrite <- app_assoc in FE); eexists; exact FE.
    + injection S as _ -> ->. eexists. exact FE.
  - intros (X1 & X2 & X3). rewrite X2 in S. injection S as S1 -> ->. destruct X3 as [X3|X3]; [congruence|]. rewrite X3, app_nil_r in FE. exact FE.
Qed.

(** A key or intra frame's header does not depend on the reference frames. *)
From Coq Require Import ZArith List Bool Lia.
From Verif Require Import Base.CInt GetBits.Model GetBits.Sim Obu.SeqModel Obu.FrameModel.
Import ListNotations.
Open Scope Z_scope.
Local Open Scope rd_scope.

Lemma exec_cong : forall A B (m1 m2 : rd A) (f1 f2 : A -> rd B) c, exec m1 c = exec m2 c ->
  (forall a c', exec m1 c = Ok (inl a, c') -> exec (f1 a) c' = exec (f2 a) c') -> exec (rbind m1 f1) c = exec (rbind m2 f2) c.
Proof. intros A B m1 m2 f1 f2 c E F. rewrite !exec_bind, <- E. destruct (exec m1 c) as [[[a|e] c']|]; auto. Qed.
Lemma exec_step : forall A B (m : rd A) (f : A -> rd B) c b c2, exec (rbind m f) c = Ok (inl b, c2) ->
  exists a c1, exec m c = Ok (inl a, c1) /\ exec (f a) c1 = Ok (inl b, c2).
Proof. intros A B m f c b c2 E. rewrite exec_bind in E. destruct (exec m c) as [[[a|e] c1]|]; try discriminate. eauto. Qed.

Ltac stepin E := apply exec_step in E; let a := fresh "v" in let c := fresh "c" in let X := fresh "X" in destruct E as (a & c & X & E).

(** Without a primary reference frame for key and intra frames. *)
Lemma prefix_primary : forall q tid sid c p c', exec (parse_prefix q tid sid) c = Ok (inl p, c') ->
  is_key_or_intra (frame_type p) = true -> primary_ref_frame p = PRIMARY_REF_NONE.
Proof.
  intros q tid sid c p c' E K. unfold parse_prefix in E. cbv zeta in E.
  stepin E. stepin E. stepin E. destruct v1 as [fpd sbl]. do 8 stepin E. stepin E. destruct v9 as [brtp brt].
  cbn [exec] in E. injection E as <- _. cbn [frame_type primary_ref_frame] in *. unfold is_key_or_intra in K.
  apply negb_true_iff in K. rewrite K, andb_false_r in X9. cbn [exec] in X9. injection X9 as <- _. reflexivity.
Qed.

Section Key.
Variables (q : seq_hdr) (r1 r2 : refs_t) (strict : bool) (p : fprefix).
Hypothesis K : is_key_or_intra (frame_type p) = true.
Hypothesis P : primary_ref_frame p = PRIMARY_REF_NONE.
Lemma not_inter : is_inter_or_switch (frame_type p) = false.
Proof. unfold is_key_or_intra in K. apply negb_true_iff in K. exact K. Qed.
Lemma type_not_inter : (frame_type p =? FT_INTER) = false.
Proof.
  pose proof not_inter as N. unfold is_inter_or_switch in N. destruct (frame_type p =? FT_INTER) eqn:E; [|reflexivity].
  apply Z.eqb_eq in E. rewrite E in N. discriminate.
Qed.
Lemma refs_key : parse_refs q r1 strict p = parse_refs q r2 strict p.
Proof. unfold parse_refs. rewrite K. reflexivity. Qed.
Lemma seg_key : forall l, parse_seg r1 p l = parse_seg r2 p l.
Proof. intros l. unfold parse_seg. rewrite P. reflexivity. Qed.
Lemma lf_key : forall l a b, parse_lf q r1 p l a b = parse_lf q r2 p l a b.
Proof. intros l a b. unfold parse_lf. rewrite P. reflexivity. Qed.
Lemma skip_key : forall l a, skip_mode q r1 p l a = skip_mode q r2 p l a.
Proof. intros l a. unfold skip_mode. rewrite not_inter, andb_false_r. reflexivity. Qed.
Lemma fg_key : forall l, parse_fg q r1 p l = parse_fg q r2 p l.
Proof. intros l. unfold parse_fg. rewrite type_not_inter. reflexivity. Qed.
End Key.

(** What holds of the header of a shown key frame. *)
Record key_hdr (h : frame_hdr) : Prop := mkKey {
  kh_show : show_existing_frame h = 0; kh_type : frame_type (f_pre h) = FT_KEY; kh_shown : z2b (show_frame (f_pre h)) = true;
  kh_refresh : refresh_frame_flags (f_refs h) = 255; kh_primary : primary_ref_frame (f_pre h) = PRIMARY_REF_NONE;
  kh_map : z2b (sg_enabled (f_seg h)) = true -> sg_update_map (f_seg h) = 1 /\ sg_temporal (f_seg h) = 0 }.

Lemma seg_fresh : forall r p l c sg c', primary_ref_frame p = PRIMARY_REF_NONE -> exec (parse_seg r p l) c = Ok (inl sg, c') ->
  z2b (sg_enabled sg) = true -> sg_update_map sg = 1 /\ sg_temporal sg = 0.
Proof.
  intros r p l c sg c' P E H. unfold parse_seg in E. rewrite P in E. stepin E. destruct (z2b v) eqn:V.
  - cbn [Z.eqb PRIMARY_REF_NONE Pos.eqb] in E. stepin E. destruct v0 as [[um tp] ud]. cbn [exec] in X0. injection X0 as <- <- <- _.
    stepin E. cbn [exec] in E. injection E as <- _. split; reflexivity.
  - cbn [exec] in E. injection E as <- _. cbn [sg_enabled] in H. congruence.
Qed.
Lemma refs_shown : forall q r strict p c x c', frame_type p = FT_KEY -> z2b (show_frame p) = true ->
  exec (parse_refs q r strict p) c = Ok (inl x, c') -> refresh_frame_flags x = 255.
Proof.
  intros q r strict p c x c' K S E. unfold parse_refs in E. rewrite K, S in E. change (is_key_or_intra FT_KEY) with true in E.
  cbv iota in E. stepin E. cbn [Z.eqb FT_KEY andb exec] in X. injection X as <- _. stepin E. cbn [Z.eqb FT_KEY FT_INTRA andb] in E.
  rewrite andb_false_r in E. cbn [andb] in E. do 2 stepin E. cbn [exec] in E. injection E as <- _. reflexivity.
Qed.

Ltac useX := match goal with X : exec ?m ?c = Ok (inl _, _) |- context [exec ?m ?c] => rewrite X end.
Theorem hdr_key : forall q r1 r2 strict tid sid c h c', exec (parse_frame_hdr q r1 strict tid sid) c = Ok (inl h, c') ->
  show_existing_frame h = 0 -> frame_type (f_pre h) = FT_KEY -> z2b (show_frame (f_pre h)) = true ->
  exec (parse_frame_hdr q r2 strict tid sid) c = Ok (inl h, c') /\ key_hdr h.
Proof.
  intros q r1 r2 strict tid sid c h c' E SE KT SF. unfold parse_frame_hdr in *. cbv zeta in *. stepin E.
  rewrite exec_bind, X. destruct (z2b v).
  { do 3 stepin E. cbn [exec] in E. injection E as <- _. discriminate. }
  clear X. apply exec_step in E. destruct E as (p & c1 & EP & E). rewrite exec_bind, EP.
  apply exec_step in E. destruct E as (r & c2 & ER & E).
  assert (PF : f_pre h = p).
  { clear - E. do 15 stepin E. apply exec_step in E. destruct E as (((fp & fu) & fd) & cc & _ & E). cbn [exec] in E.
    injection E as <- _. reflexivity. }
  rewrite PF in KT, SF.
  assert (K : is_key_or_intra (frame_type p) = true) by (rewrite KT; reflexivity).
  pose proof (prefix_primary _ _ _ _ _ _ EP K) as P. pose proof (refs_shown _ _ _ _ _ _ _ KT SF ER) as RF.
  rewrite (refs_key q r1 r2 strict p K) in ER. rewrite exec_bind, ER.
  apply exec_step in E. destruct E as (rc & c3 & X & E). rewrite exec_bind, X. clear X.
  apply exec_step in E. destruct E as (tl & c4 & X & E). rewrite exec_bind, X. clear X.
  apply exec_step in E. destruct E as (qu & c5 & X & E). rewrite exec_bind, X. clear X.
  apply exec_step in E. destruct E as (sg & c6 & ES & E). pose proof (seg_fresh _ _ _ _ _ _ P ES) as SG.
  rewrite (seg_key r1 r2 p P) in ES. rewrite exec_bind, ES.
  apply exec_step in E. destruct E as (dl & c7 & X & E). rewrite exec_bind, X. clear X.
  apply exec_step in E. destruct E as (lf & c8 & X & E). rewrite (lf_key q r1 r2 p P) in X. rewrite exec_bind, X. clear X.
  apply exec_step in E. destruct E as (cd & c9 & X & E). rewrite exec_bind, X. clear X.
  apply exec_step in E. destruct E as (lr & c10 & X & E). rewrite exec_bind, X. clear X.
  apply exec_step in E. destruct E as (tx & c11 & X & E). rewrite exec_bind, X. clear X.
  apply exec_step in E. destruct E as (scr & c12 & X & E). rewrite exec_bind, X. clear X.
  apply exec_step in E. destruct E as (sm & c13 & X & E). rewrite (skip_key q r1 r2 p K) in X. rewrite exec_bind, X. clear X.
  apply exec_step in E. destruct E as (sme & c14 & X & E). rewrite exec_bind, X. clear X.
  apply exec_step in E. destruct E as (wm & c15 & X & E). rewrite exec_bind, X. clear X.
  apply exec_step in E. destruct E as (rts & c16 & X & E). rewrite exec_bind, X. clear X.
  apply exec_step in E. destruct E as (gm & c17 & X & E). rewrite (not_inter p K) in X. rewrite exec_bind, (not_inter p K), X. clear X.
  apply exec_step in E. destruct E as (((fp & fu) & fd) & c18 & X & E). rewrite (fg_key q r1 r2 p K) in X. rewrite exec_bind, X. clear X.
  split; [exact E|]. cbn [exec] in E. injection E as <- _. constructor; cbn; auto.
Qed.

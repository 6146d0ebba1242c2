(** C37: what a frame is decoded from.

    Every frame handed to the tile decoder refers to existing, decoded pictures of a
    size and format it may be predicted from, starts from an existing CDF context,
    and uses motion fields and segmentation maps only of frames of the same size. *)
From Coq Require Import ZArith List Bool Lia.
From Verif Require Import Base.CInt Base.Lemmas GetBits.Model GetBits.Spec GetBits.SpecProg GetBits.AtPos
  Obu.SeqModel Obu.SeqRel Obu.SeqSpec Obu.SeqTop Obu.ObuSpec Obu.FrameModel
  Dec.State Dec.Submit Dec.ObuModel Dec.LibModel Dec.Front Dec.Wf Dec.Inv Dec.Meta Dec.Step Dec.SubmitProofs
  Dec.Parse Dec.Api Dec.Facts Dec.TileSteps Dec.Samples.
Import ListNotations.
Open Scope Z_scope.

(** 7.20/8.2: the default coefficient contexts are chosen by the base quantizer index. *)
Definition default_context (q : Z) : Z :=
  if Z_le_dec q 20 then 0 else if Z_le_dec q 60 then 1 else if Z_le_dec q 120 then 2 else 3.

Lemma default_context_ok : forall q, static_cdf q = - (1 + default_context q).
Proof.
  intros q. unfold static_cdf, default_context, b2z.
  destruct (Z.ltb_spec 20 q), (Z.ltb_spec 60 q), (Z.ltb_spec 120 q);
    destruct (Z_le_dec q 20); try lia; destruct (Z_le_dec q 60); try lia; destruct (Z_le_dec q 120); lia.
Qed.

Section C37.
Variables (o : oracle) (s : settings) (buf : list Z) (m : props) (d d' : dec) (r : Z) (e : list ev).
Hypothesis (HN : 1 <= s_n_fc s) (HL : live o s d) (HO : d_out d = None) (HB : Forall is_byte buf) (HZ : 0 < zlen buf)
  (HP : parse_obus o s buf m d = Ok (r, d', e)).

Variables (j : job) (r0 : Z).
Hypothesis HI : In (EvSubmit j r0) e.
Let h := j_hdr j.

(** The seven references of an inter frame are the pictures in the slots the header
    names.  They have pixel data, their upscaled size is within 2x below and 16x
    above, and layout and bit depth are those of the sequence; intra frames have none. *)
Theorem C37_references :
  if is_inter_or_switch (frame_type (f_pre h)) then
    Forall2 (fun i p => r_pic (slot_at d i) = Some p /\ tp_buf p <> None /\
        2 * width0 (fsz (f_refs h)) >= width1 (fsz (f_refs (tp_hdr p))) /\
        2 * fheight (fsz (f_refs h)) >= fheight (fsz (f_refs (tp_hdr p))) /\
        width0 (fsz (f_refs h)) <= 16 * width1 (fsz (f_refs (tp_hdr p))) /\
        fheight (fsz (f_refs h)) <= 16 * fheight (fsz (f_refs (tp_hdr p))) /\
        layout (sh_color (j_seq j)) = layout (sh_color (tp_seq p)) /\
        hbd (sh_color (j_seq j)) = hbd (sh_color (tp_seq p)))
      (refidx (f_refs h)) (j_refs j)
  else j_refs j = [].
Proof.
  destruct (submitted o s buf m d d' r e HN HL HO HB HZ HP j r0 HI)
    as (n & q & h1 & d1 & d2 & p & I1 & Q1 & R1 & S1 & H1 & SE & NT & JK & _).
  unfold h. rewrite (jk_hdr _ _ _ _ JK), (jk_seq _ _ _ _ JK). change (is_inter_or_switch (frame_type (f_pre h1))) with (is_inter h1).
  destruct (is_inter h1) eqn:EI; [|apply (jk_intra _ _ _ _ JK EI)].
  eapply Forall2_impl; [|apply (jk_inter _ _ _ _ JK EI)]. cbv beta. intros i x (X1 & X2 & X3).
  rewrite (slot_same d d1 i R1) in X1. split; [auto|]. split; [unfold has_data in X2; destruct (tp_buf x); discriminate|].
  exact X3.
Qed.
(** The CDF context is a default one or the one saved in the slot of the primary
    reference frame, and it exists. *)
Theorem C37_cdf : j_cdf j <> None /\
  j_cdf j = if primary_ref_frame (f_pre h) =? PRIMARY_REF_NONE then Some (- (1 + default_context (yac (f_quant h))))
            else r_cdf (slot_at d (nth (Z.to_nat (primary_ref_frame (f_pre h))) (refidx (f_refs h)) 0)).
Proof.
  destruct (submitted o s buf m d d' r e HN HL HO HB HZ HP j r0 HI)
    as (n & q & h1 & d1 & d2 & p & I1 & Q1 & R1 & S1 & H1 & SE & NT & JK & _).
  split; [apply (jk_cdf _ _ _ _ JK)|]. unfold h. rewrite (jk_hdr _ _ _ _ JK).
  destruct (Z.eqb_spec (primary_ref_frame (f_pre h1)) PRIMARY_REF_NONE) as [E|E].
  - rewrite (jk_cdf_default _ _ _ _ JK E). f_equal. apply default_context_ok.
  - rewrite (proj2 (jk_cdf_ref _ _ _ _ JK E)). rewrite (slot_same d d1) by auto. reflexivity.
Qed.
(** A motion field is that of the slot, used only if the header asks for it and the
    reference has the same size in 8x8 blocks; likewise the previous segmentation map. *)
Theorem C37_motion_fields : forall k i p, nth_error (refidx (f_refs h)) k = Some i -> nth_error (j_refs j) k = Some p ->
  nth_error (j_mvs j) k = Some (if z2b (use_ref_frame_mvs (f_refs h)) && same_blocks h p then r_refmvs (slot_at d i) else None).
Proof.
  destruct (submitted o s buf m d d' r e HN HL HO HB HZ HP j r0 HI)
    as (n & q & h1 & d1 & d2 & p0 & I1 & Q1 & R1 & S1 & H1 & SE & NT & JK & _).
  unfold h. rewrite (jk_hdr _ _ _ _ JK). intros k i p K1 K2. rewrite (jk_mvs _ _ _ _ JK k i p K1 K2).
  rewrite (slot_same d d1 i) by auto. reflexivity.
Qed.
Theorem C37_segmentation_map :
  (j_prev_segmap j <> None -> sg_enabled (f_seg h) = 1 /\ (sg_temporal (f_seg h) = 1 \/ sg_update_map (f_seg h) = 0) /\
     primary_ref_frame (f_pre h) <> PRIMARY_REF_NONE /\
     j_prev_segmap j = r_segmap (slot_at d (nth (Z.to_nat (primary_ref_frame (f_pre h))) (refidx (f_refs h)) 0)) /\
     exists p, nth_error (j_refs j) (Z.to_nat (primary_ref_frame (f_pre h))) = Some p /\ same_blocks h p = true) /\
  j_segmap j = if z2b (sg_enabled (f_seg h)) then
                 if z2b (sg_update_map (f_seg h)) then Some (j_id j)
                 else match j_prev_segmap j with Some x => Some x | None => Some (j_id j) end
               else None.
Proof.
  destruct (submitted o s buf m d d' r e HN HL HO HB HZ HP j r0 HI)
    as (n & q & h1 & d1 & d2 & p0 & I1 & Q1 & R1 & S1 & H1 & SE & NT & JK & _).
  unfold h. rewrite (jk_hdr _ _ _ _ JK). split; [|apply (jk_segmap _ _ _ _ JK)].
  intros N. destruct (jk_prev_segmap _ _ _ _ JK N) as (A & B & C & E & F). rewrite (slot_same d d1) in E by auto. auto.
Qed.
End C37.

Definition C37_d : dec := after_calls o_fine s_one [send (p_seq ++ p_key); Get; Get].
Example C37_example : live o_fine s_one C37_d /\
  match parse_obus o_fine s_one p_inter 7 C37_d with
  | Ok (_, _, EvSubmit j 0 :: _) => map tp_buf (j_refs j) = repeat (Some 0) 7 /\ j_cdf j = Some 0
  | _ => False end.
Proof. split; [apply after_live; reflexivity|]. vm_compute. auto. Qed.

Print Assumptions C37_references.
Print Assumptions C37_cdf.
Print Assumptions C37_motion_fields.
Print Assumptions C37_segmentation_map.

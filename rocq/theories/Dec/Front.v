(** The OBU header and size field as parsed by dav1d_parse_obus. *)
From Coq Require Import ZArith List Bool Lia.
From Verif Require Import Base.CInt Base.Lemmas GetBits.Model GetBits.Spec GetBits.Abstract
  GetBits.Proofs GetBits.SpecProg GetBits.Sim GetBits.VarLen GetBits.AtPos Obu.SimTac
  Obu.SeqModel Obu.ObuSpec Obu.SeqTop Dec.State Dec.ObuModel.
Import ListNotations.
Open Scope Z_scope.
Local Open Scope outcome_scope.
Local Open Scope sp_scope.

Definition obu_header_checked (strict : bool) : sp obu_hdr :=
  let* obu_forbidden_bit := f 1 in
  let* _ := require (negb (strict && (obu_forbidden_bit =? 1))) in
  let* obu_type := f 4 in
  let* obu_extension_flag := f 1 in
  let* obu_has_size_field := f 1 in
  let* obu_reserved_1bit := f 1 in
  if obu_extension_flag =? 1 then
    let* temporal_id := f 3 in
    let* spatial_id := f 2 in
    let* extension_header_reserved_3bits := f 3 in
    SRet (mkObuHdr obu_type 1 obu_has_size_field temporal_id spatial_id)
  else SRet (mkObuHdr obu_type 0 obu_has_size_field 0 0).

Lemma checked_eq : forall strict b pos, 0 <= b pos <= 1 ->
  if strict && (b pos =? 1) then fst (srun (obu_header_checked strict) b pos) = None
  else srun (obu_header_checked strict) b pos = srun obu_header b pos.
Proof.
  intros strict b pos Hb. unfold obu_header_checked, obu_header, require. cbn [f sbind srun]. rewrite f_n_1.
  destruct (strict && (b pos =? 1)); cbn [negb sbind srun fst]; reflexivity.
Qed.

Definition hdr5 (h : obu_hdr) (x : Z * Z * Z * Z * Z) : Prop :=
  x = (obu_type h, obu_extension_flag h, obu_has_size_field h, temporal_id h, spatial_id h) /\
  0 <= obu_type h <= 15 /\ 0 <= obu_extension_flag h <= 1 /\ 0 <= obu_has_size_field h <= 1 /\
  0 <= temporal_id h <= 7 /\ 0 <= spatial_id h <= 3.

Lemma sim_obu_fields : forall strict N, 16 <= N ->
  sim N (obu_fields strict) (obu_header_checked strict) (fun x h => hdr5 h x).
Proof.
  intros strict N HN. unfold obu_fields, obu_header_checked. rd1 fb.
  apply sim_require; [lia|rewrite z2b_1 by lia; destruct strict, (Z.eqb_spec fb 1); reflexivity|]. intros _.
  rdn ty 4. rd1 ext. rd1 hl. rd1 rs. rewrite z2b_1 by lia. change (2 ^ 4) with 16 in *.
  destruct (Z.eqb_spec ext 1) as [->|Ne].
  - rdn tid 3. rdn sid 2. rdn x 3. sret. change (2 ^ 3) with 8 in *. change (2 ^ 2) with 4 in *.
    split; [reflexivity|]. cbn. lia.
  - assert (ext = 0) as -> by lia. sret. split; [reflexivity|]. cbn. lia.
Qed.

Lemma nth_firstn_Z : forall (l : list Z) n i, (i < n)%nat -> nth i (firstn n l) 0 = nth i l 0.
Proof. intros l n. revert l. induction n; intros [|x l] [|i] H; cbn; auto; try lia. apply IHn. lia. Qed.
Lemma zlen_firstn : forall (l : list Z) e, 0 <= e <= zlen l -> zlen (firstn (Z.to_nat e) l) = e.
Proof. intros l e H. unfold zlen in *. rewrite firstn_length. lia. Qed.
Lemma Forall_firstn : forall A (P : A -> Prop) n l, Forall P l -> Forall P (firstn n l).
Proof. intros A P n l H. revert n. induction H; intros [|n]; cbn; constructor; auto. Qed.
Lemma Forall_skipn : forall A (P : A -> Prop) n l, Forall P l -> Forall P (skipn n l).
Proof. intros A P n l H. revert n. induction H; intros [|n]; cbn; auto. Qed.

Lemma stream_bit_firstn : forall buf e i, 0 <= e <= zlen buf -> i < 8 * e ->
  stream_bit (firstn (Z.to_nat e) buf) e i = stream_bit buf (zlen buf) i.
Proof.
  intros buf e i He Hi. unfold stream_bit.
  replace (i <? 8 * e) with true by lia. replace (i <? 8 * zlen buf) with true by lia.
  destruct (Z.leb_spec 0 i); cbn [andb]; auto. rewrite nth_firstn_Z; auto.
  assert (i / 8 < e) by (apply Z.div_lt_upper_bound; lia). assert (0 <= i / 8) by (apply Z.div_pos; lia). lia.
Qed.

(** Limiting a byte-aligned reader to a prefix of the buffer. *)
Lemma at_pos_limit : forall buf o e c, at_pos buf (8 * o) c -> 0 <= o <= e -> e <= zlen buf ->
  at_pos (firstn (Z.to_nat e) buf) (8 * o) (gb_limit c e).
Proof.
  intros buf o e c Hat Ho He. destruct (at_pos_aligned _ _ _ Hat ltac:(lia)) as (P & L & St & Er).
  destruct Hat as ((W1 & W2 & W3 & W4) & E1 & E2 & E3). unfold at_pos, gb_limit, gb_wf, apos_of.
  cbn [gb_buf gb_ptr gb_end gb_state gb_left gb_err]. rewrite E1, L, St, Er, P, zlen_firstn by lia.
  split; [|split; [auto|split; [auto|]]].
  - split; [rewrite <- E1; apply Forall_firstn; auto|]. split; [lia|]. split; [lia|]. left.
    split; [lia|]. split; [lia|]. rewrite f_n_0. reflexivity.
  - f_equal; [lia|]. symmetry. apply Z.ltb_ge. lia.
Qed.
Lemma at_pos_limit_end : forall buf pos c, at_pos buf pos c -> gb_limit c (zlen buf) = c.
Proof.
  intros buf pos [b p e s l er] (_ & E1 & E2 & _). cbn in *. subst. unfold gb_limit. cbn. f_equal.
  unfold zlen. rewrite Nat2Z.id. apply firstn_all.
Qed.

(** What dav1d_parse_obus makes of the header of the OBU at the start of [buf]. *)
Theorem obu_open_ok : forall strict buf, Forall is_byte buf -> 0 < zlen buf ->
  exists r, obu_open strict buf = Ok r /\
  match r with
  | Some (type, ext, tid, sid, c) =>
      exists h start stop, next_obu buf 0 = Some (h, start, stop) /\
        strict && (stream_bit buf (zlen buf) 0 =? 1) = false /\
        type = obu_type h /\ ext = obu_extension_flag h /\ tid = temporal_id h /\ sid = spatial_id h /\
        0 <= type <= 15 /\ 0 <= ext <= 1 /\ 0 <= tid <= 7 /\ 0 <= sid <= 3 /\
        1 <= start <= stop /\ stop <= zlen buf /\ gb_end c = stop /\
        at_pos (firstn (Z.to_nat stop) buf) (8 * start) c
  | None => next_obu buf 0 = None \/ strict && (stream_bit buf (zlen buf) 0 =? 1) = true
  end.
Proof.
  intros strict buf Hb Hl. unfold obu_open.
  destruct (at_pos_init buf Hb Hl) as (c0 & E0 & At0). rewrite E0. cbn [obind].
  pose proof (sim_exec _ _ 16 _ _ _ buf 0 c0 (sim_obu_fields strict 16 ltac:(lia)) At0 ltac:(lia)) as HH.
  pose proof (checked_eq strict (stream_bit buf (zlen buf)) 0 ltac:(apply stream_bit_range)) as CE.
  destruct (strict && (stream_bit buf (zlen buf) 0 =? 1)).
  { destruct (srun (obu_header_checked strict) _ 0) as [[h|] q]; [discriminate|].
    destruct HH as (_ & c1 & X1 & _). rewrite X1. cbn [obind]. eexists. split; [reflexivity|]. right; reflexivity. }
  rewrite CE in HH. clear CE.
  destruct (obu_header_some (stream_bit buf (zlen buf)) 0) as (h & q & EH).
  rewrite EH in HH. destruct HH as (Pq & x & c1 & X1 & (X2 & R1 & R2 & R3 & R4 & R5) & At1).
  rewrite X1. cbn [obind]. rewrite X2. clear X1 X2 x.
  pose proof (obu_header_len _ _ _ _ EH) as Lq.
  rewrite z2b_1 by lia.
  destruct (obu_has_size_field h =? 1) eqn:HSZ.
  - pose proof (uleb_exec2 buf q c1 At1 ltac:(lia)) as UL.
    destruct (srun leb128 (stream_bit buf (zlen buf)) q) as [[len|] p2] eqn:EL.
    + destruct UL as (P2 & P3 & c2 & E2 & At2). rewrite E2. cbn [obind].
      destruct (leb128_len _ _ _ _ EL) as (k & K1 & K2).
      assert (exists st, p2 = 8 * st /\ 1 <= st) as (st & -> & Hst).
      { destruct Lq as [-> | ->]; [exists (1 + k)|exists (2 + k)]; lia. }
      assert (NX : next_obu buf 0 = if st + len <=? zlen buf then Some (h, st, st + len) else None).
      { unfold next_obu. change (8 * 0) with 0. rewrite EH, HSZ, EL. replace (8 * st / 8) with st by (rewrite Z.mul_comm, Z.div_mul; lia).
        reflexivity. }
      destruct (Z.le_gt_cases (8 * st) (8 * zlen buf)) as [Hin|Hout].
      * destruct (at_pos_aligned _ _ _ At2 Hin) as (G1 & G2 & G3 & G4).
        assert (GE : gb_end c2 = zlen buf) by apply At2. rewrite GE, G1.
        destruct (Z.ltb_spec (zlen buf - st) len) as [Hbig|Hfit].
        -- eexists. split; [reflexivity|]. left. rewrite NX. replace (st + len <=? zlen buf) with false by lia. reflexivity.
        -- cbn [gb_limit gb_err gb_left]. rewrite G4, G2. cbn [Z.eqb]. eexists. split; [reflexivity|].
           exists h, st, (st + len). rewrite NX. replace (st + len <=? zlen buf) with true by lia.
           do 4 (split; [reflexivity|]). split; [reflexivity|]. split; [reflexivity|].
           do 6 (split; [lia|]). split; [reflexivity|].
           apply (at_pos_limit buf st (st + len) c2 At2); lia.
      * assert (GE : gb_err c2 = true).
        { destruct At2 as (_ & _ & _ & A). apply (f_equal a_err) in A. cbn in A. rewrite A. apply Z.ltb_lt. lia. }
        assert (gb_ptr c2 <= gb_end c2) by (apply At2).
        assert (NN : next_obu buf 0 = None) by (rewrite NX; replace (st + len <=? zlen buf) with false by lia; reflexivity).
        destruct (_ <? len); [|cbn [gb_limit gb_err]; rewrite GE]; eexists; (split; [reflexivity|]); left; exact NN.
    + destruct UL as (c2 & E2 & W2 & B2 & N2 & G2 & _). rewrite E2. cbn [obind].
      assert (NN : next_obu buf 0 = None) by (unfold next_obu; change (8 * 0) with 0; rewrite EH, HSZ, EL; reflexivity).
      destruct (_ <? 0); [|cbn [gb_limit gb_err]; rewrite G2]; eexists; (split; [reflexivity|]); left; exact NN.
  - assert (exists st, q = 8 * st /\ 1 <= st) as (st & -> & Hst).
    { destruct Lq as [-> | ->]; [exists 1|exists 2]; lia. }
    assert (NX : next_obu buf 0 = if st <=? zlen buf then Some (h, st, zlen buf) else None).
    { unfold next_obu. change (8 * 0) with 0. rewrite EH, HSZ. replace (8 * st / 8) with st by (rewrite Z.mul_comm, Z.div_mul; lia).
      reflexivity. }
    cbn [obind]. destruct (Z.le_gt_cases (8 * st) (8 * zlen buf)) as [Hin|Hout].
    + destruct (at_pos_aligned _ _ _ At1 Hin) as (G1 & G2 & G3 & G4). rewrite G4, G2. cbn [Z.eqb].
      eexists. split; [reflexivity|]. exists h, st, (zlen buf). rewrite NX. replace (st <=? zlen buf) with true by lia.
      do 4 (split; [reflexivity|]). split; [reflexivity|]. split; [reflexivity|].
      do 6 (split; [lia|]). split; [apply At1|].
      rewrite <- (at_pos_limit_end _ _ _ At1). apply at_pos_limit; auto; lia.
    + assert (GE : gb_err c1 = true).
      { destruct At1 as (_ & _ & _ & A). apply (f_equal a_err) in A. cbn in A. rewrite A. apply Z.ltb_lt. lia. }
      rewrite GE. eexists. split; [reflexivity|]. left. rewrite NX. replace (st <=? zlen buf) with false by lia. reflexivity.
Qed.

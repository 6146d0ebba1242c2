(** Variable-length codes on the C reader (transfer of VarLen to AtPos). *)
From Coq Require Import ZArith List Bool Lia.
From Verif Require Import Base.CInt Base.Lemmas GetBits.Model GetBits.Spec GetBits.SpecProg GetBits.Sim
  GetBits.VarLen GetBits.Reads GetBits.AtPos GetBits.Proofs.
Import ListNotations.
Open Scope Z_scope.

Lemma ns_total : forall n b pos, exists v p, srun (ns n) b pos = (Some v, p).
Proof.
  intros. unfold ns. cbn [f sbind srun].
  destruct (_ <? _); cbn; eauto.
Qed.

Lemma ns_exec : forall buf pos c n, 1 < n < 2 ^ 31 ->
  at_pos buf pos c -> pos + 32 <= 8 * zlen buf + 2 ^ 31 ->
  exists v pos' c', srun (ns n) (stream_bit buf (zlen buf)) pos = (Some v, pos') /\
    exec (get_uniform n) c = Ok (inl v, c') /\ at_pos buf pos' c' /\ 0 <= v < n.
Proof.
  intros buf pos c n Hn Hat Hb.
  pose proof (sim_exec _ _ 32 _ _ _ _ _ _ (sim_ns 32 n Hn ltac:(lia)) Hat Hb) as H.
  destruct (ns_total n (stream_bit buf (zlen buf)) pos) as (v & p & E). rewrite E in *.
  destruct H as (P & x & c' & X1 & (-> & X2) & X3). exists v, p, c'. auto.
Qed.

Lemma uvlc_exec : forall buf pos c v pos',
  at_pos buf pos c -> pos + 64 <= 8 * zlen buf + 2 ^ 31 ->
  uvlc_rel (stream_bit buf (zlen buf)) pos v pos' ->
  exists p2 c', exec get_vlc c = Ok (inl v, c') /\ at_pos buf p2 c' /\
    (v <> 2 ^ 32 - 1 -> p2 = pos').
Proof.
  intros buf pos c v pos' Hat Hb Hr.
  destruct (uvlc_rel_srun _ _ _ _ (stream_bit_range buf (zlen buf)) Hr) as (p2 & E & HP).
  pose proof (sim_exec _ _ 64 _ _ _ _ _ _ (sim_uvlc 64 ltac:(lia)) Hat Hb) as H. rewrite E in H.
  destruct H as (P & x & c' & X1 & (-> & X2) & X3). exists p2, c'. auto.
Qed.

Lemma uvlc_length_differs :
  exists buf pos c v pos' p2 c',
    at_pos buf pos c /\ pos + 64 <= 8 * zlen buf + 2 ^ 31 /\
    uvlc_rel (stream_bit buf (zlen buf)) pos v pos' /\
    exec get_vlc c = Ok (inl v, c') /\ at_pos buf p2 c' /\ p2 <> pos'.
Proof.
  set (buf := [0; 0; 0; 0; 128]).
  destruct (at_pos_init buf) as (c & E & Hat); [repeat constructor; unfold is_byte; lia|reflexivity|].
  assert (Hr : uvlc_rel (stream_bit buf (zlen buf)) 0 (2 ^ 32 - 1) 33).
  { exists 32. split; [lia|]. split; [|split; [reflexivity|left; lia]].
    intros i Hi. unfold stream_bit. destruct (_ && _); auto.
    change (0 + i) with i.
    assert (N0 : nth (Z.to_nat (i / 8)) buf 0 = 0).
    { assert (i / 8 = 0 \/ i / 8 = 1 \/ i / 8 = 2 \/ i / 8 = 3) as [Q|[Q|[Q|Q]]] by lia;
      rewrite Q; reflexivity. }
    rewrite N0. rewrite Z.div_0_l by (pose proof (pow2_pos (7 - i mod 8)); lia). reflexivity. }
  assert (Hb : 0 + 64 <= 8 * zlen buf + 2 ^ 31) by (vm_compute; discriminate).
  pose proof (sim_exec _ _ 64 _ _ _ _ _ _ (sim_uvlc 64 ltac:(lia)) Hat Hb) as H.
  assert (ES : srun uvlc (stream_bit buf (zlen buf)) 0 = (Some (2 ^ 32 - 1), 32)) by (vm_compute; reflexivity).
  rewrite ES in H. destruct H as (P & x & c' & X1 & (-> & X2) & X3).
  exists buf, 0, c, (2 ^ 32 - 1), 33, 32, c'. repeat (split; [assumption|]). lia.
Qed.

Lemma subexp_loop_total : forall fuel i mk n b pos, 0 <= i -> n < 2 ^ (i + Z.of_nat fuel) -> (0 < fuel)%nat -> 0 <= mk ->
  exists v p, srun (decode_subexp_loop fuel i mk n) b pos = (Some v, p).
Proof.
  induction fuel; intros i mk n b pos Hi Hn Hf Hmk; [lia|]. cbn [decode_subexp_loop].
  set (b2 := if 0 <? i then 3 + i - 1 else 3).
  assert (Hb2 : i + 2 <= b2 /\ 3 <= b2) by (unfold b2; destruct (Z.ltb_spec 0 i); lia).
  destruct (Z.leb_spec n (mk + 3 * 2 ^ b2)).
  - rewrite srun_bind. destruct (ns_total (n - mk) b pos) as (v & p & E). rewrite E. cbn. eauto.
  - cbn [f sbind srun]. destruct (_ =? 1).
    + assert (0 < fuel)%nat.
      { destruct fuel; [|lia]. exfalso.
        assert (2 ^ (i + Z.of_nat 1) <= 2 ^ b2) by (apply Z.pow_le_mono_r; lia).
        pose proof (pow2_pos b2). lia. }
      pose proof (pow2_pos b2).
      apply IHfuel; try lia. replace (i + 1 + Z.of_nat fuel) with (i + Z.of_nat (S fuel)) by lia. auto.
    + cbn. eauto.
Qed.

Lemma subexp_exec : forall buf pos c r n, 3 <= n <= 18 -> - 2 ^ n <= r <= 2 ^ n ->
  at_pos buf pos c -> pos + 96 <= 8 * zlen buf + 2 ^ 31 ->
  exists v pos' c',
    srun (decode_signed_subexp_with_ref (- 2 ^ n) (2 ^ n + 1) r) (stream_bit buf (zlen buf)) pos
      = (Some v, pos') /\
    exec (get_bits_subexp r n) c = Ok (inl v, c') /\ at_pos buf pos' c' /\ - 2 ^ n <= v <= 2 ^ n.
Proof.
  intros buf pos c r n Hn Hr Hat Hb.
  pose proof (sim_exec _ _ 96 _ _ _ _ _ _ (sim_subexp 96 r n Hn Hr ltac:(lia)) Hat Hb) as H.
  assert (T : exists v p, srun (decode_signed_subexp_with_ref (- 2 ^ n) (2 ^ n + 1) r)
            (stream_bit buf (zlen buf)) pos = (Some v, p)).
  { unfold decode_signed_subexp_with_ref, decode_unsigned_subexp_with_ref, decode_subexp.
    rewrite !srun_bind.
    destruct (subexp_loop_total 32 0 0 (2 ^ n + 1 - - 2 ^ n) (stream_bit buf (zlen buf)) pos) as (v & p & E);
      try lia.
    - assert (2 ^ n <= 2 ^ 18) by (apply Z.pow_le_mono_r; lia).
      change (2 ^ (0 + Z.of_nat 32)) with (2 ^ 32). lia.
    - rewrite E. cbn. eauto. }
  destruct T as (v & p & E). rewrite E in *.
  destruct H as (P & x & c' & X1 & (-> & X2) & X3). exists v, p, c'. auto.
Qed.

Lemma leb_exec_roundtrip : forall buf pos c w v, (1 <= w <= 8)%nat ->
  0 <= v < 2 ^ (7 * Z.of_nat w) -> v < 2 ^ 32 ->
  at_pos buf pos c -> pos + 64 <= 8 * zlen buf + 2 ^ 31 ->
  bits_at (stream_bit buf (zlen buf)) pos (enc_leb w v) ->
  exists c', exec get_uleb128 c = Ok (inl v, c') /\ at_pos buf (pos + 8 * Z.of_nat w) c'.
Proof.
  intros buf pos c w v Hw Hv Hv32 Hat Hb Hbits. pose proof (uleb_exec buf pos c Hat Hb) as H.
  rewrite (leb_roundtrip _ w v) in H by auto. destruct H as (_ & _ & c' & H). exists c'. auto.
Qed.

Lemma ns_exec_roundtrip : forall buf pos c n v, 1 < n < 2 ^ 31 -> 0 <= v < n ->
  at_pos buf pos c -> pos + 32 <= 8 * zlen buf + 2 ^ 31 ->
  bits_at (stream_bit buf (zlen buf)) pos (enc_ns n v) ->
  exists c', exec (get_uniform n) c = Ok (inl v, c') /\ at_pos buf (pos + zlen (enc_ns n v)) c'.
Proof.
  intros buf pos c n v Hn Hv Hat Hb Hbits.
  destruct (ns_exec buf pos c n Hn Hat Hb) as (v' & p & c' & E & E2 & E3 & _).
  rewrite (ns_roundtrip _ n v) in E by (auto; lia). inversion E; subst. exists c'. auto.
Qed.

Lemma uvlc_exec_roundtrip : forall buf pos c v, 0 <= v < 2 ^ 32 - 1 ->
  at_pos buf pos c -> pos + 64 <= 8 * zlen buf + 2 ^ 31 ->
  bits_at (stream_bit buf (zlen buf)) pos (enc_uvlc v) ->
  exists c', exec get_vlc c = Ok (inl v, c') /\ at_pos buf (pos + zlen (enc_uvlc v)) c'.
Proof.
  intros buf pos c v Hv Hat Hb Hbits.
  pose proof (sim_exec _ _ 64 _ _ _ _ _ _ (sim_uvlc 64 ltac:(lia)) Hat Hb) as H.
  rewrite (uvlc_roundtrip _ v) in H by auto.
  destruct H as (P & x & c' & X1 & (-> & X2) & X3). exists c'. auto.
Qed.

Lemma subexp_exec_roundtrip : forall buf pos c n r v, 3 <= n <= 18 ->
  - 2 ^ n <= r <= 2 ^ n -> - 2 ^ n <= v <= 2 ^ n ->
  at_pos buf pos c -> pos + 96 <= 8 * zlen buf + 2 ^ 31 ->
  bits_at (stream_bit buf (zlen buf)) pos (enc_signed_subexp (- 2 ^ n) (2 ^ n + 1) r v) ->
  exists c', exec (get_bits_subexp r n) c = Ok (inl v, c') /\
    at_pos buf (pos + zlen (enc_signed_subexp (- 2 ^ n) (2 ^ n + 1) r v)) c'.
Proof.
  intros buf pos c n r v Hn Hr Hv Hat Hb Hbits.
  assert (2 ^ n <= 2 ^ 18) by (apply Z.pow_le_mono_r; lia).
  assert (2 ^ 3 <= 2 ^ n) by (apply Z.pow_le_mono_r; lia).
  pose proof (sim_exec _ _ 96 _ _ _ _ _ _ (sim_subexp 96 r n Hn Hr ltac:(lia)) Hat Hb) as H1.
  rewrite (subexp_roundtrip _ (- 2 ^ n) (2 ^ n + 1) r v) in H1 by (auto; lia).
  destruct H1 as (P & x & c' & X1 & (-> & X2) & X3). exists c'. auto.
Qed.

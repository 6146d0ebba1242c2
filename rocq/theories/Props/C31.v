(** C31: the container probes. *)
From Coq Require Import ZArith List Bool Lia.
From Verif Require Import Base.CInt Tools.Input Tools.InputSpec Tools.ProbeSpec Tools.InputProofs Tools.ProbeProofs Tools.ProbeAll.
Import ListNotations.
Open Scope Z_scope.
Open Scope outcome_scope.

(** As long as no size field that matters is [2^31 - 4096] or more, each probe of a
    buffer of 2048 bytes is defined (so reads nothing outside the buffer, has no
    overflow, and ends) and gives the reference verdict. *)
Theorem C31_section5 : forall data, zl data = 2048 -> bytes data -> s5_stream data <> Huge ->
  forall fuel, (2048 <= fuel)%nat -> section5_probe fuel data = Ok (verdict_z (s5_stream data)).
Proof. exact section5_probe_ref. Qed.
Theorem C31_annexb : forall data, zl data = 2048 -> bytes data -> ab_stream data <> Huge ->
  forall fuel, (2048 <= fuel)%nat -> annexb_probe fuel data = Ok (verdict_z (ab_stream data)).
Proof. exact annexb_probe_ref. Qed.
Theorem C31_ivf : forall data, 12 <= zl data ->
  ivf_probe data = Ok (if list_eq_dec Z.eq_dec (firstn 12 data) ([68; 75; 73; 70; 0; 0; 32; 0] ++ [65; 86; 48; 49]) then 1 else 0).
Proof. exact ivf_probe_ref. Qed.

(** The start of a low-overhead stream selects the Section 5 demuxer: the usual
    temporal delimiter, OBUs of any other kinds with a sequence header among them,
    then the header of a frame or frame header OBU, all within the buffer. *)
Theorem C31_select_section5 : forall ts l hd t v r, s5_lead ts l -> In 1 ts -> s5_hdr t v hd -> t = 3 \/ t = 6 ->
  v < HUGE -> zl ([18; 0] ++ l ++ hd ++ r) = 2048 -> bytes ([18; 0] ++ l ++ hd ++ r) ->
  forall fuel, (2048 <= fuel)%nat -> probe_all fuel ([18; 0] ++ l ++ hd ++ r) = Ok (Some D_section5).
Proof.
  intros ts l hd t v r F I H T V L B fuel HF.
  destruct (s5_recognised ts l hd t v r F I H T V L B) as (S & A & N).
  rewrite (probe_all_ref _ L B fuel HF) by congruence. now rewrite choose_s5.
Qed.

(** The start of an Annex B stream selects the Annex B demuxer: a temporal unit
    with a frame unit of a temporal delimiter, other OBUs with a sequence header
    among them and a frame or frame header OBU, whose start is within the buffer. *)
Theorem C31_select_annexb : forall tu lt fu lf lo td kt ts l lb m tail t v k,
  leb_enc tu lt -> leb_enc fu lf -> leb_enc (zl td) lo -> obu_hdr true td = Some (2, 0, kt) ->
  ab_lead ts l -> In 1 ts -> leb_enc m lb -> m < HUGE ->
  obu_hdr true (firstn (Z.to_nat m) tail) = Some (t, v, k) -> t = 3 \/ t = 6 -> v < HUGE ->
  zl lf + fu <= tu -> zl lo + zl td + zl l + zl lb + m <= fu ->
  zl (lt ++ lf ++ lo ++ td ++ l ++ lb ++ tail) = 2048 -> bytes (lt ++ lf ++ lo ++ td ++ l ++ lb ++ tail) ->
  forall fuel, (2048 <= fuel)%nat -> probe_all fuel (lt ++ lf ++ lo ++ td ++ l ++ lb ++ tail) = Ok (Some D_annexb).
Proof.
  intros tu lt fu lf lo td kt ts l lb m tail t v k ET EF EO HT F I EM M H T V TU FU L B fuel HF.
  pose proof (ab_recognised tu lt fu lf lo td kt ts l lb m tail t v k ET EF EO HT F I EM M H T V TU FU L) as A.
  unfold probe_all. rewrite ivf_probe_ref by (unfold zl, zlen in *; lia). cbn [obind].
  destruct (list_eq_dec Z.eq_dec _ ivf_magic) as [E|E].
  { apply ivf_not_ab in E. congruence. }
  change (z2b 0) with false. cbv beta iota. rewrite (annexb_probe_ref _ L B) by (congruence || lia). rewrite A. reflexivity.
Qed.

(** An IVF file (of version 0 with the usual header length) selects the IVF
    demuxer. *)
Theorem C31_select_ivf : forall w h t0 t1 d u r fuel,
  probe_all fuel (ivf_header 0 32 w h t0 t1 d u ++ r) = Ok (Some D_ivf).
Proof. reflexivity. Qed.

(** ** What goes wrong with large sizes *)
Definition pad (l : list Z) : list Z := l ++ repeat 0 (2048 - length l).
(** A padding OBU with size [2^32 - 6] makes section5_probe loop forever: every
    iteration ends where it began. *)
Definition hang : list Z := pad [0x12; 0; 0x7A; 0xFA; 0xFF; 0xFF; 0xFF; 0x0F].
Theorem C31_section5_hang_refuted : zl hang = 2048 /\ bytes hang /\
  (exists n, parse_obu_header hang 0 2048 false = Ok (Some (2, n, 2))) /\
  s5_probe_step hang 2 0 = Ok (inr (2, 0)) /\ forall fuel, section5_probe fuel hang = Undef.
Proof.
  assert (P0 : parse_obu_header hang 0 2048 false = Ok (Some (2, 0, 2))) by (vm_compute; reflexivity).
  assert (S0 : s5_probe_step hang 2 0 = Ok (inr (2, 0))) by (vm_compute; reflexivity).
  split; [vm_compute; reflexivity|]. split.
  { unfold hang, pad. apply Forall_app. split; [repeat constructor; lia|].
    apply Forall_forall. intros b I. apply repeat_spec in I. lia. }
  split; [eexists; exact P0|]. split; [exact S0|].
  intros fuel. unfold section5_probe. change PROBE_SIZE with 2048. rewrite P0. cbn [obind].
  change ((2 <? 0) || negb (2 =? OBU_TD) || (0 <? 0)) with false. cbv beta iota.
  induction fuel; [reflexivity|]. cbn [s5_probe_loop]. change (negb (2 <? PROBE_SIZE)) with false. cbv beta iota.
  rewrite S0. cbn [obind]. exact IHfuel.
Qed.
(** With a size near [2^31] the [int] arithmetic of parse_obu_header overflows. *)
Theorem C31_obu_header_overflow_refuted : exists l, zl l = 2048 /\ bytes l /\ parse_obu_header l 0 2048 false = Undef.
Proof.
  exists (pad [0x7A; 0xFF; 0xFF; 0xFF; 0xFF; 0x07]). split; [vm_compute; reflexivity|]. split; [|vm_compute; reflexivity].
  unfold pad. apply Forall_app. split; [repeat constructor; lia|].
  apply Forall_forall. intros b I. apply repeat_spec in I. lia.
Qed.
(** A temporal delimiter with unit size [2^32 - 16] makes annexb_probe go on at
    offset -1 of its buffer. *)
Definition under : list Z :=
  pad [0xFF; 0xFF; 0xFF; 0xFF; 0x0F; 0xFA; 0xFF; 0xFF; 0xFF; 0x0F; 0xF0; 0xFF; 0xFF; 0xFF; 0x0F; 0x12; 0].
Theorem C31_annexb_underread_refuted : zl under = 2048 /\ bytes under /\
  (forall fuel, annexb_probe fuel under = ab_probe_loop fuel under (-1) 5 5 0) /\
  rd_at under (-1) = Undef /\ forall fuel, ab_probe_loop (S fuel) under (-1) 5 5 0 = Undef.
Proof.
  split; [vm_compute; reflexivity|]. split.
  { unfold under, pad. apply Forall_app. split; [repeat constructor; lia|].
    apply Forall_forall. intros b I. apply repeat_spec in I. lia. }
  split; [|split; [reflexivity|]].
  - intros fuel. unfold annexb_probe. change PROBE_SIZE with 2048.
    replace (leb under 0 2048) with (Ok (Some (4294967295, 5))) by (vm_compute; reflexivity). cbn [obind].
    replace (leb under 5 (2048 - 5)) with (Ok (Some (4294967290, 5))) by (vm_compute; reflexivity). cbn [obind].
    change (4294967295 <? 4294967290 + 5) with false. cbv beta iota.
    replace (leb under (5 + 5) (2048 - (5 + 5))) with (Ok (Some (4294967280, 5))) by (vm_compute; reflexivity). cbn [obind].
    change (4294967290 <=? 4294967280 + 5) with false. cbv beta iota.
    replace (parse_obu_header under (5 + 5 + 5) (Z.min (2048 - (5 + 5 + 5)) (s32 4294967280)) true)
      with (Ok (Some (2, 0, 2))) by (vm_compute; reflexivity).
    cbn [obind]. change ((2 <? 0) || negb (2 =? OBU_TD) || (0 <? 0)) with false. cbv beta iota.
    change (iadd (5 + 5 + 5) (s32 4294967280)) with (Ok (-1)). cbn [obind]. f_equal.
  - intros fuel. cbn [ab_probe_loop]. change (negb (-1 <? PROBE_SIZE)) with false. cbv beta iota.
    change (iadd PROBE_SIZE (- -1)) with (Ok 2049). cbn [obind]. reflexivity.
Qed.

(** A valid stream is rejected by every probe if an OBU header of its first
    temporal unit straddles the end of the buffer. *)
Definition straddle : list Z :=
  [18; 0] ++ [0x0A; 3; 0; 0; 0] ++ [0x7A; 0xF5; 0x0F] ++ repeat 1 2037 ++ [0x32; 1; 7].
Theorem C31_straddling_header_refuted : s5_unit straddle /\ probe_all 2048 (firstn 2048 straddle) = Ok None.
Proof.
  split; [|vm_compute; reflexivity].
  assert (LE : forall v, 0 <= v < 128 -> leb_enc v [v]).
  { intros v Hv. unfold leb_enc. cbn [length leb_value]. rewrite Z.mod_small by lia. repeat split; try lia. constructor. lia. }
  replace straddle with ((18 :: [] ++ [0] ++ []) ++ (0x0A :: [] ++ [3] ++ [0; 0; 0])
    ++ (0x7A :: [] ++ [0xF5; 0x0F] ++ repeat 1 2037) ++ (0x32 :: [] ++ [1] ++ [7]) ++ []) by reflexivity.
  apply SU.
  { apply SO; [lia|reflexivity|reflexivity|reflexivity|constructor|now apply (LE 0)|constructor]. }
  apply SR_cons with (t := 1); [lia| |].
  { apply SO; [lia|reflexivity|reflexivity|reflexivity|constructor|now apply (LE 3)|repeat constructor; lia]. }
  apply SR_cons with (t := 15); [lia| |].
  { apply SO; [lia|reflexivity|reflexivity|reflexivity|constructor| |].
    - split; [repeat constructor; lia|]. split; [cbn [length]; lia|]. split; [vm_compute; reflexivity|vm_compute; reflexivity].
    - apply Forall_forall. intros b I. apply repeat_spec in I. lia. }
  apply SR_cons with (t := 6); [lia| |constructor].
  apply SO; [lia|reflexivity|reflexivity|reflexivity|constructor|now apply (LE 1)|repeat constructor; lia].
Qed.

(** ** The hypotheses can be met *)
Example C31_ex_section5 : exists r, s5_lead [1; 15] ([0x0A; 3; 0; 0; 0] ++ [0x7A; 1; 5]) /\ s5_hdr 6 700 [0x32; 0xBC; 5]
  /\ zl ([18; 0] ++ ([0x0A; 3; 0; 0; 0] ++ [0x7A; 1; 5]) ++ [0x32; 0xBC; 5] ++ r) = 2048
  /\ bytes ([18; 0] ++ ([0x0A; 3; 0; 0; 0] ++ [0x7A; 1; 5]) ++ [0x32; 0xBC; 5] ++ r).
Proof.
  assert (LE : forall v, 0 <= v < 128 -> leb_enc v [v]).
  { intros v Hv. unfold leb_enc. cbn [length leb_value]. rewrite Z.mod_small by lia. repeat split; try lia. constructor. lia. }
  assert (HD : forall t h n, 0 <= h < 128 -> (h / 8) mod 16 = t -> (h / 2) mod 2 = 1 -> (h / 4) mod 2 = 0 -> 0 <= n < 128 -> s5_hdr t n [h; n]).
  { intros t h n H1 H2 H3 H4 H5. exists h, [], [n]. rewrite H4. repeat match goal with |- _ /\ _ => split end; auto; try lia; constructor. }
  exists (repeat 0 2035). split; [|split; [|split; [vm_compute; reflexivity|]]].
  - change ([0x0A; 3; 0; 0; 0] ++ [0x7A; 1; 5]) with ([0x0A; 3] ++ [0; 0; 0] ++ [0x7A; 1] ++ [5] ++ []).
    apply SL_cons; try lia; [apply HD; (reflexivity || lia)|repeat constructor; lia|].
    apply SL_cons; try lia; [apply HD; (reflexivity || lia)|repeat constructor; lia|constructor].
  - exists 0x32, [], [0xBC; 5]. split; [reflexivity|]. split; [lia|]. split; [reflexivity|]. split; [reflexivity|].
    split; [reflexivity|]. split; [constructor|]. unfold leb_enc. cbn [length]. split; [repeat constructor; lia|].
    split; [lia|]. split; [reflexivity|lia].
  - apply Forall_forall. intros b I. apply in_app_iff in I as [I|I]; [cbn in I; lia|].
    apply in_app_iff in I as [I|I]; [cbn in I; lia|]. apply in_app_iff in I as [I|I]; [cbn in I; lia|].
    apply repeat_spec in I. lia.
Qed.
Example C31_ex_probes :
  probe_all 2048 (pad ([18; 0] ++ [0x0A; 3; 0; 0; 0] ++ [0x32; 1; 7])) = Ok (Some D_section5)
  /\ probe_all 2048 (pad ([11; 10; 1; 16] ++ [3; 8; 0; 0] ++ [3; 0x30; 0; 0])) = Ok (Some D_annexb)
  /\ probe_all 2048 (pad [1; 2; 3]) = Ok None.
Proof. vm_compute. auto. Qed.

Print Assumptions C31_section5.
Print Assumptions C31_annexb.
Print Assumptions C31_ivf.
Print Assumptions C31_select_section5.
Print Assumptions C31_select_annexb.
Print Assumptions C31_section5_hang_refuted.
Print Assumptions C31_annexb_underread_refuted.

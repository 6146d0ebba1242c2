(** C30: the IVF, Annex B and Section 5 demuxers recover exactly the packets. *)
From Coq Require Import ZArith List Bool Lia.
From Verif Require Import Base.CInt Tools.Input Tools.InputSpec Tools.InputProofs Tools.IvfProofs Tools.IvfOpen
  Tools.Section5Proofs Tools.AnnexbProofs.
Import ListNotations.
Open Scope Z_scope.
Open Scope outcome_scope.

(** ** IVF *)

(** An IVF file with at least one frame opens, with the frame count and time base
    of the file, and any sequence of reads and seeks then gives what the frames of
    the file say: the frames in order with their offsets, no packet at the end,
    a seek goes to the first frame with the time stamp asked for or a later one.
    The time stamps are those stored if these are increasing; if not, frame [i] of
    [n] gets [i] times the [n]th part of the length. *)
Theorem C30_ivf_play : forall alloc v hl w h t0 t1 d u frs ops, (forall n, 0 < n < 2 ^ 32 -> alloc n = true) ->
  0 <= t0 < 2 ^ 32 -> 0 <= t1 < 2 ^ 32 -> 0 <= d < 2 ^ 32 -> Forall ivf_ok frs -> frs <> [] -> zl frs < 2 ^ 32 ->
  exists c info, ivf_open (ivf_header v hl w h t0 t1 d u ++ flat_map ivf_frame frs) = Ok (Some (c, info))
  /\ in_frames info = zl frs /\ in_timebase info = (t0, t1)
  /\ exists st, iv_play alloc c ops = Ok (play st frs 0 ops)
     /\ (increasing (map fst frs) -> forall i t, st i t = t)
     /\ (~ increasing (map fst frs) -> forall i t, 0 <= i < zl frs -> st i t = i * (d / zl frs)).
Proof.
  intros alloc v hl w h t0 t1 d u frs ops AL H0 H1 Hd F N L.
  destruct (play_file alloc v hl w h t0 t1 d u frs ops AL H0 H1 Hd F N L) as (c & info & E & A & B & _ & X).
  exists c, info. auto.
Qed.

(** The frame rate reported is frames over length in the file's time base, in
    lowest terms whenever both parts fit 32 bits; (0, 0) if that is not a positive
    rate. *)
Theorem C30_ivf_fps : forall v hl w h t0 t1 d u frs,
  0 <= t0 < 2 ^ 32 -> 0 <= t1 < 2 ^ 32 -> 0 <= d < 2 ^ 32 -> Forall ivf_ok frs -> frs <> [] -> zl frs < 2 ^ 32 ->
  exists c info, ivf_open (ivf_header v hl w h t0 t1 d u ++ flat_map ivf_frame frs) = Ok (Some (c, info))
  /\ (t0 * zl frs = 0 \/ t1 * d = 0 -> in_fps info = (0, 0))
  /\ (t0 * zl frs <> 0 -> t1 * d <> 0 ->
      let g := Z.gcd (t0 * zl frs) (t1 * d) in
      t0 * zl frs / g < 2 ^ 32 -> t1 * d / g < 2 ^ 32 -> in_fps info = (t0 * zl frs / g, t1 * d / g)).
Proof.
  intros v hl w h t0 t1 d u frs H0 H1 Hd F N L.
  destruct (open_ok (fun _ => true) v hl w h t0 t1 d u frs H0 H1 Hd F N L) as (c & info & E & _ & _ & _ & _ & _ & _ & _ & _ & FP).
  exists c, info. split; [exact E|]. change (zl frs) with (zlen frs) in *.
  assert (LN : 0 <= zlen frs < 2 ^ 32) by (unfold zlen in *; lia).
  destruct (fps_ok t0 t1 (zlen frs) d H0 H1 LN Hd) as (a & b & EF & _ & _ & ZZ & GG).
  rewrite EF in FP. injection FP as FP. rewrite FP. split.
  - intros Z0. destruct (ZZ Z0) as [-> ->]. reflexivity.
  - intros X Y g GA GB. destruct (GG X Y GA GB) as [-> ->]. reflexivity.
Qed.

(** Whatever the file, a packet read from it is the payload of the frame at the
    reported offset of the file. *)
Theorem C30_ivf_slices : forall alloc c p off ts c', bytes (f_data (iv_f c)) -> 0 <= f_pos (iv_f c) ->
  ivf_read alloc c = (Some (p, off, ts), c') ->
  off = f_pos (iv_f c) /\ f_data (iv_f c') = f_data (iv_f c) /\
  exists pre stored post, f_data (iv_f c) = pre ++ ivf_frame (stored, p) ++ post /\ zl pre = off
    /\ (iv_broken c = false -> stored = ts) /\ f_pos (iv_f c') = off + zl (ivf_frame (stored, p)).
Proof. exact read_cut. Qed.

(** A file cut short anywhere after the first frame header opens, and gives a
    beginning of the packets of the whole file and then nothing. (Time stamps
    increasing: [iv_broken] is false.) *)
Theorem C30_ivf_truncated : forall alloc l c info k, bytes l -> ivf_open l = Ok (Some (c, info)) -> iv_broken c = false ->
  44 <= Z.of_nat k -> 44 <= zl l < 2 ^ 32 ->
  exists c' info', ivf_open (firstn k l) = Ok (Some (c', info')) /\
  forall n, exists m, (m <= n)%nat /\
    reads (ivf_read alloc) n c' = firstn m (reads (ivf_read alloc) n c) ++ repeat None (n - m).
Proof. exact open_truncated. Qed.

(** Opening a file with room for a frame header is always defined. *)
Theorem C30_ivf_open_defined : forall l, bytes l -> 44 <= zl l < 2 ^ 32 -> ivf_open l <> Undef.
Proof. exact (open_defined (fun _ => true)). Qed.

(** Opening an IVF file without frames divides by zero. *)
Theorem C30_ivf_no_frames_refuted : forall v hl w h t0 t1 d u,
  0 <= t0 < 2 ^ 32 -> 0 <= t1 < 2 ^ 32 -> 0 <= d < 2 ^ 32 ->
  ivf_open (ivf_header v hl w h t0 t1 d u) = Undef.
Proof.
  intros v hl w h t0 t1 d u H0 H1 Hd.
  set (hd := ivf_header v hl w h t0 t1 d u).
  destruct (header_fields (fun _ => true) v hl w h t0 t1 d u H0 H1 Hd) as (M1 & M2 & R1 & R2 & R3). fold hd in M1, M2, R1, R2, R3.
  unfold ivf_open. change (fread (fopen hd) 32) with (Some hd, {| f_data := hd; f_pos := 32; f_eof := false |}).
  cbv beta iota. rewrite M1, M2. cbn [obind negb]. rewrite R1, R2, R3.
  change (ivf_scan (S (length hd)) 0 false 0 {| f_data := hd; f_pos := 32; f_eof := false |})
    with (Ok (0, false, 0, {| f_data := hd; f_pos := 32; f_eof := true |})).
  cbn [obind]. destruct (ivf_fps t0 t1 0 d); reflexivity.
Qed.

(** A frame of length zero is reported like the end of the file. *)
Theorem C30_ivf_zero_length_refuted : exists c info,
  ivf_open (ivf_header 0 32 8 8 1 1 3 0 ++ flat_map ivf_frame [(0, [1]); (1, []); (2, [3])]) = Ok (Some (c, info))
  /\ reads (ivf_read (fun _ => true)) 3 c = [Some ([1], 32, 0); None; Some ([3], 57, 2)].
Proof. eexists. eexists. split; [vm_compute; reflexivity|]. vm_compute. reflexivity. Qed.

(** ** Annex B *)

(** The OBUs of an Annex B stream are returned one by one, then nothing; the number
    of temporal units is reported on opening. *)
Theorem C30_annexb_roundtrip : forall alloc k ps l n, (forall n, 0 < n < 2 ^ 32 -> alloc n = true) ->
  ab_file k ps l -> Z.of_nat k < 2 ^ 32 ->
  exists c, annexb_open l = Ok (Z.of_nat k, c) /\
  reads (annexb_read alloc) (length ps + n) c = map Some ps ++ repeat None n.
Proof.
  intros alloc k ps l n AL F K. eexists. split; [eapply annexb_open_ok; eauto|].
  now apply annexb_roundtrip with (k := k).
Qed.

(** Cut anywhere, the stream gives a beginning of the OBUs and then nothing. *)
Theorem C30_annexb_truncated : forall alloc l k n c c' x x',
  annexb_open l = Ok (x, c) -> annexb_open (firstn k l) = Ok (x', c') ->
  exists m, (m <= n)%nat /\
  reads (annexb_read alloc) n c' = firstn m (reads (annexb_read alloc) n c) ++ repeat None (n - m).
Proof.
  intros alloc l k n c c' x x' E E'. unfold annexb_open in E, E'.
  destruct (ab_count (S (length l)) 0 (fopen l)); cbn [obind] in E; [|discriminate E].
  destruct (ab_count (S (length (firstn k l))) 0 (fopen (firstn k l))); cbn [obind] in E'; [|discriminate E'].
  injection E as _ <-. injection E' as _ <-.
  apply (ab_truncated alloc k {| ab_f := fopen l; ab_tu := 0; ab_fu := 0 |} n). cbn. lia.
Qed.

(** Whatever the file, an OBU returned is part of the file and follows its length;
    opening is always defined. *)
Theorem C30_annexb_slices : forall alloc c rest p c', at_ (ab_f c) rest -> bytes rest ->
  annexb_read alloc c = (Some p, c') ->
  exists pre lb tail, rest = pre ++ lb ++ p ++ tail /\ leb_enc (zl p) lb /\ 0 < zl p /\ at_ (ab_f c') tail.
Proof. exact annexb_slice. Qed.
Theorem C30_annexb_open_defined : forall l, annexb_open l <> Undef.
Proof. exact annexb_open_defined. Qed.

(** ** Section 5 *)

(** The temporal units of a low-overhead stream are returned one by one, then
    nothing; their number is reported on opening. *)
Theorem C30_section5_roundtrip : forall alloc us n, Forall s5_unit us -> bytes (concat us) ->
  zl us < 2 ^ 32 -> zl (concat us) < 2 ^ 63 -> (forall u, In u us -> alloc (zl u) = true) ->
  exists f, section5_open (concat us) = Ok (Some (zl us, f)) /\
  s5_reads alloc (length us + n) f = Ok (map Some us ++ repeat None n).
Proof.
  intros alloc us n F B K HM AL. eexists. split; [apply section5_open_ok; assumption|].
  apply section5_roundtrip; auto. apply fopen_at.
Qed.

(** Whatever the file, reading is defined, and returns [p] exactly if [p] is a
    complete temporal unit at the current position that is followed by the end of
    the file or a temporal delimiter (and the memory can be had). *)
Theorem C30_section5_exact : forall alloc f rest, at_ f rest -> bytes rest -> zl rest < 2 ^ 63 ->
  exists r f', section5_read alloc f = Ok (r, f') /\ f_data f' = f_data f /\
  (forall p, r = Some p ->
     alloc (zl p) = true /\ s5_unit p /\ exists tail, rest = p ++ tail /\ s5_follow tail /\ at_ f' tail) /\
  (forall p tail, s5_unit p -> rest = p ++ tail -> s5_follow tail -> alloc (zl p) = true -> r = Some p).
Proof. exact section5_exact. Qed.
Theorem C30_section5_open_defined : forall l, section5_open l <> Undef.
Proof. exact section5_open_defined. Qed.

(** ** The hypotheses can be met *)
Definition ex_frames : list (Z * list Z) := [(0, [18; 0; 10; 1; 7]); (3, [18; 0]); (9, [50; 1; 255])].
Definition ex_play (l : list Z) (ops : list play_op) : outcome (list play_res) :=
  let! r := ivf_open l in
  match r with Some (c, _) => iv_play (fun _ => true) c ops | None => Undef end.
Example C30_ex_ivf : Forall ivf_ok ex_frames /\ increasing (map fst ex_frames)
  /\ ex_play (ivf_header 0 32 8 8 30 1 10 0 ++ flat_map ivf_frame ex_frames) [Rd; Sk 4; Rd; Rd; Sk 1; Rd; Sk 10; Rd; Sk 0; Rd]
     = Ok [Pkt [18; 0; 10; 1; 7] 32 0; SkOk; Pkt [50; 1; 255] 63 9; NoPkt; SkOk; Pkt [18; 0] 49 3; SkFail; NoPkt;
           SkOk; Pkt [18; 0; 10; 1; 7] 32 0].
Proof.
  split; [|split; [cbn; lia|vm_compute; reflexivity]].
  unfold ex_frames. repeat constructor; cbn; lia.
Qed.
Example C30_ex_ivf_broken :
  ex_play (ivf_header 0 32 8 8 30 1 10 0 ++ flat_map ivf_frame [(5, [1]); (5, [2]); (5, [3])]) [Rd; Rd; Rd; Rd; Sk 4; Rd]
  = Ok [Pkt [1] 32 0; Pkt [2] 45 3; Pkt [3] 58 6; NoPkt; SkOk; Pkt [3] 58 6].
Proof. vm_compute. reflexivity. Qed.
(** two temporal units, the first of two frame units *)
Definition ex_annexb : list Z := [9; 5; 1; 16; 2; 8; 7; 2; 1; 24] ++ [3; 2; 1; 16].
Example C30_ex_annexb : ab_file 2 [[16]; [8; 7]; [24]; [16]] ex_annexb
  /\ reads (annexb_read (fun _ => true)) 5 {| ab_f := fopen ex_annexb; ab_tu := 0; ab_fu := 0 |}
     = [Some [16]; Some [8; 7]; Some [24]; Some [16]; None].
Proof.
  split; [|vm_compute; reflexivity].
  assert (LE : forall v, 0 <= v < 128 -> leb_enc v [v]).
  { intros v Hv. unfold leb_enc. cbn [length leb_value]. rewrite Z.mod_small by lia. repeat split; try lia. constructor. lia. }
  assert (BY : forall l, forallb (fun b => (0 <=? b) && (b <? 256)) l = true -> bytes l).
  { intros l H. apply Forall_forall. intros b I. rewrite forallb_forall in H. apply H in I. lia. }
  change ex_annexb with ([9] ++ [5; 1; 16; 2; 8; 7; 2; 1; 24] ++ [3] ++ [2; 1; 16] ++ []).
  change [[16]; [8; 7]; [24]; [16]] with ([[16]; [8; 7]; [24]] ++ [[16]] ++ []).
  apply AT_cons; [discriminate| |now apply LE|apply AT_cons; [discriminate| |now apply LE|constructor]].
  - change [5; 1; 16; 2; 8; 7; 2; 1; 24] with ([5] ++ [1; 16; 2; 8; 7] ++ [2] ++ [1; 24] ++ []).
    change [[16]; [8; 7]; [24]] with ([[16]; [8; 7]] ++ [[24]] ++ []).
    apply AF_cons; [discriminate| |now apply LE|apply AF_cons; [discriminate| |now apply LE|constructor]].
    + change [1; 16; 2; 8; 7] with ([1] ++ [16] ++ [2] ++ [8; 7] ++ []).
      apply AO_cons; [reflexivity|now apply BY|now apply LE|apply AO_cons; [reflexivity|now apply BY|now apply LE|constructor]].
    + change [1; 24] with ([1] ++ [24] ++ []). apply AO_cons; [reflexivity|now apply BY|now apply LE|constructor].
  - change [2; 1; 16] with ([2] ++ [1; 16] ++ []) at 1.
    change [[16]] with ([[16]] ++ []).
    apply AF_cons; [discriminate| |now apply LE|constructor].
    change [1; 16] with ([1] ++ [16] ++ []). apply AO_cons; [reflexivity|now apply BY|now apply LE|constructor].
Qed.
Example C30_ex_section5 : s5_unit [18; 0; 54; 8; 2; 1; 2]
  /\ s5_reads (fun _ => true) 3 (fopen ([18; 0; 54; 8; 2; 1; 2] ++ [18; 0])) = Ok [Some [18; 0; 54; 8; 2; 1; 2]; Some [18; 0]; None].
Proof.
  split; [|vm_compute; reflexivity].
  assert (LE : forall v, 0 <= v < 128 -> leb_enc v [v]).
  { intros v Hv. unfold leb_enc. cbn [length leb_value]. rewrite Z.mod_small by lia. repeat split; try lia. constructor. lia. }
  change [18; 0; 54; 8; 2; 1; 2] with ((18 :: [] ++ [0] ++ []) ++ (54 :: [8] ++ [2] ++ [1; 2]) ++ []).
  apply SU; [apply SO; cbn; try lia; try reflexivity; try constructor; now apply LE|].
  apply SR_cons with (t := 6); [lia| |constructor].
  apply SO; cbn; try lia; try reflexivity; try (repeat constructor; lia); now apply LE.
Qed.

Print Assumptions C30_ivf_play.
Print Assumptions C30_ivf_fps.
Print Assumptions C30_ivf_slices.
Print Assumptions C30_ivf_truncated.
Print Assumptions C30_ivf_open_defined.
Print Assumptions C30_annexb_roundtrip.
Print Assumptions C30_annexb_truncated.
Print Assumptions C30_annexb_slices.
Print Assumptions C30_section5_roundtrip.
Print Assumptions C30_section5_exact.

(** The container formats, written from their definitions: AV1 specification
    4.10.5 (leb128), 5.2/Annex B (length-delimited format), 5.3/5.4 (low-overhead
    format, "Section 5"), and the IVF layout. Independent of the demuxers. *)
From Coq Require Import ZArith List Bool.
Import ListNotations.
Open Scope Z_scope.

Definition zl {A} (l : list A) : Z := Z.of_nat (length l).
Definition bytes (l : list Z) : Prop := Forall (fun b => 0 <= b < 256) l.

(** 4.10.5: at most eight bytes, seven value bits each, low-order first, the high
    bit set on all but the last; the value is below [2^32]. *)
Inductive leb_form : list Z -> Prop :=
| LF_last : forall b, 0 <= b < 128 -> leb_form [b]
| LF_more : forall b l, 128 <= b < 256 -> leb_form l -> leb_form (b :: l).
Fixpoint leb_value (l : list Z) : Z :=
  match l with [] => 0 | b :: l => b mod 128 + 128 * leb_value l end.
Definition leb_enc (v : Z) (l : list Z) : Prop :=
  leb_form l /\ (length l <= 8)%nat /\ leb_value l = v /\ v < 2 ^ 32.

(** ** IVF *)
Fixpoint le (n : nat) (x : Z) : list Z :=
  match n with O => [] | S n => x mod 256 :: le n (x / 256) end.
(** frame header: size, 64-bit time stamp, payload *)
Definition ivf_frame (fr : Z * list Z) : list Z :=
  le 4 (zl (snd fr)) ++ le 8 (fst fr) ++ snd fr.
(** file header: signature, version, header length, codec, size, time base,
    length in time units, unused *)
Definition ivf_header (version hlen w h tb0 tb1 duration unused : Z) : list Z :=
  [68; 75; 73; 70] ++ le 2 version ++ le 2 hlen ++ [65; 86; 48; 49]
  ++ le 2 w ++ le 2 h ++ le 4 tb0 ++ le 4 tb1 ++ le 4 duration ++ le 4 unused.
Definition ivf_ok (fr : Z * list Z) : Prop :=
  0 <= fst fr < 2 ^ 64 /\ 0 < zl (snd fr) < 2 ^ 32 /\ bytes (snd fr).
(** what reading the frames gives: payload, offset of the frame header, time
    stamp, where the time stamp of frame [i] stored as [t] is [st i t] *)
Fixpoint ivf_packets (off i : Z) (st : Z -> Z -> Z) (frs : list (Z * list Z)) : list (list Z * Z * Z) :=
  match frs with
  | [] => []
  | fr :: frs => (snd fr, off, st i (fst fr)) :: ivf_packets (off + zl (ivf_frame fr)) (i + 1) st frs
  end.
(** the frames from the first one whose time stamp is at least [ts], with the
    number of frames and of bytes before it *)
Fixpoint ivf_from (ts off i : Z) (st : Z -> Z -> Z) (frs : list (Z * list Z)) : option (Z * Z * list (Z * list Z)) :=
  match frs with
  | [] => None
  | fr :: frs' =>
    if ts <=? st i (fst fr) then Some (off, i, frs)
    else ivf_from ts (off + zl (ivf_frame fr)) (i + 1) st frs'
  end.
Fixpoint increasing (l : list Z) : Prop :=
  match l with
  | a :: (b :: _) as tl => a < b /\ increasing tl
  | _ => True
  end.

(** ** Annex B: temporal units of frame units of OBUs, each with its length *)
Inductive ab_obus : list (list Z) -> list Z -> Prop :=
| AO_nil : ab_obus [] []
| AO_cons : forall p lb ps l, 0 < zl p -> bytes p -> leb_enc (zl p) lb -> ab_obus ps l ->
    ab_obus (p :: ps) (lb ++ p ++ l).
Inductive ab_frames : list (list Z) -> list Z -> Prop :=
| AF_nil : ab_frames [] []
| AF_cons : forall ps body lb qs l, ps <> [] -> ab_obus ps body -> leb_enc (zl body) lb -> ab_frames qs l ->
    ab_frames (ps ++ qs) (lb ++ body ++ l).
Inductive ab_file : nat -> list (list Z) -> list Z -> Prop :=
| AT_nil : ab_file 0 [] []
| AT_cons : forall n ps body lb qs l, ps <> [] -> ab_frames ps body -> leb_enc (zl body) lb -> ab_file n qs l ->
    ab_file (S n) (ps ++ qs) (lb ++ body ++ l).

(** ** Section 5: OBUs with their own size field; a temporal unit is a temporal
    delimiter and the OBUs up to the next one. (The forbidden bit and the reserved
    bit of the OBU header are left to the decoder.) *)
Inductive s5_obu : Z -> list Z -> Prop :=
| SO : forall type h ext lb p, 0 <= h < 256 -> (h / 8) mod 16 = type -> (h / 2) mod 2 = 1 ->
    length ext = Z.to_nat ((h / 4) mod 2) -> bytes ext -> leb_enc (zl p) lb -> bytes p ->
    s5_obu type (h :: ext ++ lb ++ p).
Inductive s5_rest : list Z -> Prop :=
| SR_nil : s5_rest []
| SR_cons : forall t o l, t <> 2 -> s5_obu t o -> s5_rest l -> s5_rest (o ++ l).
Inductive s5_unit : list Z -> Prop :=
| SU : forall o l, s5_obu 2 o -> s5_rest l -> s5_unit (o ++ l).
(** what may follow a unit: the end of the file or another temporal delimiter *)
Definition s5_follow (l : list Z) : Prop :=
  match l with [] => True | h :: _ => (h / 8) mod 16 = 2 end.

(** The results of calling a reader until it gives nothing. *)
Fixpoint reads {S A} (rd : S -> option A * S) (n : nat) (s : S) : list (option A) :=
  match n with O => [] | Datatypes.S n => fst (rd s) :: reads rd n (snd (rd s)) end.

(** ** Playing an IVF file: reading packets and seeking, in any order. The state is
    the number of the next frame. *)
Inductive play_op := Rd | Sk (ts : Z).
Inductive play_res := Pkt (p : list Z) (off ts : Z) | NoPkt | SkOk | SkFail.
(** offset of frame [j] *)
Definition frame_off (frs : list (Z * list Z)) (j : nat) : Z := 32 + zl (flat_map ivf_frame (firstn j frs)).
(** the first frame with time stamp [ts] or later *)
Fixpoint first_from (ts i : Z) (st : Z -> Z -> Z) (frs : list (Z * list Z)) : option nat :=
  match frs with
  | [] => None
  | fr :: frs => if ts <=? st i (fst fr) then Some O else option_map S (first_from ts (i + 1) st frs)
  end.
Fixpoint play (st : Z -> Z -> Z) (frs : list (Z * list Z)) (j : nat) (ops : list play_op) : list play_res :=
  match ops with
  | [] => []
  | Rd :: ops =>
    match nth_error frs j with
    | Some fr => Pkt (snd fr) (frame_off frs j) (st (Z.of_nat j) (fst fr)) :: play st frs (S j) ops
    | None => NoPkt :: play st frs j ops
    end
  | Sk ts :: ops =>
    match first_from ts 0 st frs with
    | Some k => SkOk :: play st frs k ops
    | None => SkFail :: play st frs (length frs) ops
    end
  end.

(** What the container probes look for, on lists and unbounded integers,
    independent of the code. *)
From Coq Require Import ZArith List Bool.
From Verif Require Import Tools.InputSpec.
Import ListNotations.
Open Scope Z_scope.

(** a leb128 number at the start of [l]: value and number of bytes *)
Fixpoint leb_dec (n : nat) (l : list Z) : option (Z * Z) :=
  match n, l with
  | S n, b :: l =>
    if b <? 128 then Some (b, 1)
    else match leb_dec n l with
         | Some (v, k) => Some (b - 128 + 128 * v, k + 1)
         | None => None
         end
  | _, _ => None
  end.
Definition leb32 (l : list Z) : option (Z * Z) :=
  match leb_dec 8 l with
  | Some (v, k) => if v <? 2 ^ 32 then Some (v, k) else None
  | None => None
  end.

(** the OBU header at the start of [l] (5.3.2): type, payload size, header length;
    without a size field the payload is the rest of [l], if that is allowed *)
Definition obu_hdr (implicit : bool) (l : list Z) : option (Z * Z * Z) :=
  match l with
  | [] => None
  | h :: l =>
    if 128 <=? h then None else
    let type := (h / 8) mod 16 in
    let ext := (h / 4) mod 2 in
    let has_size := (h / 2) mod 2 =? 1 in
    if (ext =? 1) && (zl l =? 0) then None else
    let l := skipn (Z.to_nat ext) l in
    if has_size then
      match leb32 l with Some (v, k) => Some (type, v, 1 + ext + k) | None => None end
    else if implicit then Some (type, zl l, 1 + ext) else None
  end.

Inductive verdict := Yes | No | Huge.
Definition of_bool (b : bool) : verdict := if b then Yes else No.
(** sizes from here on are not considered *)
Definition HUGE : Z := 2 ^ 31 - 4096.

(** A low-overhead stream: OBUs up to the first frame, with a sequence header among
    them, and no temporal delimiter or tile group. [Huge] if a size field of
    [HUGE] or more is met on the way. *)
Fixpoint s5_look (n : nat) (l : list Z) (seq : bool) : verdict :=
  match l, n with
  | [], _ => of_bool seq
  | _, O => No
  | _, S n =>
    match obu_hdr false l with
    | None => No
    | Some (t, v, k) =>
      if HUGE <=? v then Huge
      else if (t =? 3) || (t =? 6) then of_bool seq
      else if (t =? 2) || (t =? 4) then No
      else s5_look n (skipn (Z.to_nat (k + v)) l) (seq || (t =? 1))
    end
  end.
Definition s5_stream (buf : list Z) : verdict :=
  match obu_hdr false buf with
  | None => No
  | Some (t, v, k) =>
    if HUGE <=? v then Huge
    else if negb (t =? 2) || negb (v =? 0) then No
    else s5_look (length buf) (skipn (Z.to_nat k) buf) false
  end.

(** An Annex B stream: the units nest, the first OBU is a temporal delimiter. [fu]
    is what is left of the frame unit. *)
Fixpoint ab_look (n : nat) (l : list Z) (fu : Z) (seq : bool) : verdict :=
  match l, n with
  | [], _ => of_bool seq
  | _, O => No
  | _, S n =>
    match leb32 l with
    | None => No
    | Some (ou, k) =>
      if fu <? ou + k then No
      else if HUGE <=? ou then Huge else
      let l := skipn (Z.to_nat k) l in
      match obu_hdr true (firstn (Z.to_nat ou) l) with
      | None => No
      | Some (t, v, _) =>
        if HUGE <=? v then Huge
        else if (t =? 3) || (t =? 6) then of_bool seq
        else if (t =? 2) || (t =? 4) then No
        else if fu - k - ou =? 0 then No
        else ab_look n (skipn (Z.to_nat ou) l) (fu - k - ou) (seq || (t =? 1))
      end
    end
  end.
Definition ab_stream (buf : list Z) : verdict :=
  match leb32 buf with
  | None => No
  | Some (tu, k1) =>
    let l := skipn (Z.to_nat k1) buf in
    match leb32 l with
    | None => No
    | Some (fu, k2) =>
      if tu <? fu + k2 then No else
      let l := skipn (Z.to_nat k2) l in
      match leb32 l with
      | None => No
      | Some (ou, k3) =>
        if fu <=? ou + k3 then No
        else if HUGE <=? ou then Huge else
        let l := skipn (Z.to_nat k3) l in
        match obu_hdr true (firstn (Z.to_nat ou) l) with
        | None => No
        | Some (t, v, _) =>
          if HUGE <=? v then Huge
          else if negb (t =? 2) || negb (v =? 0) then No
          else ab_look (length buf) (skipn (Z.to_nat ou) l) (fu - k3 - ou) false
        end
      end
    end
  end.

(** the header of an OBU of type [t] with [n] bytes of payload *)
Definition s5_hdr (t n : Z) (l : list Z) : Prop :=
  exists h ext lb, l = h :: ext ++ lb /\ 0 <= h < 128 /\ (h / 8) mod 16 = t /\ (h / 2) mod 2 = 1
  /\ length ext = Z.to_nat ((h / 4) mod 2) /\ bytes ext /\ leb_enc n lb.
(** OBUs that may come before the first frame of a temporal unit, with their types *)
Inductive s5_lead : list Z -> list Z -> Prop :=
| SL_nil : s5_lead [] []
| SL_cons : forall t hd p ts l, t <> 2 -> t <> 3 -> t <> 4 -> t <> 6 -> s5_hdr t (zl p) hd -> bytes p ->
    s5_lead ts l -> s5_lead (t :: ts) (hd ++ p ++ l).
(** the same in Annex B: each OBU is preceded by its length, and may or may not
    have a size field *)
Inductive ab_lead : list Z -> list Z -> Prop :=
| AL_nil : ab_lead [] []
| AL_cons : forall t v k lb o ts l, t <> 2 -> t <> 3 -> t <> 4 -> t <> 6 -> leb_enc (zl o) lb ->
    obu_hdr true o = Some (t, v, k) -> v < HUGE -> ab_lead ts l -> ab_lead (t :: ts) (lb ++ o ++ l).

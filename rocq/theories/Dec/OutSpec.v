(** What a caller of the decoding API may expect of the packets and pictures,
    in terms of the observable actions only. *)
From Coq Require Import ZArith List Bool.
From Verif Require Import Base.CInt Obu.SeqModel Obu.FrameModel Dec.State.
Import ListNotations.
Open Scope Z_scope.

(** * Input
    The unread part of the current packet.  A packet is only accepted when nothing
    is left of the one before; each call of the parser is given exactly what is
    left; what it consumed is gone; an error discards the rest. *)
Definition unread : Type := option (list Z * props).
Definition feed_ev (x : ev) (u : unread) : option unread :=
  match x with
  | EvIn buf m => match u with None => Some (Some (buf, m)) | Some _ => None end
  | EvParse buf m r _ =>
    match u with
    | Some (b, m') =>
      if list_eq_dec Z.eq_dec b buf then
        if Z.eq_dec m m' then
          if r <? 0 then Some None
          else if (r =? 0) || (zlen buf <? r) then None
          else Some (if r =? zlen buf then None else Some (skipn (Z.to_nat r) buf, m))
        else None
      else None
    | None => None
    end
  | EvCut => match u with None => Some u | Some _ => None end
  | EvFlush => Some None
  | _ => Some u
  end.
Fixpoint feed_all (l : list ev) (u : unread) : option unread :=
  match l with
  | [] => Some u
  | x :: t => match feed_ev x u with Some u => feed_all t u | None => None end
  end.

(** * Pictures produced
    Every frame handed to the decoder and every frame shown again, with its result
    and whether its picture is to be output. *)
Record made : Type := mkMade { mk_id : option Z; mk_ret : Z; mk_out : bool }.
Definition visible (s : settings) (v : Z) : bool := z2b v || s_output_invisible s.
Definition made_ev (o : oracle) (s : settings) (x : ev) : list made :=
  match x with
  | EvSubmit j r =>
    let v := visible s (show_frame (f_pre (j_hdr j))) in
    if s_n_fc s =? 1 then [mkMade (Some (j_id j)) r ((r =? 0) && v)]
    else [mkMade (Some (j_id j)) (dr_ret (o_decode o j))
            ((dr_ret (o_decode o j) =? 0) && v && negb (dr_bad (o_decode o j)))]
  | EvShow _ p => [mkMade (tp_buf p) 0 ((s_n_fc s =? 1) || negb (tp_bad p))]
  | _ => []
  end.
Definition made_all (o : oracle) (s : settings) (l : list ev) : list made := flat_map (made_ev o s) l.

(** Pictures that were taken, and frame errors that were reported. *)
Definition takes (e : list ev) : list tpic := flat_map (fun x => match x with EvTake p => [p] | _ => [] end) e.
Definition errs (e : list ev) : list Z := flat_map (fun x => match x with EvErr r => [r] | _ => [] end) e.
Definition outs_of (e : list ev) : list tpic := flat_map (fun x => match x with EvOut p => [p] | _ => [] end) e.
(** The buffers of pictures, and those that the frames made so far call for. *)
Definition ids (l : list tpic) : list (option Z) := map tp_buf l.
Definition wanted (l : list made) : list (option Z) := map mk_id (filter mk_out l).
Definition nonzero (l : list Z) : list Z := filter (fun x => negb (x =? 0)) l.

(** * Choice among spatial layers
    [sl_top] is the highest spatial layer, or 0 when every picture is wanted. *)
Record sel : Type := mkSel { sl_top : Z; sl_done : list tpic; sl_held : option tpic }.
Definition new_unit (p : tpic) : bool := Z.testbit (tp_flags p) 2.
Definition sel_pic (p : tpic) (x : sel) : sel :=
  if sl_top x =? 0 then mkSel (sl_top x) (sl_done x ++ [p]) (sl_held x)
  else match sl_held x with
       | Some q =>
         if (f_spatial_id (tp_hdr q) =? sl_top x) || new_unit p
         then mkSel (sl_top x) (sl_done x ++ [q]) (Some p)
         else mkSel (sl_top x) (sl_done x) (Some p)
       | None => mkSel (sl_top x) (sl_done x) (Some p)
       end.
Definition sel_cut (x : sel) : sel :=
  if sl_top x =? 0 then x
  else match sl_held x with
       | Some q => mkSel (sl_top x) (sl_done x ++ [q]) None
       | None => x
       end.
Definition sel_ev (all : bool) (x : sel) (v : ev) : sel :=
  match v with
  | EvParse _ _ _ sid => mkSel (if all then 0 else sid) (sl_done x) (sl_held x)
  | EvOut p => sel_pic p x
  | EvCut => sel_cut x
  | _ => x
  end.
Definition sel_all (all : bool) (l : list ev) (x : sel) : sel := fold_left (sel_ev all) l x.

(** Temporal units of pictures of rising spatial layers up to [top]; after each any
    number of times at which the caller ran out of data. *)
Definition layer (p : tpic) : Z := f_spatial_id (tp_hdr p).
Fixpoint rising (top : Z) (p : tpic) (l : list tpic) : Prop :=
  match l with
  | [] => layer p <= top
  | q :: t => layer p < layer q /\ new_unit q = false /\ rising top q t
  end.
Record tu : Type := mkTu { tu_first : tpic; tu_more : list tpic; tu_cuts : nat }.
Definition tu_ok (top : Z) (u : tu) : Prop := new_unit (tu_first u) = true /\ rising top (tu_first u) (tu_more u).
(** The highest layer that is there. *)
Definition tu_best (u : tu) : tpic := last (tu_more u) (tu_first u).
Definition tu_marks (u : tu) : list (option tpic) := Some (tu_first u) :: map Some (tu_more u) ++ repeat None (tu_cuts u).
Definition marks (e : list ev) : list (option tpic) :=
  flat_map (fun x => match x with EvOut p => [Some p] | EvCut => [None] | _ => [] end) e.
(** From here on the highest layer is [top]. *)
Definition top_from (top : Z) (e : list ev) : Prop :=
  (exists b m r t, e = EvParse b m r top :: t) /\ forall b m r sid, In (EvParse b m r sid) e -> sid = top.

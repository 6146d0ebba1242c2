(** Model of the users of the reference counted objects: /repo/src/data.c and the
    reference handling of /repo/src/picture.c.

    A function takes the structs its pointer arguments point to and returns them as
    it leaves them, with the list of accesses to shared objects (Mem/Ref.v) it makes.
    A failed [assert] is undefined. The structs the arguments point to are distinct
    and used by one thread at a time; the arguments themselves are not NULL. [a] is
    the address of a newly allocated object, [None] if allocation fails. Only the
    fields that say which objects a struct refers to and the ones data.c sets are in
    the structs: of the pictures, the pixel layout and the pointers to the headers
    are left out. *)
From Coq Require Import ZArith List Bool.
From Verif Require Import Base.CInt Mem.Ref.
Import ListNotations.
Open Scope Z_scope.
Open Scope outcome_scope.

Definition ptr := option Z.      (* NULL: None *)
Definition rptr := option nat.   (* Dav1dRef pointer *)
Definition nonnull {A} (p : option A) : bool := match p with Some _ => true | None => false end.

(** the result of a function and its accesses *)
Definition W (A : Type) := outcome (A * list act).
Definition wret {A} (a : A) : W A := Ok (a, []).
Definition wbind {A B} (m : W A) (f : A -> W B) : W B :=
  let! r := m in let! r' := f (fst r) in Ok (fst r', snd r ++ snd r').
Definition wassert (b : bool) : W unit := if b then wret tt else Undef.
Notation "'do' x <- m ; k" := (wbind m (fun x => k)) (at level 200, x name, m at level 100, k at level 200).
Notation "m ;; k" := (wbind m (fun _ => k)) (at level 100, right associativity).

(** ref.h:67; used as [if (ref) dav1d_ref_inc(ref)] *)
Definition ref_inc (r : rptr) : W unit := match r with Some r => Ok (tt, [AInc r]) | None => wret tt end.
(** ref.c:77-90; returns what the pointer is set to *)
Definition ref_dec (r : rptr) : W rptr := match r with Some r => Ok (None, [ADec r]) | None => wret None end.
(** initialisation of an object that was allocated *)
Definition ref_new (a : rptr) (k : kind) (fr wr : bool) : W rptr :=
  match a with Some r => Ok (Some r, [ANew r k fr wr]) | None => wret None end.
(** ref.c:38-51 dav1d_ref_create and :57-74 dav1d_ref_create_using_pool *)
Definition ref_create (a : rptr) : W rptr := ref_new a KBlock false true.
Definition ref_create_using_pool (a : rptr) : W rptr := ref_new a KPool false true.
(** ref.h:54-65 dav1d_ref_init of a malloc'ed object (free_ref = 1), data.c:69 *)
Definition ref_wrap (a : rptr) : W rptr := ref_new a KUser true false.

(** ** data.c *)
(** include/dav1d/common.h:70-79 Dav1dDataProps *)
Record dprops : Type := { timestamp : Z; duration : Z; offset : Z; psize : Z; ud_data : ptr; ud_ref : rptr }.
(** include/dav1d/data.h:40-45 Dav1dData *)
Record ddata : Type := { d_data : ptr; d_sz : Z; d_ref : rptr; d_m : dprops }.
Definition SIZE_MAX : Z := 2 ^ 64 - 1.
Definition ENOMEM : Z := 12.
Definition EINVAL : Z := 22.

(** data.c:130-136 dav1d_data_props_set_defaults *)
Definition props_defaults : dprops :=
  {| timestamp := - 2 ^ 63; duration := 0; offset := -1; psize := 0; ud_data := None; ud_ref := None |}.
Definition props_of_size (sz : Z) : dprops :=
  {| timestamp := - 2 ^ 63; duration := 0; offset := -1; psize := sz; ud_data := None; ud_ref := None |}.
(** memset and set_defaults, data.c:154-155 *)
Definition data_cleared : ddata := {| d_data := None; d_sz := 0; d_ref := None; d_m := props_defaults |}.

(** data.c:42-54 dav1d_data_create_internal; [p] is where the data of the new object
    is. Returns the struct and the pointer returned. *)
Definition data_create (buf : ddata) (sz : Z) (a : rptr) (p : Z) : W (ddata * ptr) :=
  if SIZE_MAX / 2 <? sz then wret (buf, None) else
  do ref <- ref_create a;
  match ref with
  | None => wret ({| d_data := d_data buf; d_sz := d_sz buf; d_ref := None; d_m := d_m buf |}, None) (* :47-48 *)
  | Some r => Ok (tt, [ARead r]) ;; Ok (tt, [ARead r]) ;;                                            (* :49, :54 *)
    wret ({| d_data := Some p; d_sz := sz; d_ref := Some r; d_m := props_of_size sz |}, Some p)
  end.
(** data.c:57-78 dav1d_data_wrap_internal *)
Definition data_wrap (buf : ddata) (p : Z) (sz : Z) (a : rptr) : W (ddata * Z) :=
  if SIZE_MAX / 2 <? sz then wret (buf, - EINVAL) else
  do ref <- ref_wrap a;
  match ref with
  | None => wret (buf, - ENOMEM)
  | Some r => wret ({| d_data := Some p; d_sz := sz; d_ref := Some r; d_m := props_of_size sz |}, 0)
  end.
(** data.c:81-97 dav1d_data_wrap_user_data_internal *)
Definition data_wrap_user_data (buf : ddata) (ud : ptr) (a : rptr) : W (ddata * Z) :=
  do ref <- ref_wrap a;
  match ref with
  | None => wret (buf, - ENOMEM)
  | Some r =>
    let m := d_m buf in
    wret ({| d_data := d_data buf; d_sz := d_sz buf; d_ref := d_ref buf;
             d_m := {| timestamp := timestamp m; duration := duration m; offset := offset m; psize := psize m;
                       ud_data := ud; ud_ref := Some r |} |}, 0)
  end.
(** data.c:100-112 dav1d_data_ref: [dst] becomes *)
Definition data_ref (dst src : ddata) : W ddata :=
  wassert (negb (nonnull (d_data dst))) ;;
  (if nonnull (d_ref src) then wassert (nonnull (d_data src)) ;; ref_inc (d_ref src) else wret tt) ;;
  ref_inc (ud_ref (d_m src)) ;;
  wret src.
(** data.c:114-123 dav1d_data_props_copy *)
Definition props_copy (dst src : dprops) : W dprops :=
  do _x <- ref_dec (ud_ref dst);
  ref_inc (ud_ref src) ;;
  wret src.
(** data.c:138-144 dav1d_data_props_unref_internal *)
Definition props_unref (props : dprops) : W dprops :=
  do _x <- ref_dec (ud_ref props);
  wret props_defaults.
(** data.c:146-157 dav1d_data_unref_internal *)
Definition data_unref (buf : ddata) : W ddata :=
  let user_data_ref := ud_ref (d_m buf) in
  if nonnull (d_ref buf) && negb (nonnull (d_data buf)) then wret buf (* :151, validate_input *) else
  do _x <- ref_dec (d_ref buf);
  do _y <- ref_dec user_data_ref;
  wret data_cleared.

(** ** picture.c *)
(** include/dav1d/picture.h Dav1dPicture *)
Record dpic : Type := {
  p_data : ptr; p_m : dprops; p_frame_hdr_ref : rptr; p_seq_hdr_ref : rptr; p_content_light_ref : rptr;
  p_mastering_display_ref : rptr; p_itut_t35_ref : rptr; p_ref : rptr }.
Definition pic_of_props (m : dprops) : dpic :=
  {| p_data := None; p_m := m; p_frame_hdr_ref := None; p_seq_hdr_ref := None; p_content_light_ref := None;
     p_mastering_display_ref := None; p_itut_t35_ref := None; p_ref := None |}.
Definition props_zero : dprops := {| timestamp := 0; duration := 0; offset := 0; psize := 0; ud_data := None; ud_ref := None |}.
Definition pic_zero : dpic := pic_of_props props_zero.          (* memset *)
Definition pic_cleared : dpic := pic_of_props props_defaults.   (* memset and set_defaults, :321-322 *)

(** picture.c:255-273 dav1d_picture_ref: [dst] becomes *)
Definition picture_ref (dst src : dpic) : W dpic :=
  wassert (negb (nonnull (p_data dst))) ;;
  (if nonnull (p_ref src) then wassert (nonnull (p_data src)) ;; ref_inc (p_ref src) else wret tt) ;;
  ref_inc (p_frame_hdr_ref src) ;;
  ref_inc (p_seq_hdr_ref src) ;;
  ref_inc (ud_ref (p_m src)) ;;
  ref_inc (p_content_light_ref src) ;;
  ref_inc (p_mastering_display_ref src) ;;
  ref_inc (p_itut_t35_ref src) ;;
  wret src.
(** picture.c:275-285 dav1d_picture_move_ref: [dst] and [src] become *)
Definition picture_move_ref (dst src : dpic) : W (dpic * dpic) :=
  wassert (negb (nonnull (p_data dst))) ;;
  (if nonnull (p_ref src) then wassert (nonnull (p_data src)) else wret tt) ;;
  wret (src, pic_zero).
(** picture.c:308-323 dav1d_picture_unref_internal *)
Definition picture_unref (p : dpic) : W dpic :=
  if nonnull (p_ref p) && negb (nonnull (p_data p)) then wret p (* :312, validate_input *) else
  do _a <- ref_dec (p_ref p);
  do _b <- ref_dec (p_seq_hdr_ref p);
  do _c <- ref_dec (p_frame_hdr_ref p);
  do _d <- ref_dec (ud_ref (p_m p));
  do _e <- ref_dec (p_content_light_ref p);
  do _f <- ref_dec (p_mastering_display_ref p);
  do _g <- ref_dec (p_itut_t35_ref p);
  wret pic_cleared.
(** picture.c:112-165 picture_alloc: [a] is the Dav1dRef inside the buffer from
    pic_ctx_pool, [data] what the allocator callback sets p->data[0] to and [res]
    what it returns *)
Definition picture_alloc (p : dpic) (seq_hdr_ref frame_hdr_ref : rptr) (a : rptr) (data : ptr) (res : Z) : W (dpic * Z) :=
  if nonnull (p_data p) then wret (p, -1) else
  match a with
  | None => wret (p, - ENOMEM)
  | Some _ =>
    let p1 := {| p_data := data; p_m := props_defaults; p_frame_hdr_ref := p_frame_hdr_ref p; p_seq_hdr_ref := p_seq_hdr_ref p;
                 p_content_light_ref := p_content_light_ref p; p_mastering_display_ref := p_mastering_display_ref p;
                 p_itut_t35_ref := p_itut_t35_ref p; p_ref := p_ref p |} in
    if res <? 0 then wret (p1, res) else                       (* :146-149: the buffer goes back to the pool *)
    do ref <- ref_new a KPool false false;                     (* :153 *)
    ref_inc seq_hdr_ref ;;                                     (* :156 *)
    ref_inc frame_hdr_ref ;;                                   (* :159 *)
    wret ({| p_data := data; p_m := props_defaults; p_frame_hdr_ref := frame_hdr_ref; p_seq_hdr_ref := seq_hdr_ref;
             p_content_light_ref := p_content_light_ref p; p_mastering_display_ref := p_mastering_display_ref p;
             p_itut_t35_ref := p_itut_t35_ref p; p_ref := ref |}, 0)
  end.
(** picture.c:167-190 dav1d_picture_copy_props *)
Definition picture_copy_props (p : dpic) (cl md it : rptr) (props : dprops) : W dpic :=
  do m <- props_copy (p_m p) props;
  do _a <- ref_dec (p_content_light_ref p);
  ref_inc cl ;;
  do _b <- ref_dec (p_mastering_display_ref p);
  ref_inc md ;;
  do _c <- ref_dec (p_itut_t35_ref p);
  ref_inc it ;;
  wret {| p_data := p_data p; p_m := m; p_frame_hdr_ref := p_frame_hdr_ref p; p_seq_hdr_ref := p_seq_hdr_ref p;
          p_content_light_ref := cl; p_mastering_display_ref := md; p_itut_t35_ref := it; p_ref := p_ref p |}.
(** picture.c:235-253 dav1d_picture_alloc_copy: [dst] becomes *)
Definition picture_alloc_copy (dst src : dpic) (a : rptr) (data : ptr) (res : Z) : W (dpic * Z) :=
  match p_ref src with
  | None => Undef                                               (* :238: src->ref is dereferenced *)
  | Some r =>
    Ok (tt, [ARead r]) ;;
    do x <- picture_alloc dst (p_seq_hdr_ref src) (p_frame_hdr_ref src) a data res;
    if negb (snd x =? 0) then wret x else
    do p <- picture_copy_props (fst x) (p_content_light_ref src) (p_mastering_display_ref src) (p_itut_t35_ref src) (p_m src);
    wret (p, 0)
  end.
(** picture.c:192-233 dav1d_thread_picture_alloc, the references: f's header references,
    the metadata of the context ([cl], [md], [it]; [it] is dropped by the context) and
    the properties of the first tile data. The results: the picture, the context's
    itut_t35_ref, the return value. *)
Definition thread_picture_alloc (p : dpic) (seq_hdr_ref frame_hdr_ref cl md it : rptr) (props : dprops) (visible : bool)
    (a : rptr) (data : ptr) (res : Z) : W (dpic * rptr * Z) :=
  do x <- picture_alloc p seq_hdr_ref frame_hdr_ref a data res;
  if negb (snd x =? 0) then wret (fst x, it, snd x) else
  if visible then
    do p <- picture_copy_props (fst x) cl md it props;
    do it' <- ref_dec it;
    wret (p, it', 0)
  else
    do m <- props_copy (p_m (fst x)) props;
    let q := fst x in
    wret ({| p_data := p_data q; p_m := m; p_frame_hdr_ref := p_frame_hdr_ref q; p_seq_hdr_ref := p_seq_hdr_ref q;
             p_content_light_ref := p_content_light_ref q; p_mastering_display_ref := p_mastering_display_ref q;
             p_itut_t35_ref := p_itut_t35_ref q; p_ref := p_ref q |}, it, 0).

(** ** The references a struct holds *)
Definition olist (r : rptr) : list nat := match r with Some r => [r] | None => [] end.
Definition props_refs (m : dprops) : list nat := olist (ud_ref m).
Definition data_refs (d : ddata) : list nat := olist (d_ref d) ++ props_refs (d_m d).
Definition pic_refs (p : dpic) : list nat :=
  olist (p_ref p) ++ olist (p_frame_hdr_ref p) ++ olist (p_seq_hdr_ref p) ++ props_refs (p_m p)
  ++ olist (p_content_light_ref p) ++ olist (p_mastering_display_ref p) ++ olist (p_itut_t35_ref p).

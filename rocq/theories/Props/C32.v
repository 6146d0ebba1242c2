(** C32: the MD5 writer computes RFC 1321 MD5 of the frame bytes. *)
From Coq Require Import ZArith List Bool Lia Ascii String.
From Verif Require Import Base.CInt Tools.Md5 Tools.Md5Proofs.
From Verif Require Tools.Md5Spec.
Module S := Verif.Tools.Md5Spec.
Import ListNotations.
Open Scope Z_scope.
Open Scope outcome_scope.

(** However a byte string is cut into [md5_update] calls, what [md5_close] prints
    is the RFC 1321 digest of the concatenation; no buffer is over-run, and the
    initial buffer content does not matter. *)
Theorem C32_chunking : forall junk pieces, List.length junk = 64%nat ->
  obind (chunks (md5_open junk) pieces) md5_close
  = Ok (S.hex (S.md5 (List.concat pieces)) ++ ["010"%char]).
Proof.
  intros junk pieces J.
  destruct (chunks_ok pieces [] _ (open_inv junk J)) as (m & -> & I).
  apply close_ok. exact I.
Qed.

(** For any sequence of pictures whose memory holds given samples (any size,
    layout, bit depth and stride, negative included), the digest printed is that
    of all visible samples, in picture, plane and raster order. *)
Theorem C32_pictures : forall junk pics, List.length junk = 64%nat ->
  Forall (fun ps => holds (fst ps) (snd ps)) pics ->
  obind (write_all (md5_open junk) (map fst pics)) md5_close
  = Ok (S.hex (S.md5 (flat_map (fun ps => bytes_of_pic (fst ps) (snd ps)) pics)) ++ ["010"%char]).
Proof.
  intros junk pics J F.
  destruct (write_all_ok pics [] _ F (open_inv junk J)) as (m & -> & I).
  apply close_ok. exact I.
Qed.

(** [md5_verify] accepts a text that starts with 16 bytes in hexadecimal of either
    case if and only if these are the digest, and refuses shorter texts. *)
Theorem C32_verify : forall junk pics digest text tail, List.length junk = 64%nat ->
  Forall (fun ps => holds (fst ps) (snd ps)) pics ->
  S.renders digest text -> List.length digest = 16%nat ->
  exists r, obind (write_all (md5_open junk) (map fst pics)) (fun m => md5_verify m (text ++ tail)) = Ok r
    /\ (r = 0 \/ r = 1)
    /\ (r = 0 <-> digest = S.md5 (flat_map (fun ps => bytes_of_pic (fst ps) (snd ps)) pics)).
Proof.
  intros junk pics digest text tail J F R L.
  destruct (write_all_ok pics [] _ F (open_inv junk J)) as (m & -> & I).
  exact (verify_ok _ m digest text tail I R L).
Qed.

Theorem C32_verify_short : forall junk pieces text, List.length junk = 64%nat -> zlen text < 32 ->
  obind (chunks (md5_open junk) pieces) (fun m => md5_verify m text) = Ok (-1).
Proof.
  intros junk pieces text J H.
  destruct (chunks_ok pieces [] _ (open_inv junk J)) as (m & -> & I). cbn [obind].
  unfold md5_verify. destruct (finish_ok _ m I) as (m' & -> & _). cbn [obind].
  replace (zlen text <? 32) with true by (symmetry; apply Z.ltb_lt; exact H). reflexivity.
Qed.

(** A 3x2 8-bit 4:2:0 picture stored bottom-up. *)
Definition sample_pic : pic :=
  {| p_w := 3; p_h := 2; p_bpc := 8; p_layout := I420;
     p_mem := fun pl => match pl with 0 => [4; 5; 6; 0; 1; 2; 3; 0] | 1 => [7; 8] | _ => [9; 10] end;
     p_off := fun pl => if pl =? 0 then 4 else 0; p_stride0 := -4; p_stride1 := 2 |}.
Example sample_holds : holds sample_pic (fun pl x y =>
  match pl with 0 => 1 + x + 3 * y | 1 => 7 + x | _ => 9 + x end).
Proof.
  unfold holds. cbn -[stored Z.add Z.mul S.half]. repeat (apply conj); try lia.
  change (S.half 3) with 2. change (S.half 2) with 1.
  intros pl pw ph [E|[E|[E|E]]] x y Hx Hy; inversion E; subst; clear E; cbn [Z.eqb Pos.eqb];
    assert (Cx : x = 0 \/ x = 1 \/ x = 2) by lia; assert (Cy : y = 0 \/ y = 1) by lia;
    destruct Cx as [-> | [-> | ->]], Cy as [->| ->]; try lia;
    (split; [cbn; lia|reflexivity]).
Qed.
Example sample_bytes : bytes_of_pic sample_pic (fun pl x y =>
  match pl with 0 => 1 + x + 3 * y | 1 => 7 + x | _ => 9 + x end) = [1; 2; 3; 4; 5; 6; 7; 8; 9; 10].
Proof. reflexivity. Qed.
Example sample_renders : S.renders [0xAB; 0x0c] (list_ascii_of_string "aB0c").
Proof. repeat constructor; try lia; first [left; reflexivity | right; reflexivity]. Qed.

Print Assumptions C32_chunking.
Print Assumptions C32_pictures.
Print Assumptions C32_verify.
Print Assumptions C32_verify_short.

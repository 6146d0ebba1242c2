(** The contract of dav1d_send_data. *)
From Coq Require Import ZArith List Bool Lia.
From Verif Require Import Base.CInt Obu.SeqModel Obu.FrameModel Dec.State Dec.Submit Dec.ObuModel
  Dec.LibModel Dec.Inv Dec.Step Dec.OutSpec Dec.Micro Dec.Api.
Import ListNotations.
Open Scope Z_scope.

Theorem send_contract : forall o s d pkt r taken d' e, 1 <= s_n_fc s -> live o s d -> call_ok (Send pkt) ->
  send_data o s pkt d = Ok (r, taken, d', e) ->
  (taken = true <-> r = 0) /\
  match pkt with
  | Some ([], _) => r = EINVAL_ /\ d' = d /\ e = []
  | _ =>
    match d_in d with
    | Some _ => r = EAGAIN_ /\ e = [] /\ d' = match pkt with Some _ => w_drain false d | None => d end
    | None =>
      (exists e', e = match pkt with Some (buf, m) => [EvIn buf m] | None => [] end ++ e') /\
      (r <> 0 -> exists pre buf m sid post, e = pre ++ EvParse buf m r sid :: post /\ Forall plain post)
    end
  end.
Proof.
  intros o s d pkt r taken d' e NF L HC ES. destruct (live_ok o s d NF L) as (LI & OP).
  destruct (send_ok o s pkt d LI OP HC) as (r1 & t1 & d1 & e1 & X & _ & _ & _ & _ & _ & T). rewrite ES in X. injection X as <- <- <- <-.
  split; [rewrite T; split; [apply Z.eqb_eq|intros ->; reflexivity]|]. clear T.
  unfold send_data in ES.
  assert (G : match pkt with Some ([], _) => False | _ => True end -> match pkt with Some (buf, _) => zlen buf =? 0 | None => false end = false).
  { destruct pkt as [[[|x b] m]|]; [contradiction| |auto]. intros _. unfold zlen. cbn. reflexivity. }
  destruct pkt as [[[|x b] m]|].
  - cbn in ES. injection ES as <- <- <- <-. auto.
  - rewrite (G Logic.I) in ES. change (d_in (w_drain false d)) with (d_in d) in ES. destruct (d_in d) eqn:EI; [injection ES as <- <- <- <-; auto|].
    destruct (gen_ok o s (w_in (Some (x :: b, m)) (w_drain false d))) as (r3 & d3 & e3 & X1 & _ & _ & XL & (_ & _ & X5 & _)).
    { destruct LI as (I & J). destruct (inv_pending _ _ I) as (P1 & P2). split; [apply (inv_eq s d _ I); auto|].
      intros b' m' Y. dsimp. injection Y as <- <-. split; [exact HC|unfold zlen; cbn [length]; lia]. }
    { exact OP. }
    rewrite X1 in ES. cbn [obind] in ES. injection ES as <- <- <- <-. split; [exists e3; reflexivity|]. intros NR.
    destruct XL as (pre & b' & m' & sid & post & -> & PP); [lia|]. exists (EvIn (x :: b) m :: pre), b', m', sid, post. auto.
  - lazy beta iota zeta in ES. clear G. destruct (d_in d) eqn:EI; [injection ES as <- <- <- <-; auto|].
    destruct (gen_ok o s (w_in None d)) as (r3 & d3 & e3 & X1 & _ & _ & XL & (_ & _ & X5 & _)).
    { destruct LI as (I & J). destruct (inv_pending _ _ I) as (P1 & P2). split; [apply (inv_eq s d _ I); auto|].
      intros b' m' Y. dsimp. discriminate. }
    { exact OP. }
    rewrite X1 in ES. cbn [obind] in ES. injection ES as <- <- <- <-. split; [exists e3; reflexivity|]. intros NR. apply XL. lia.
Qed.

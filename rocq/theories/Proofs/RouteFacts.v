(** Streams of messages over links and bridges. *)
From Verif.Base Require Import Prelude.
From Verif.Model Require Import Types Codec MsgId Frames TransferManager Node CanFrame.
From Verif.Spec Require Import CodecSpec FrameSpec SendingSpec NodeSpec CallSpec StreamSpec LinkSpec.
From Verif.Proofs Require Import TypedStream LinkFacts.
Local Open Scope Z_scope.

Lemma filter_same_type a d fs gs : Forall2 same_frame fs gs ->
  Forall2 same_frame (filter (of_type a d) fs) (filter (of_type a d) gs).
Proof.
  induction 1 as [|f g fs gs E F IH]; [constructor|]. cbn [filter].
  assert (of_type a d g = of_type a d f) as -> by (unfold of_type; now rewrite (proj1 E)).
  destruct (of_type a d f); [constructor; assumption|exact IH].
Qed.

Lemma routed A insA insA1 a d out oks traffic gs B ins0 ins1 :
  n_id (ran A insA) = Some a -> (1 <= a < 128)%N ->
  leaves_type d (st_beh A) -> dt_id (st_status_dt A) <> d -> Forall (fit (st_types B)) (casts d insA1) ->
  bus (n_log (ran A (insA ++ insA1))) = bus (n_log (ran A insA)) ++ out ->
  outcomes d (n_log (ran A (insA ++ insA1))) = outcomes d (n_log (ran A insA)) ++ oks ->
  Forall sendable traffic ->
  Forall2 same_frame (filter (of_type a d) out) (filter (of_type a d) (map as_heard traffic)) ->
  route traffic gs -> map as_heard gs = heard ins1 ->
  st_catch B = true -> steady (st_beh B) ins1 -> (length (handlers_of (ran B ins0)) < st_fuel B)%nat -> by_id (st_types B) ->
  length oks = length (casts d insA1) /\ (In false oks -> exists l fs, st_drv A l fs <> None) /\
  exists rs, Forall2 (conveys a) (those (casts d insA1) oks) rs /\
    filter (said_of a d) (handled (n_log (ran B (ins0 ++ ins1)))) =
    filter (said_of a d) (handled (n_log (ran B ins0))) ++ flat_map (to_all (handlers_of (ran B ins0))) rs.
Proof.
  intros Hid Ha Hl Hst Hfit Hbus Hout Hs Hsame R E Hc Hsteady Hfuel Hby.
  apply (typed_refused A insA insA1 a d out oks B ins0 ins1); try assumption.
  eapply same_frames_trans; [exact Hsame|]. rewrite <- E. apply filter_same_type. apply heard_same. apply route_same; assumption.
Qed.

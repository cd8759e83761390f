(** What programs build, over links and bridges. *)
From Coq Require Import String.
From Verif.Base Require Import Prelude Bits.
From Verif.Model Require Import BitCodec Types Codec Prim Float MsgId Frames TransferManager Node CanFrame ObjectApi.
From Verif.Spec Require Import CodecSpec ObjectSpec FloatSpec SendableSpec NodeSpec MsgIdSpec FrameSpec SendingSpec CallSpec
  StreamSpec PacketSpec SlcanSpec BridgeSpec LinkSpec BuiltSpec.
From Verif.Proofs Require Import ObjectTop ObjectInv ObjectSend TypedStream LinkFacts RouteFacts.
Open Scope list_scope.

Lemma built_valid env t v : built_as env t v -> wf_type (erase t) /\ valid (erase t) v.
Proof.
  intros (ops & a & nm & u & fs & cs & d & active & extra & F & L & -> & E & SF & R).
  destruct (built env _ _ _ _ _ _ _ _ _ F E) as (T & V & K). split; [exact (known_wf env _ K)|].
  exact (proj2 (reify_fits env T _ V _ _ _ K Logic.I R) (program_sizes ops L) SF).
Qed.

Lemma made_fit env types b : made_for env types b -> fit types b.
Proof.
  intros (A & B & C & D & t & E & F). destruct (built_valid env t _ F) as (W & V).
  unfold fit. rewrite E. repeat (split; [assumption|]). assumption.
Qed.

Lemma built_routed env A insA insA1 a d out oks traffic gs B ins0 ins1 :
  n_id (ran A insA) = Some a -> (1 <= a < 128)%N ->
  leaves_type d (st_beh A) -> dt_id (st_status_dt A) <> d -> Forall (made_for env (st_types B)) (casts d insA1) ->
  bus (n_log (ran A (insA ++ insA1))) = bus (n_log (ran A insA)) ++ out ->
  outcomes d (n_log (ran A (insA ++ insA1))) = outcomes d (n_log (ran A insA)) ++ oks ->
  Forall LinkSpec.sendable traffic ->
  Forall2 same_frame (filter (of_type a d) out) (filter (of_type a d) (map as_heard traffic)) ->
  route traffic gs -> map as_heard gs = heard ins1 ->
  st_catch B = true -> steady (st_beh B) ins1 -> List.length (handlers_of (ran B ins0)) < st_fuel B -> by_id (st_types B) ->
  List.length oks = List.length (casts d insA1) /\ (In false oks -> exists l fs, st_drv A l fs <> None) /\
  exists rs, Forall2 (conveys a) (those (casts d insA1) oks) rs /\
    filter (said_of a d) (handled (n_log (ran B (ins0 ++ ins1)))) =
    filter (said_of a d) (handled (n_log (ran B ins0))) ++ flat_map (to_all (handlers_of (ran B ins0))) rs.
Proof.
  intros. eapply routed; try eassumption. eapply Forall_impl; [|eassumption]. intros b. apply made_fit.
Qed.

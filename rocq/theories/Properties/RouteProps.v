(** C131 over links and bridges: a stream of messages of one type. *)
From Verif.Base Require Import Prelude Bits.
From Verif.Model Require Import Types Codec MsgId Frames TransferManager Node CanFrame Packets Slcan Bridge.
From Verif.Spec Require Import CodecSpec NodeSpec MsgIdSpec FrameSpec SendingSpec CallSpec StreamSpec PacketSpec SlcanSpec BridgeSpec LinkSpec.
From Verif.Proofs Require Import TypedStream LinkFacts RouteFacts.
From Verif.Properties Require Import FrameProps NodeProps CallProps TsProps StreamProps.
Local Open Scope Z_scope.

(** The frames that node [a] puts on its bus are part of the traffic there.
    Through any number of links and bridges the traffic comes to the bus of
    node [B]. Whatever [a] does besides: the messages of a type that only direct
    calls of [broadcast] send come to every handler for them, with their
    content, once and in order, if and only if [broadcast] returned. *)
Theorem C131_over_route : forall A insA insA1 a d out oks traffic gs B ins0 ins1,
  n_id (ran A insA) = Some a -> (1 <= a < 128)%N ->
  leaves_type d (st_beh A) -> dt_id (st_status_dt A) <> d -> Forall (fit (st_types B)) (casts d insA1) ->
  bus (n_log (ran A (insA ++ insA1))) = bus (n_log (ran A insA)) ++ out ->
  outcomes d (n_log (ran A (insA ++ insA1))) = outcomes d (n_log (ran A insA)) ++ oks ->
  Forall sendable traffic ->
  Forall2 same_frame (filter (of_type a d) out) (filter (of_type a d) (map as_heard traffic)) ->
  route traffic gs -> map as_heard gs = heard ins1 ->
  st_catch B = true -> steady (st_beh B) ins1 -> (length (handlers_of (ran B ins0)) < st_fuel B)%nat -> by_id (st_types B) ->
  length oks = length (casts d insA1) /\ (In false oks -> exists l fs, st_drv A l fs <> None) /\
  exists rs, Forall2 (conveys a) (those (casts d insA1) oks) rs /\
    filter (said_of a d) (handled (n_log (ran B (ins0 ++ ins1)))) =
    filter (said_of a d) (handled (n_log (ran B ins0))) ++ flat_map (to_all (handlers_of (ran B ins0))) rs.
Proof. exact routed. Qed.
Print Assumptions C131_over_route.

(** The broadcasts of [refuse_talker] of which the driver refuses some frames,
    with another node's frames among them, over a serial line and a SocketCAN
    interface. *)
Definition route_traffic := Eval vm_compute in
  flat_map (fun f => [given 3 f; CFrame 0x03015506 [7; 0xC3]%N true false 9]) refuse_out.
Lemma route_sendable : Forall sendable route_traffic.
Proof.
  unfold route_traffic.
  repeat (constructor; [split; [split; [reflexivity|split; [repeat (constructor; [reflexivity|]); constructor|cbn; lia]]|split; [reflexivity|cbn; tauto]]|]).
  constructor.
Qed.
Example C131_over_route_case : exists gs ins1,
  route route_traffic gs /\ map as_heard gs = heard ins1 /\ steady (st_beh busy_listener) ins1 /\
  filter (of_type 42 2000) (map as_heard route_traffic) = map (fun f => as_heard (given 3 f)) (filter (of_type 42 2000) refuse_out) /\
  length (filter (of_type 42 2000) refuse_out) = 6%nat /\ (length refuse_out < length route_traffic)%nat.
Proof.
  destruct (slcan_takes slcan_params route_traffic route_sendable) as (gs & lines & reads & H & _).
  pose proof (same_all _ _ route_sendable (hop_same _ _ route_sendable H)) as S.
  destruct (packets_take 77 None 0%N 1%N 0%N gs ltac:(discriminate) S) as ((hs & P) & _).
  exists hs, (flat_map (fun g => [IFrame true (as_heard g); IPoll]) hs). split; [|split; [|split; [|split]]].
  - eapply route_on; [exact H|]. eapply route_on; [|constructor]. apply hop_socketcan.
    clear - P. induction P as [|f g fs gs (p & E) P IH]; constructor; [|exact IH]. exists p, 77. exact E.
  - clear. unfold heard. induction hs as [|x hs IH]; [reflexivity|]. cbn [map flat_map app]. rewrite IH. reflexivity.
  - split.
    + intros l op c. cbn. unfold stream_beh. destruct (last l _); try (intros []); destruct (Nat.eqb _ _); intros [].
    + intros i Hi. apply in_flat_map in Hi as (x & _ & [<-|[<-|[]]]); exact I.
  - vm_compute. reflexivity.
  - split; [reflexivity|]. vm_compute. lia.
Qed.

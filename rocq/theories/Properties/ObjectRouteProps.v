(** C151 over links and bridges: what programs build is what handlers get. *)
From Coq Require Import String.
From Verif.Base Require Import Prelude Bits.
From Verif.Model Require Import BitCodec Types Codec Prim Float MsgId Frames TransferManager Node CanFrame ObjectApi.
From Verif.Spec Require Import CodecSpec ObjectSpec FloatSpec SendableSpec NodeSpec MsgIdSpec FrameSpec SendingSpec CallSpec
  StreamSpec PacketSpec SlcanSpec BridgeSpec LinkSpec BuiltSpec.
From Verif.Proofs Require Import ObjectRoute.
From Verif.Properties Require Import NodeProps CallProps StreamProps RouteProps.
Open Scope list_scope.

(** A node broadcasts messages of a type, each built by any program, through
    any number of links and bridges. Every handler for the type at a node at
    the far end is called with the content that was built, once and in order,
    for exactly the calls of [broadcast] that returned; and they all return if
    the driver refuses nothing. *)
Theorem C151_reaches_handlers : forall env A insA insA1 a d out oks traffic gs B ins0 ins1,
  n_id (ran A insA) = Some a -> (1 <= a < 128)%N ->
  leaves_type d (st_beh A) -> dt_id (st_status_dt A) <> d -> Forall (made_for env (st_types B)) (casts d insA1) ->
  bus (n_log (ran A (insA ++ insA1))) = bus (n_log (ran A insA)) ++ out ->
  outcomes d (n_log (ran A (insA ++ insA1))) = outcomes d (n_log (ran A insA)) ++ oks ->
  Forall LinkSpec.sendable traffic ->
  Forall2 same_frame (filter (of_type a d) out) (filter (of_type a d) (map as_heard traffic)) ->
  route traffic gs -> map as_heard gs = heard ins1 ->
  st_catch B = true -> steady (st_beh B) ins1 -> List.length (handlers_of (ran B ins0)) < st_fuel B -> by_id (st_types B) ->
  List.length oks = List.length (casts d insA1) /\ (In false oks -> exists l fs, st_drv A l fs <> None) /\
  exists rs, Forall2 (conveys a) (those (casts d insA1) oks) rs /\
    filter (said_of a d) (handled (n_log (ran B (ins0 ++ ins1)))) =
    filter (said_of a d) (handled (n_log (ran B ins0))) ++ flat_map (to_all (handlers_of (ran B ins0))) rs.
Proof. exact built_routed. Qed.
Print Assumptions C151_reaches_handlers.

(** The broadcasts of the example of [C131_over_route], built by programs: the
    array is filled by the constructor, emptied and filled item by item. *)
Definition long_fields := [("data", AArr true (APrim KUint 8 Saturated) 20)]%string.
Definition long_env : catalogue := fun nm => if String.eqb nm "ns.Long" then Some (false, long_fields, []) else None.
Definition long_t := AComp "ns.Long" false long_fields [].
Definition long_program (n : N) : list op :=
  [ONew long_t [("data"%string, PList [PInt 1; PInt 2])]; OClear 0] ++ repeat (OAppend 0 (PInt (Z.of_N n))) 10.
Example C151_reaches_handlers_case :
  Forall (made_for long_env (st_types busy_listener)) (casts 2000 refuse_insA1) /\ List.length (casts 2000 refuse_insA1) = 5.
Proof.
  split; [|reflexivity].
  assert (forall n, In n [7; 8; 9; 10; 11]%N -> built_as long_env long_t (long_value n)) as B.
  { intros n Hn. exists (long_program n), 2, "ns.Long"%string, false, long_fields, [], 1, None, [].
    split.
    { constructor; [split; [|repeat constructor]|constructor; [exact I|]].
      - cbn. repeat split; try lia.
      - apply Forall_forall. intros o Ho. apply repeat_spec in Ho. subst o. exact I. }
    clear - Hn. cbn in Hn. repeat destruct Hn as [<-|Hn]; try (destruct Hn; fail).
    all: split; [vm_compute; repeat split; try lia; repeat constructor|].
    all: split; [reflexivity|]; split; [vm_compute; reflexivity|].
    all: split; [|vm_compute; reflexivity].
    all: intros a et mx items E; destruct a as [|[|[|a]]]; vm_compute in E; try discriminate; destruct a; discriminate. }
  repeat (constructor; [split; [reflexivity|split; [reflexivity|split; [reflexivity|split; [exact I|]]]];
    exists long_t; split; [reflexivity|apply B; cbn; auto 10]|]). constructor.
Qed.

(** Properties of messages that programs build: C151 and floats of C84. *)
From Coq Require Import String.
From Verif.Base Require Import Prelude Bits.
From Verif.Model Require Import BitCodec Types Codec Prim Float Utf8 ObjectApi.
From Verif.Spec Require Import PrimSpec CodecSpec ObjectSpec FloatSpec SendableSpec.
From Verif.Proofs Require Import CodecFacts CodecTop ObjectFacts ObjectTop ObjectUnions ObjectTyping ObjectInv ObjectSend ObjectFloats.
Open Scope list_scope.

(** ** C151 *)

(** Types for the examples: a structure with a number, text, a full array, a
    list of objects and a union. *)
Definition pt_fields := [("x", APrim KInt 8 Saturated); ("y", APrim KFloat 16 Saturated)]%string.
Definition pt := AComp "ns.Point" false pt_fields [].
Definition alt_fields := [("on", APrim KBool 1 Saturated); ("level", APrim KUint 7 Saturated)]%string.
Definition alt := AComp "ns.Alt" true alt_fields [].
Definition msg_fields :=
  [("pair", AArr false (APrim KUint 4 Saturated) 2); ("pad", AVoid 3); ("alt", alt);
   ("pts", AArr true pt 3); ("name", AArr true (APrim KUint 8 Saturated) 5)]%string.
Definition msg := AComp "ns.Msg" false msg_fields [("LIMIT", 3%Z)]%string.
Definition defs : catalogue := fun nm =>
  if String.eqb nm "ns.Point" then Some (false, pt_fields, [])
  else if String.eqb nm "ns.Alt" then Some (true, alt_fields, [])
  else if String.eqb nm "ns.Msg" then Some (false, msg_fields, [("LIMIT", 3%Z)]%string) else None.
(** The message is object 6, its array of points 3, its pair 0, the union 2;
    the name is 4. Object 8 is a new point. The text is too long and the
    number too large. *)
Definition build : list op :=
  [ONew msg []; ONewItem 3; OSet 8 "x" (PInt (-300)); OAppend 3 (PRef 8); OSetItem 0 1 (PInt 99);
   OSet 2 "level" (PInt 9); OSet 6 "name" (PStr [104; 105]%N); OEncode 4 [104; 105; 106; 107; 108; 109]%N;
   OAppend 4 (PStr [65]%N); OSet 6 "alt" (PRef 8)].
Lemma defs_known : known defs msg.
Proof.
  cbn. repeat match goal with |- _ /\ _ => split | |- _ = _ => reflexivity | |- True => exact Logic.I end;
    try lia; try discriminate; auto.
Qed.
Lemma build_typed : Forall (typed_op defs) build.
Proof.
  unfold build. constructor; [split; [exact defs_known|constructor]|].
  repeat constructor.
Qed.
Definition built_heap : heap := Eval vm_compute in run [] build.
Lemma built_run : run [] build = built_heap.
Proof. vm_compute. reflexivity. Qed.
Lemma build_legal : legal_run [] build.
Proof. vm_compute. repeat split; try lia. constructor. Qed.

(** Every message object that a program has built, of whatever operations,
    with whatever arguments and whichever of them raised, has a content to
    send, if the program put only objects of the right type into arrays of
    objects and selected only fields that unions have; *)
Theorem C151_has_content : forall env ops a nm u fs cs d active extra, Forall (typed_op env) ops ->
  nth_error (run [] ops) a = Some (CComp nm u fs cs d active extra) -> proper (run [] ops) ->
  exists v, reify (run [] ops) (AComp nm u fs cs) (SObj (PRef a)) = Some v.
Proof. exact sendable. Qed.
Print Assumptions C151_has_content.
Ltac each a tac := do 12 (destruct a as [|a]; [first [discriminate | solve [tac] ]|]); destruct a; discriminate.
Example C151_has_content_case : Forall (typed_op defs) build /\ proper (run [] build) /\
  exists d, nth_error (run [] build) 6 = Some (CComp "ns.Msg" false msg_fields [("LIMIT", 3%Z)]%string d None []).
Proof.
  split; [exact build_typed|]. rewrite built_run. split; [|eexists; reflexivity]. split.
  - intros a dyn nm u fs cs mx items E.
    each a ltac:(injection E as <- <- <- <- <- <- <-; constructor; [|constructor]; eexists; split; [reflexivity|];
                 do 6 eexists; reflexivity).
  - intros a nm u fs cs d f extra E.
    each a ltac:(injection E as <- <- <- <- <- <- <-; right; left; reflexivity).
Qed.

(** that content is serialised without an exception, to no more bits than the
    type's maximum, and the receiver decodes it to the same content, with
    static arrays that lost items filled up with zeros; *)
Theorem C151_sendable : forall env ops a nm u fs cs d active extra v tao, Forall (typed_op env) ops ->
  nth_error (run [] ops) a = Some (CComp nm u fs cs d active extra) ->
  let t := AComp nm u fs cs in
  reify (run [] ops) t (SObj (PRef a)) = Some v ->
  exists bs, pack (erase t) tao v = Ok bs /\ List.length bs <= get_max_bitlen (erase t) /\
    exists v' rest, unpack (erase t) tao bs = Ok (v', rest) /\ valid (erase t) v' /\
      content (erase t) v' = content (erase t) (clip (erase t) v).
Proof. exact sendable_clipped. Qed.
Print Assumptions C151_sendable.

(** to exactly the same content if no static array has lost items. *)
Theorem C151_sendable_exact : forall env ops a nm u fs cs d active extra v tao,
  Forall (typed_op env) ops -> legal_run [] ops ->
  nth_error (run [] ops) a = Some (CComp nm u fs cs d active extra) -> statics_full (run [] ops) ->
  let t := AComp nm u fs cs in
  reify (run [] ops) t (SObj (PRef a)) = Some v ->
  exists bs, pack (erase t) tao v = Ok bs /\ List.length bs <= get_max_bitlen (erase t) /\
    exists v' rest, unpack (erase t) tao bs = Ok (v', rest) /\ valid (erase t) v' /\
      content (erase t) v' = content (erase t) v.
Proof. exact sendable_exact. Qed.
Print Assumptions C151_sendable_exact.
Example C151_sendable_exact_case : Forall (typed_op defs) build /\ legal_run [] build /\ statics_full (run [] build) /\
  exists v bs, reify (run [] build) msg (SObj (PRef 6)) = Some v /\ pack (erase msg) true v = Ok bs /\ 40 < List.length bs.
Proof.
  split; [exact build_typed|]. split; [exact build_legal|]. rewrite built_run. split.
  - intros a et mx items E. each a ltac:(injection E as <- <- <-; reflexivity).
  - eexists. eexists. split; [vm_compute; reflexivity|]. split; [vm_compute; reflexivity|]. vm_compute. repeat constructor.
Qed.

(** False in full: items of a static array can be deleted, and the receiver
    gets zeros instead; *)
Definition shrunk : list op := build ++ [ODel 0 0].
Definition shrunk_heap : heap := Eval vm_compute in run [] shrunk.
Definition shrunk_value : value :=
  Eval vm_compute in match reify shrunk_heap msg (SObj (PRef 6)) with Some v => v | None => VVoid end.
Definition shrunk_bits : bits := Eval vm_compute in match pack (erase msg) true shrunk_value with Ok b => b | Err _ => [] end.
Definition shrunk_arrived : value :=
  Eval vm_compute in match unpack (erase msg) true shrunk_bits with Ok (v, _) => v | Err _ => VVoid end.
Theorem C151_unchanged_refuted : exists env ops a nm u fs cs d active extra v bs v' rest,
  Forall (typed_op env) ops /\ legal_run [] ops /\
  nth_error (run [] ops) a = Some (CComp nm u fs cs d active extra) /\
  let t := AComp nm u fs cs in
  reify (run [] ops) t (SObj (PRef a)) = Some v /\ pack (erase t) true v = Ok bs /\
  unpack (erase t) true bs = Ok (v', rest) /\ content (erase t) v' <> content (erase t) v.
Proof.
  exists defs, shrunk, 6, "ns.Msg"%string, false, msg_fields, [("LIMIT", 3%Z)]%string, 5, None, [], shrunk_value,
    shrunk_bits, shrunk_arrived, [].
  split; [apply Forall_app; split; [exact build_typed|repeat constructor]|].
  split; [vm_compute; repeat split; try lia; constructor|].
  split; [vm_compute; reflexivity|]. split; [vm_compute; reflexivity|].
  split; [vm_compute; reflexivity|]. split; [vm_compute; reflexivity|].
  vm_compute. discriminate.
Qed.
Print Assumptions C151_unchanged_refuted.
(** arrays of objects take objects of any type, and unions can be switched to
    names that are no fields: there is no content to send then. *)
Theorem C151_any_program_refuted : exists env ops a nm u fs cs d active extra,
  Forall (typed_op env) ops /\ legal_run [] ops /\
  nth_error (run [] ops) a = Some (CComp nm u fs cs d active extra) /\
  reify (run [] ops) (AComp nm u fs cs) (SObj (PRef a)) = None.
Proof.
  exists defs, (build ++ [OAppend 3 (PRef 2)]), 6, "ns.Msg"%string, false, msg_fields, [("LIMIT", 3%Z)]%string, 5, None, [].
  split; [apply Forall_app; split; [exact build_typed|repeat constructor]|].
  split; [vm_compute; repeat split; try lia; constructor|].
  split; vm_compute; reflexivity.
Qed.
Print Assumptions C151_any_program_refuted.

(** ** C84: float fields *)

(** A number given for a float field, an integer or a float, reads back as
    the nearest number that the field can hold. *)
Theorem C84_float_field : forall h a nm u fs cs act f i n cm v q,
  object_at h a (AComp nm u fs cs) act -> open_field h a f -> (exists s, field_slot h a f = Some s) ->
  find_field fs f = Some (i, APrim KFloat n cm) -> ~ In f (map fst cs) ->
  (n = 16 \/ n = 32 \/ n = 64) -> stands_for v q ->
  exists h' y, step h (OSet a f v) = (Ok PNone, h') /\ step h' (OGet a f) = (Ok (PFloat y), h') /\ reads_near n cm q y.
Proof. exact float_field. Qed.
Print Assumptions C84_float_field.
Definition one_point : heap := run [] [ONew pt []].
Example C84_float_field_case : object_at one_point 1 pt None /\ open_field one_point 1 "y" /\
  (exists s, field_slot one_point 1 "y" = Some s) /\ stands_for (PInt (-3)) (-3 * 2 ^ 1074) /\
  exists h' y, step one_point (OSet 1 "y" (PInt (-3))) = (Ok PNone, h') /\
    step h' (OGet 1 "y") = (Ok (PFloat y), h') /\ units y = Some (-3 * 2 ^ 1074)%Z.
Proof.
  split; [eexists; eexists; reflexivity|]. split.
  { intros nm u fs cs d act extra E U. vm_compute in E. injection E as <- <- <- <- <- <- <-. discriminate. }
  split; [eexists; reflexivity|]. split; [split; [reflexivity|reflexivity]|].
  eexists. eexists. split; [vm_compute; reflexivity|]. split; [vm_compute; reflexivity|]. vm_compute. reflexivity.
Qed.

(** Properties of the message objects that handlers get: C152. *)
From Coq Require Import String.
From Verif.Base Require Import Prelude Bits.
From Verif.Model Require Import BitCodec Types Codec Prim Float Utf8 ObjectApi ObjectUnpack.
From Verif.Spec Require Import PrimSpec CodecSpec ObjectSpec FloatSpec SendableSpec ReceiveSpec.
From Verif.Proofs Require Import ObjectSend ObjectLoad ObjectLoadInv ObjectView ObjectReceive.
From Verif.Properties Require Import ObjectSendProps.
Open Scope list_scope.
Local Open Scope nat_scope.

(** ** C152 *)

(** The message sent in the examples, and a receiver that had another message
    before and changed it. *)
Definition sent_value : value :=
  Eval vm_compute in match reify built_heap msg (SObj (PRef 6)) with Some v => v | None => VVoid end.
Definition sent_bits : bits := Eval vm_compute in match pack (erase msg) true sent_value with Ok b => b | Err _ => [] end.
Definition before : list happening := [Arrived alt true [true; false; false; false; false; false; true; true]; Did (OSet 1 "level" (PInt 5))].
Definition got_heap : heap := Eval vm_compute in snd (receive (history before) msg true sent_bits).
Lemma msg_names : distinct_names msg.
Proof. cbn. repeat split; repeat constructor; cbn; intuition discriminate. Qed.
Lemma before_typed : Forall (typed_happening defs) before.
Proof.
  constructor; [|constructor; [exact Logic.I|constructor]]. cbn.
  repeat match goal with |- _ /\ _ => split | |- _ = _ => reflexivity | |- True => exact Logic.I end; try lia; auto.
Qed.
Lemma did_typed env ops : Forall (typed_op env) ops -> Forall (typed_happening env) (map Did ops).
Proof. intros F. apply Forall_map. exact F. Qed.
Lemma built_statics : statics_full (run [] build).
Proof. rewrite built_run. intros a et mx items E. each a ltac:(injection E as <- <- <-; reflexivity). Qed.
Lemma sent_reify : reify (run [] build) msg (SObj (PRef 6)) = Some sent_value.
Proof. vm_compute. reflexivity. Qed.
Lemma sent_valid : valid (erase msg) sent_value.
Proof.
  apply (program_valid defs build 6 "ns.Msg" false msg_fields [("LIMIT", 3%Z)]%string 5 None []);
    [exact build_typed|exact build_legal|vm_compute; reflexivity|exact built_statics|exact sent_reify].
Qed.
Lemma sent_selected : selected (erase msg) sent_value.
Proof.
  cbn. split; [repeat constructor|]. split; [exact Logic.I|].
  split. { exists 1. do 2 eexists. split; [reflexivity|]. split; [reflexivity|]. split; [reflexivity|exact Logic.I]. }
  split; [repeat constructor|]. split; [repeat constructor|exact Logic.I].
Qed.

(** The object that is made of the bits of a message has the content that
    decoding gives, and receiving raises what decoding raises. Objects that
    were there before are as they were, and the new object shares nothing with
    them. *)
Theorem C152_received : forall t h tao s, distinct_names t -> (exists nm u fs cs, t = AComp nm u fs cs) ->
  match unpack (erase t) tao s with
  | Ok (v, _) => exists a h', receive h t tao s = (Ok a, h') /\
      reify h' t (SObj (PRef a)) = Some v /\
      (forall b, b < List.length h -> nth_error h' b = nth_error h b) /\
      List.length h <= a < List.length h' /\
      (forall b c, List.length h <= b -> nth_error h' b = Some c -> cell_refs (fun r => List.length h <= r < List.length h') c)
  | Err e => fst (receive h t tao s) = Err e
  end.
Proof. exact receive_ok. Qed.
Print Assumptions C152_received.
Example C152_received_case : distinct_names msg /\ (exists nm u fs cs, msg = AComp nm u fs cs) /\
  (exists v rest, unpack (erase msg) true sent_bits = Ok (v, rest)) /\
  fst (receive (history before) msg true sent_bits) = Ok 8 /\
  unpack (erase msg) true [true] = Err ValueError /\ fst (receive (history before) msg true [true]) = Err ValueError.
Proof.
  split; [exact msg_names|]. split; [do 4 eexists; reflexivity|]. split; [do 2 eexists; vm_compute; reflexivity|].
  repeat split; vm_compute; reflexivity.
Qed.

(** Whatever a program does and whatever messages reach it in between, its
    message objects, its own ones and those it got, stay such that they can be
    sent: the receiver gets the same content, with arrays cut or filled up to
    their size. *)
Theorem C152_forwardable : forall env es a nm u fs cs d active extra v tao,
  Forall (typed_happening env) es ->
  nth_error (history es) a = Some (CComp nm u fs cs d active extra) ->
  let t := AComp nm u fs cs in
  reify (history es) t (SObj (PRef a)) = Some v ->
  exists bs, pack (erase t) tao v = Ok bs /\ List.length bs <= get_max_bitlen (erase t) /\
    exists v' rest, unpack (erase t) tao bs = Ok (v', rest) /\ valid (erase t) v' /\
      content (erase t) v' = content (erase t) (clip (erase t) v).
Proof. exact forwardable. Qed.
Print Assumptions C152_forwardable.
Example C152_forwardable_case : Forall (typed_happening defs) before /\
  (exists d act, nth_error (history before) 1 = Some (CComp "ns.Alt" true alt_fields [] d act [])) /\
  exists v, reify (history before) alt (SObj (PRef 1)) = Some v.
Proof.
  split; [exact before_typed|]. split; [do 2 eexists; vm_compute; reflexivity|]. eexists. vm_compute. reflexivity.
Qed.

(** False in full: a handler need not see what the sender sees. A union that
    the sender has not decided reads, at the sender, as whatever is asked for;
    at the receiver only the first field can be read. *)
Definition undecided : list happening := [Did (ONew alt [])].
Definition undecided_value : value :=
  Eval vm_compute in match reify (history undecided) alt (SObj (PRef 1)) with Some v => v | None => VVoid end.
Definition undecided_bits : bits := Eval vm_compute in match pack (erase alt) true undecided_value with Ok b => b | Err _ => [] end.
Definition undecided_heap : heap := Eval vm_compute in snd (receive [] alt true undecided_bits).
Lemma undecided_valid : valid (erase alt) undecided_value.
Proof.
  apply (program_valid defs [ONew alt []] 1 "ns.Alt" true alt_fields [] 0 None []).
  - constructor; [|constructor]. split; [|constructor]. cbn.
    repeat match goal with |- _ /\ _ => split | |- _ = _ => reflexivity | |- True => exact Logic.I end; try lia; auto.
  - vm_compute. repeat split; try lia. constructor.
  - vm_compute. reflexivity.
  - intros a et mx items E. vm_compute in E. do 2 (destruct a as [|a]; [discriminate|]). destruct a; discriminate.
  - vm_compute. reflexivity.
Qed.
Theorem C152_same_view_refuted : exists env es a nm u fs cs d active extra v bs b h' path,
  Forall (typed_happening env) es /\ nth_error (history es) a = Some (CComp nm u fs cs d active extra) /\
  let t := AComp nm u fs cs in
  distinct_names t /\ reify (history es) t (SObj (PRef a)) = Some v /\ valid (erase t) v /\
  pack (erase t) true v = Ok bs /\ receive [] t true bs = (Ok b, h') /\ declared t path /\
  view (history es) (PRef a) path = Ok (Number (PInt 0)) /\ view h' (PRef b) path = Err AttributeError.
Proof.
  exists defs, undecided, 1, "ns.Alt"%string, true, alt_fields, [], 0, None, [], undecided_value, undecided_bits, 1, undecided_heap,
    [Attr "level"%string].
  split.
  { constructor; [|constructor]. split; [|constructor]. cbn.
    repeat match goal with |- _ /\ _ => split | |- _ = _ => reflexivity | |- True => exact Logic.I end; try lia; auto. }
  split; [vm_compute; reflexivity|].
  split. { cbn. repeat split. repeat constructor; cbn; intuition discriminate. }
  split; [vm_compute; reflexivity|]. split; [exact undecided_valid|].
  split; [vm_compute; reflexivity|]. split; [vm_compute; reflexivity|].
  split. { right. do 2 eexists. split; [reflexivity|exact Logic.I]. }
  split; vm_compute; reflexivity.
Qed.
Print Assumptions C152_same_view_refuted.
(** For messages that fit their type and whose unions are decided, it holds,
    whatever sender and receiver have done and got before: reading along any
    path of declared fields, constants and items gives the same number, text,
    length or exception at both ends. [pad] is what the last byte, or a CAN FD
    frame, is filled up with. Missing: undecided unions, attributes that are
    not fields, arrays of the wrong size. *)
Theorem C152_same_view_partial : forall env es a nm u fs cs d active extra v tao bs es' pad,
  Forall (typed_happening env) es -> Forall (typed_happening env) es' ->
  nth_error (history es) a = Some (CComp nm u fs cs d active extra) ->
  let t := AComp nm u fs cs in
  distinct_names t -> reify (history es) t (SObj (PRef a)) = Some v -> valid (erase t) v -> selected (erase t) v ->
  pack (erase t) tao v = Ok bs -> (tao = true -> List.length pad < 8) ->
  exists b h', receive (history es') t tao (bs ++ pad) = (Ok b, h') /\
    forall path, declared t path -> view h' (PRef b) path = view (history es) (PRef a) path.
Proof. exact same_view. Qed.
Print Assumptions C152_same_view_partial.
Example C152_same_view_case : Forall (typed_happening defs) (map Did build) /\ Forall (typed_happening defs) before /\
  history (map Did build) = run [] build /\
  distinct_names msg /\ reify (run [] build) msg (SObj (PRef 6)) = Some sent_value /\ valid (erase msg) sent_value /\
  selected (erase msg) sent_value /\ pack (erase msg) true sent_value = Ok sent_bits /\
  receive (history before) msg true (sent_bits ++ [false; true]) = (Ok 8, got_heap) /\
  declared msg [Attr "pts"; Item 0; Attr "x"]%string /\
  view got_heap (PRef 8) [Attr "pts"; Item 0; Attr "x"]%string = Ok (Number (PInt (-128))) /\
  view got_heap (PRef 8) [Attr "name"]%string = Ok (List_of 5 (Ok [104; 105; 106; 107; 108]%N)) /\
  view got_heap (PRef 8) [Attr "alt"; Attr "on"]%string = Err AttributeError /\
  view got_heap (PRef 8) [Attr "pts"; Item 1]%string = Err IndexError.
Proof.
  split; [exact (did_typed _ _ build_typed)|]. split; [exact before_typed|]. split; [exact (history_run build)|].
  split; [exact msg_names|]. split; [exact sent_reify|]. split; [exact sent_valid|]. split; [exact sent_selected|].
  split; [vm_compute; reflexivity|]. split; [vm_compute; reflexivity|].
  split. { right. exists 3. eexists. split; [reflexivity|]. cbn. right. exists 0. eexists. split; [reflexivity|exact Logic.I]. }
  repeat split; vm_compute; reflexivity.
Qed.

(** Messages that programs build with the methods of the API fit their type,
    if no static array lost items. *)
Theorem C152_fits : forall env ops a nm u fs cs d active extra v, Forall (typed_op env) ops -> legal_run [] ops ->
  nth_error (run [] ops) a = Some (CComp nm u fs cs d active extra) -> statics_full (run [] ops) ->
  reify (run [] ops) (AComp nm u fs cs) (SObj (PRef a)) = Some v -> valid (erase (AComp nm u fs cs)) v.
Proof. exact program_valid. Qed.
Print Assumptions C152_fits.
Example C152_fits_case : Forall (typed_op defs) build /\ legal_run [] build /\ statics_full (run [] build) /\
  reify (run [] build) msg (SObj (PRef 6)) = Some sent_value.
Proof. split; [exact build_typed|]. split; [exact build_legal|]. split; [exact built_statics|exact sent_reify]. Qed.

(** In particular: an integer that the field can hold arrives as that
    integer, *)
Theorem C152_number_arrives : forall env es a nm u fs cs act f i k n cm z v tao bs es' pad,
  let h := history es in let t := AComp nm u fs cs in
  object_at h a t act -> open_field h a f -> (exists s, field_slot h a f = Some s) ->
  find_field fs f = Some (i, APrim k n cm) -> ~ In f (map fst cs) -> int_type k n -> representable k n z ->
  let es1 := es ++ [Did (OSet a f (PInt z))] in
  Forall (typed_happening env) es -> Forall (typed_happening env) es' -> distinct_names t ->
  reify (history es1) t (SObj (PRef a)) = Some v -> valid (erase t) v -> selected (erase t) v ->
  pack (erase t) tao v = Ok bs -> (tao = true -> List.length pad < 8) ->
  exists b h', receive (history es') t tao (bs ++ pad) = (Ok b, h') /\ fst (step h' (OGet b f)) = Ok (PInt z).
Proof. exact number_arrives. Qed.
Print Assumptions C152_number_arrives.
Definition leveled : list happening := undecided ++ [Did (OSet 1 "level" (PInt 77))].
Definition leveled_value : value :=
  Eval vm_compute in match reify (history leveled) alt (SObj (PRef 1)) with Some v => v | None => VVoid end.
Definition leveled_bits : bits := Eval vm_compute in match pack (erase alt) true leveled_value with Ok b => b | Err _ => [] end.
Example C152_number_case : object_at (history undecided) 1 alt None /\ open_field (history undecided) 1 "level" /\
  field_slot (history undecided) 1 "level" = Some (SPrim (repeat false 7)) /\
  find_field alt_fields "level" = Some (1, APrim KUint 7 Saturated) /\ representable KUint 7 77 /\
  reify (history leveled) alt (SObj (PRef 1)) = Some leveled_value /\ selected (erase alt) leveled_value /\
  pack (erase alt) true leveled_value = Ok leveled_bits /\
  fst (step (snd (receive [] alt true leveled_bits)) (OGet 1 "level")) = Ok (PInt 77).
Proof.
  split; [do 2 eexists; vm_compute; reflexivity|].
  split. { intros full u fs cs d act ex E _. vm_compute in E. injection E as <- <- <- <- <- <- <-. left. reflexivity. }
  split; [vm_compute; reflexivity|]. split; [reflexivity|]. split; [unfold representable; cbn; lia|].
  split; [vm_compute; reflexivity|]. split. { cbn. exists 1. do 2 eexists. split; [reflexivity|]. split; [reflexivity|]. split; [reflexivity|exact Logic.I]. }
  split; vm_compute; reflexivity.
Qed.
(** and text that fits arrives as that text. *)
Theorem C152_text_arrives : forall env es a nm fs cs act f i cm mx c s v tao bs es' pad,
  let h := history es in let t := AComp nm false fs cs in
  object_at h a t act -> find_field fs f = Some (i, AArr true (APrim KUint 8 cm) mx) ->
  text_field h a f c KUint mx -> Forall scalar s -> utf8_size s <= mx ->
  let es1 := es ++ [Did (OSet a f (PStr s))] in
  Forall (typed_happening env) es -> Forall (typed_happening env) es' -> distinct_names t ->
  reify (history es1) t (SObj (PRef a)) = Some v -> valid (erase t) v -> selected (erase t) v ->
  pack (erase t) tao v = Ok bs -> (tao = true -> List.length pad < 8) ->
  exists b h' r, receive (history es') t tao (bs ++ pad) = (Ok b, h') /\ step h' (OGet b f) = (Ok (PRef r), h') /\
    step h' (ODecode r) = (Ok (PStr s), h').
Proof. exact text_arrives. Qed.
Print Assumptions C152_text_arrives.
(** The euro sign and a letter take four bytes of the five. *)
Definition named_run : list happening := map Did build ++ [Did (OSet 6 "name" (PStr [0x20AC; 65]%N))].
Definition named_value : value :=
  Eval vm_compute in match reify (history named_run) msg (SObj (PRef 6)) with Some v => v | None => VVoid end.
Definition named_bits : bits := Eval vm_compute in match pack (erase msg) true named_value with Ok b => b | Err _ => [] end.
Example C152_text_case : object_at (history (map Did build)) 6 msg None /\
  text_field (history (map Did build)) 6 "name" 4 KUint 5 /\ Forall scalar [0x20AC; 65]%N /\ utf8_size [0x20AC; 65]%N <= 5 /\
  reify (history named_run) msg (SObj (PRef 6)) = Some named_value /\ pack (erase msg) true named_value = Ok named_bits /\
  let h' := snd (receive [] msg true named_bits) in
  fst (step h' (OGet 6 "name")) = Ok (PRef 4) /\ fst (step h' (ODecode 4)) = Ok (PStr [0x20AC; 65]%N).
Proof.
  split; [do 2 eexists; vm_compute; reflexivity|].
  split. { split; [|split].
    - do 12 eexists. split; [vm_compute; reflexivity|]. repeat (split; [vm_compute; reflexivity|]). vm_compute. reflexivity.
    - intros full u fs cs d act ex H Hu. vm_compute in H. injection H as <- <- <- <- <- <- <-. discriminate.
    - eexists. eexists. vm_compute. reflexivity. }
  split; [repeat constructor; unfold scalar; lia|]. split; [unfold representable; cbn; lia|].
  repeat split; vm_compute; reflexivity.
Qed.

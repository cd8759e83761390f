(** Properties of the ESC control program: C154. *)
From Coq Require Import String.
From Verif.Base Require Import Prelude Bits.
From Verif.Model Require Import BitCodec Types Codec Prim ObjectApi Slcan Parser Hobbywing.
From Verif.Spec Require Import PrimSpec ObjectSpec ConstructSpec ParserSpec GrammarSpec PathSpec HobbywingSpec.
From Verif.Proofs Require Import CodecFacts PrimFacts ObjectArrays ConstructFacts PathFacts HobbywingFacts.
Open Scope list_scope.
Local Open Scope nat_scope.

(** ** C154

    The full statement is: a command with as many numbers as it asks for sends
    a message of its type with these numbers in its fields, whatever follows
    them; other arguments make the program say how it is used, and nothing is
    sent. *)

(** The commands that copy arguments to fields. *)
Theorem C154_sends : forall class h command cls fields nm fs cs texts zs more, In (command, (cls, fields)) forms ->
  class cls = AComp nm false fs cs -> Forall2 PathSpec.decimal_text texts zs -> List.length texts = List.length fields ->
  Forall (integer_for fs cs) (map (fun e => (fst e, PInt (snd e))) (combine fields zs)) ->
  exists h' a, main class h command (texts ++ more) = Requests h' a /\ filled h (class cls) (combine fields zs) h' a.
Proof. exact sends. Qed.
Print Assumptions C154_sends.

(** Types of this kind. *)
Definition u8 := APrim KUint 8 Saturated.
Definition classes (cls : string) : atype :=
  if String.eqb cls "SetLED.Request" then AComp "esc.SetLED" false [("option", u8); ("color", u8); ("blink", u8)]%string []
  else if String.eqb cls "SetBaud.Request" then
    AComp "esc.SetBaud" false [("baud", u8)]%string (map (fun r => (snd r, if (fst r =? 50000)%Z then 5%Z else 0%Z)) bauds)
  else if String.eqb cls "SetReportingFrequency.Request" then
    AComp "esc.SetReportingFrequency" false [("option", u8); ("MSG_ID", APrim KUint 16 Saturated); ("rate", u8)]%string
      (("OPTION_WRITE"%string, 1%Z) :: map (fun r => (snd r, if (fst r =? 10)%Z then 6%Z else 0%Z)) rates)
  else if String.eqb cls "RawCommand" then AComp "esc.RawCommand" false [("command", AArr true (APrim KInt 14 Saturated) 8)]%string []
  else if String.eqb cls "GetEscID" then AComp "esc.GetEscID" false [("payload", AArr true u8 3)]%string []
  else AComp "esc.Other" false [("option", u8)]%string [].
Definition read_fields (o : outcome) (names : list string) : list (res pyval) :=
  match o with Requests h a => map (fun f => fst (step h (OGet a f))) names | _ => [] end.
Lemma decimal_of s z : py_int 10 s = Ok z -> PathSpec.decimal_text s z.
Proof. apply py_int10. Qed.
Ltac integer_field := split; [intros (r & R); discriminate|split; [cbn; intuition discriminate|]]; do 5 eexists;
  split; [reflexivity|]; split; [cbn; lia|]; split; [|reflexivity]; unfold representable; cbn; lia.
Example C154_sends_case :
  Forall2 PathSpec.decimal_text [txt "1"; txt " 4 "; txt "0_2"]%string [1; 4; 2]%Z /\
  Forall (integer_for [("option", u8); ("color", u8); ("blink", u8)]%string [])
    (map (fun e => (fst e, PInt (snd e))) (combine ["option"; "color"; "blink"]%string [1; 4; 2]%Z)) /\
  read_fields (main classes [] "SetLED" [txt "1"; txt " 4 "; txt "0_2"; txt "x"]%string) ["option"; "color"; "blink"]%string =
    [Ok (PInt 1); Ok (PInt 4); Ok (PInt 2)].
Proof.
  split; [|split; [|vm_compute; reflexivity]].
  - constructor; [apply decimal_of; reflexivity|]. constructor; [apply decimal_of; vm_compute; reflexivity|].
    constructor; [apply decimal_of; reflexivity|constructor].
  - constructor; [integer_field|]. constructor; [integer_field|]. constructor; [integer_field|constructor].
Qed.

(** A bit rate that is offered is sent as the constant that stands for it, *)
Theorem C154_baud : forall class h nm fs cs z const v s more, class "SetBaud.Request"%string = AComp nm false fs cs ->
  has_constants cs bauds -> In (z, const) bauds -> constant_is cs const v -> integer_for fs cs ("baud"%string, PInt v) ->
  PathSpec.decimal_text s z ->
  exists h' a, main class h "SetBaud" (s :: more) = Requests h' a /\ filled h (AComp nm false fs cs) [("baud"%string, v)] h' a.
Proof. exact baud_set. Qed.
Print Assumptions C154_baud.
Example C154_baud_case : In (50000%Z, "BAUD_50KBPS"%string) bauds /\
  constant_is (map (fun r => (snd r, if (fst r =? 50000)%Z then 5%Z else 0%Z)) bauds) "BAUD_50KBPS" 5 /\
  has_constants (map (fun r => (snd r, if (fst r =? 50000)%Z then 5%Z else 0%Z)) bauds) bauds /\
  read_fields (main classes [] "SetBaud" [txt "50000"]%string) ["baud"]%string = [Ok (PInt 5)].
Proof.
  split; [cbn; tauto|]. split; [|split; [|vm_compute; reflexivity]].
  - exists (firstn 5 (map (fun r => (snd r, if (fst r =? 50000)%Z then 5%Z else 0%Z)) bauds)), []. split; [reflexivity|].
    cbn. intuition discriminate.
  - intros key nm I. rewrite map_map. cbn [fst]. exact (in_map snd _ _ I).
Qed.
(** a rate of reports likewise, with the number of the message. *)
Theorem C154_rate : forall class h nm fs cs z w v s t more id const, class "SetReportingFrequency.Request"%string = AComp nm false fs cs ->
  has_constants cs rates -> constant_is cs "OPTION_WRITE" w -> In (z, const) rates -> constant_is cs const v ->
  integer_for fs cs ("option"%string, PInt w) -> integer_for fs cs ("MSG_ID"%string, PInt id) ->
  integer_for fs cs ("rate"%string, PInt v) -> PathSpec.decimal_text s id -> PathSpec.decimal_text t z ->
  exists h' a, main class h "SetReportingFrequency" (s :: t :: more) = Requests h' a /\
    filled h (AComp nm false fs cs) [("option", w); ("MSG_ID", id); ("rate", v)]%string h' a.
Proof. exact rate_set. Qed.
Print Assumptions C154_rate.
Example C154_rate_case : In (10%Z, "RATE_10HZ"%string) rates /\ PathSpec.decimal_text (txt "20050"%string) 20050 /\
  integer_for [("option", u8); ("MSG_ID", APrim KUint 16 Saturated); ("rate", u8)]%string [] ("MSG_ID"%string, PInt 20050) /\
  read_fields (main classes [] "SetReportingFrequency" [txt "20050"; txt "10"]%string) ["option"; "MSG_ID"; "rate"]%string =
    [Ok (PInt 1); Ok (PInt 20050); Ok (PInt 6)].
Proof. split; [cbn; tauto|]. split; [apply decimal_of; vm_compute; reflexivity|]. split; [integer_field|vm_compute; reflexivity]. Qed.

(** Throttles are sent as they are, unless there are more than the message
    can hold; then an exception ends the program. *)
Theorem C154_throttles : forall class h nm fs cs i et mx texts zs, class "RawCommand"%string = AComp nm false fs cs ->
  ~ In "command"%string (map fst cs) -> find_field fs "command" = Some (i, AArr true et mx) ->
  texts <> [] -> Forall2 PathSpec.decimal_text texts zs -> Forall (keeps et) (map PInt zs) ->
  if List.length texts <=? mx
  then exists h' a b, main class h "RawCommand" texts = Repeats h' a /\ field_array h' a "command" b /\ reads_as h' b (map PInt zs)
  else main class h "RawCommand" texts = Raises AttributeError.
Proof. exact throttles. Qed.
Print Assumptions C154_throttles.
Example C154_throttles_case : let l := [txt "8191"; txt "-8192"; txt "0"]%string in
  Forall2 PathSpec.decimal_text l [8191; -8192; 0]%Z /\ Forall (keeps (APrim KInt 14 Saturated)) (map PInt [8191; -8192; 0]%Z) /\
  main classes [] "RawCommand" (l ++ l ++ l) = Raises AttributeError /\
  match main classes [] "RawCommand" l with
  | Repeats h a => map (arr_getitem h 0) [0; 1; 2]%Z = [Ok (PInt 8191); Ok (PInt (-8192)); Ok (PInt 0)] /\
      fst (step h (OGet a "command")) = Ok (PRef 0)
  | _ => False
  end.
Proof.
  cbv zeta. split; [|split; [|split; [vm_compute; reflexivity|vm_compute; split; reflexivity]]].
  - constructor; [apply decimal_of; vm_compute; reflexivity|]. constructor; [apply decimal_of; vm_compute; reflexivity|].
    constructor; [apply decimal_of; vm_compute; reflexivity|constructor].
  - assert (forall z, (-8192 <= z <= 8191)%Z -> keeps (APrim KInt 14 Saturated) (PInt z)) as K.
    { intros z B. split; [cbn; lia|]. exists z. split; [reflexivity|]. unfold representable. cbn. lia. }
    constructor; [apply K; lia|]. constructor; [apply K; lia|]. constructor; [apply K; lia|constructor].
Qed.
Theorem C154_esc_id : forall class h nm fs cs i et mx s z more, class "GetEscID"%string = AComp nm false fs cs ->
  ~ In "payload"%string (map fst cs) -> find_field fs "payload" = Some (i, AArr true et mx) -> 0 < mx ->
  PathSpec.decimal_text s z -> keeps et (PInt z) ->
  exists h' a b, main class h "GetESCId" (s :: more) = Broadcasts h' a /\ field_array h' a "payload" b /\ reads_as h' b [PInt z].
Proof. exact esc_id. Qed.
Print Assumptions C154_esc_id.
Example C154_esc_id_case : find_field [("payload", AArr true u8 3)]%string "payload" = Some (0, AArr true u8 3) /\ keeps u8 (PInt 200) /\
  match main classes [] "GetESCId" [txt "200"]%string with
  | Broadcasts h a => fst (step h (OGet a "payload")) = Ok (PRef 0) /\ arr_getitem h 0 0 = Ok (PInt 200)
  | _ => False
  end.
Proof.
  split; [reflexivity|]. split; [|vm_compute; split; reflexivity].
  split; [cbn; lia|]. exists 200%Z. split; [reflexivity|]. unfold representable. cbn. lia.
Qed.

(** Too few arguments: the program prints how the command is used. *)
Theorem C154_usage : forall class h command n args, In (command, n) arity -> List.length args < n ->
  (forall cls, exists nm u fs cs, class cls = AComp nm u fs cs) ->
  (forall nm u fs cs, class "SetBaud.Request"%string = AComp nm u fs cs -> has_constants cs bauds) ->
  main class h command args = Prints.
Proof. exact usage. Qed.
Print Assumptions C154_usage.
(** An unknown command ends it with a status other than zero. *)
Theorem C154_unknown : forall class h command args, ~ In command (map fst arity) -> main class h command args = Exits 1.
Proof. exact unknown. Qed.
Print Assumptions C154_unknown.
(** Nothing is sent unless all the numbers that the command asks for are
    numbers. *)
Theorem C154_numbers : forall class h command n args i t, In (command, n) arity ->
  i < n \/ command = "RawCommand"%string -> nth_error args i = Some t ->
  sent (main class h command args) -> exists z, PathSpec.decimal_text t z.
Proof.
  intros class h command n args i t I [L| ->] N SE; [exact (arguments_numbers class h command n args i t I L N SE)|].
  exact (throttle_numbers class h args t (nth_error_In _ _ N) SE).
Qed.
Print Assumptions C154_numbers.
Example C154_usage_case : In ("SetLED"%string, 3) arity /\ main classes [] "SetLED" [txt "1"; txt "2"]%string = Prints /\
  main classes [] "SetBaud" [] = Prints /\ main classes [] "setled" [txt "1"]%string = Exits 1 /\
  main classes [] "SetLED" [txt "1"; txt "2"; txt "x"]%string = Raises ValueError /\
  main classes [] "RawCommand" [txt "1"; txt "2"; txt "1.5"]%string = Raises ValueError.
Proof. vm_compute. repeat split; tauto. Qed.

(** It is false for other bit rates and rates: the message that is to name the
    valid ones cannot be made, and [TypeError] is raised instead, always. *)
Theorem C154_valid_refuted : exists class h s t, PathSpec.decimal_text s 115200 /\ PathSpec.decimal_text t 20050 /\
  main class h "SetBaud" [s] = Raises TypeError /\ main class h "SetReportingFrequency" [t; s] = Raises TypeError.
Proof.
  exists classes, [], (txt "115200"%string), (txt "20050"%string). split; [apply decimal_of; vm_compute; reflexivity|].
  split; [apply decimal_of; vm_compute; reflexivity|]. split; vm_compute; reflexivity.
Qed.
Print Assumptions C154_valid_refuted.
Theorem C154_invalid_partial : forall class h nm fs cs nm' fs' cs' z id w s t more more',
  class "SetBaud.Request"%string = AComp nm false fs cs -> has_constants cs bauds -> PathSpec.decimal_text s z ->
  class "SetReportingFrequency.Request"%string = AComp nm' false fs' cs' -> has_constants cs' rates ->
  constant_is cs' "OPTION_WRITE" w -> integer_for fs' cs' ("option"%string, PInt w) -> integer_for fs' cs' ("MSG_ID"%string, PInt id) ->
  PathSpec.decimal_text t id ->
  (~ In z (map fst bauds) -> main class h "SetBaud" (s :: more) = Raises TypeError) /\
  (~ In z (map fst rates) -> main class h "SetReportingFrequency" (t :: s :: more') = Raises TypeError).
Proof.
  intros class h nm fs cs nm' fs' cs' z id w s t more more' C1 H1 T C2 H2 W IO IM T2. split; intros NI.
  - exact (baud_other class h nm fs cs z s more C1 H1 NI T).
  - exact (rate_other class h nm' fs' cs' z w t s more' id C2 H2 W NI IO IM T2 T).
Qed.
Print Assumptions C154_invalid_partial.

(** Properties of the example programs that broadcast messages: C157. *)
From Coq Require Import String.
From Verif.Base Require Import Prelude Bits.
From Verif.Model Require Import BitCodec Types Codec Prim Float ObjectApi Publishers.
From Verif.Spec Require Import PrimSpec FloatSpec ObjectSpec NumberSpec PublishSpec.
From Verif.Proofs Require Import PublishFacts PublishText.
Open Scope list_scope.
Local Open Scope nat_scope.

(** ** C157 *)

(** The servo simulator broadcasts the same numbers twice, as the actuators 3
    and 5. *)
Theorem C157_servo : forall class h position nm fs cs, class "uavcan.equipment.actuator.Status"%string = AComp nm false fs cs ->
  Forall (number_field fs cs) (servo_numbers position 3) -> number_field fs cs ("actuator_id"%string, PInt 5) ->
  exists h1 h2 a, publish_ActuatorStatus class h position = Sends h1 a (Sends h2 a Done) /\
    carries h nm fs cs (servo_numbers position 3) [] h1 a /\ carries h nm fs cs (servo_numbers position 5) [] h2 a.
Proof. exact servo. Qed.
Print Assumptions C157_servo.

(** The range finder broadcasts one message with its five numbers. *)
Theorem C157_range : forall class h fov range nm fs cs, class "uavcan.equipment.range_sensor.Measurement"%string = AComp nm false fs cs ->
  Forall (number_field fs cs) (range_numbers fov range) ->
  exists h' a, publish_range_measurement class h fov range = Sends h' a Done /\ carries h nm fs cs (range_numbers fov range) [] h' a.
Proof. exact range_sent. Qed.
Print Assumptions C157_range.

(** The battery broadcasts one message with its seven numbers, *)
Theorem C157_battery : forall class h id voltage nm fs cs, class "uavcan.equipment.power.BatteryInfo"%string = AComp nm false fs cs ->
  Forall (number_field fs cs) (battery_numbers id voltage) ->
  exists h' a, publish_BatteryInfo class h id voltage = Sends h' a Done /\ carries h nm fs cs (battery_numbers id voltage) [] h' a.
Proof. exact battery. Qed.
Print Assumptions C157_battery.

(** and one with the voltage of every cell, if the array has room for the
    cells; otherwise it raises and broadcasts nothing. *)
Theorem C157_cells : forall class h id num q nm fs cs i k n cm mx,
  class "ardupilot.equipment.power.BatteryInfoAux"%string = AComp nm false fs cs ->
  number_field fs cs ("battery_id"%string, PInt id) -> ~ In "voltage_cell"%string (map fst cs) ->
  find_field fs "voltage_cell" = Some (i, AArr true (APrim k n cm) mx) -> number_for k n (PFloat q) ->
  number_for k n (PFloat (FFin false 0 0)) ->
  if Z.to_nat num <=? mx
  then exists h' a b ws, publish_BatteryInfoAux class h id num q = Sends h' a Done /\
    carries h nm fs cs [("battery_id"%string, PInt id)] ["voltage_cell"%string] h' a /\
    fst (step h' (OGet a "voltage_cell")) = Ok (PRef b) /\ reads_as h' b ws /\ List.length ws = Z.to_nat num /\
    Forall (number_stored k n cm (PFloat q)) ws
  else publish_BatteryInfoAux class h id num q = Fails AttributeError.
Proof. exact cells. Qed.
Print Assumptions C157_cells.

(** The ESC example broadcasts a command with four times the set point, *)
Theorem C157_throttle : forall class h z nm fs cs i k n cm mx, class "uavcan.equipment.esc.RawCommand"%string = AComp nm false fs cs ->
  ~ In "cmd"%string (map fst cs) -> find_field fs "cmd" = Some (i, AArr true (APrim k n cm) mx) -> number_for k n (PInt z) -> 4 <= mx ->
  exists h' a b ws, publish_throttle_setpoint class h false z = Sends h' a Done /\ carries h nm fs cs [] ["cmd"%string] h' a /\
    fst (step h' (OGet a "cmd")) = Ok (PRef b) /\ reads_as h' b ws /\ List.length ws = 4 /\ Forall (number_stored k n cm (PInt z)) ws.
Proof. exact four. Qed.
Print Assumptions C157_throttle.
(** after the safety message, if asked for. *)
Theorem C157_safety : forall class h z nm fs cs c, class "ardupilot.indication.SafetyState"%string = AComp nm false fs cs ->
  dget String.eqb cs "STATUS_SAFETY_OFF"%string = Some c -> number_field fs cs ("status"%string, PInt c) ->
  exists h' a, publish_throttle_setpoint class h true z = Sends h' a (publish_throttle_setpoint class h' false z) /\
    carries h nm fs cs [("status"%string, PInt c)] [] h' a.
Proof. exact safety. Qed.
Print Assumptions C157_safety.

(** The servo control example broadcasts an array with one command, if the
    actuator number can be written to the field. *)
Theorem C157_control_partial : forall class h id v c nm fs cs nm2 fs2 cs2 i mx,
  class "uavcan.equipment.actuator.ArrayCommand"%string = AComp nm false fs cs ->
  class "uavcan.equipment.actuator.Command"%string = AComp nm2 false fs2 cs2 ->
  ~ In "commands"%string (map fst cs) -> find_field fs "commands" = Some (i, AArr true (AComp nm2 false fs2 cs2) mx) -> 1 <= mx ->
  dget String.eqb cs2 "COMMAND_TYPE_UNITLESS"%string = Some c -> Forall (number_field fs2 cs2) (command_numbers id (PInt c) v) ->
  exists h' a b cmd, control_actuator class h id v = Sends h' a Done /\ carries h nm fs cs [] ["commands"%string] h' a /\
    fst (step h' (OGet a "commands")) = Ok (PRef b) /\ reads_as h' b [PRef cmd] /\
    (forall f w, In (f, w) (command_numbers id (PInt c) v) -> reads_number fs2 h' cmd f w).
Proof. exact command. Qed.
Print Assumptions C157_control_partial.
(** The option [--actuator-id] gives a float: no number of the range of the
    field can be given with it. *)
Theorem C157_float_id : forall class h x v nm fs cs nm2 fs2 cs2 i k n cm,
  class "uavcan.equipment.actuator.ArrayCommand"%string = AComp nm false fs cs ->
  class "uavcan.equipment.actuator.Command"%string = AComp nm2 false fs2 cs2 ->
  find_field fs2 "actuator_id" = Some (i, APrim k n cm) -> ~ In "actuator_id"%string (map fst cs2) ->
  (k = KUint \/ k = KInt) -> int_type k n -> (k = KInt -> n <= 53) -> is_double x -> ~ greater x (range_high k n) -> ~ less x (range_low k n) ->
  control_actuator class h (PFloat x) v = Fails (match cm with Saturated => ValueError | Truncated => TypeError end).
Proof. exact float_id. Qed.
Print Assumptions C157_float_id.

(** The CAN FD example broadcasts three log messages with these texts, if there
    is room for them. *)
Theorem C157_texts : forall class h nm fs cs i1 i2 c1 c2 m1 m2, class "uavcan.protocol.debug.LogMessage"%string = AComp nm false fs cs ->
  ~ In "source"%string (map fst cs) -> ~ In "text"%string (map fst cs) ->
  find_field fs "source" = Some (i1, AArr true (APrim KUint 8 c1) m1) -> find_field fs "text" = Some (i2, AArr true (APrim KUint 8 c2) m2) ->
  13 <= m1 -> 90 <= m2 ->
  exists a h1 h2 h3, publish_message class h = Sends h1 a (Sends h2 a (Sends h3 a Done)) /\
    Forall2 (fun hi p => holds_text hi a "source" (fst p) /\ holds_text hi a "text" (snd p) /\
      carries h nm fs cs [] ["source"; "text"]%string hi a) [h1; h2; h3] log_texts.
Proof. exact log_messages. Qed.
Print Assumptions C157_texts.

(** The MAVLink tunnel broadcasts a status with these numbers; [submode] is no
    field of it and has no effect. *)
Theorem C157_status : forall class h t c1 c2 nm fs cs, class "uavcan.protocol.NodeStatus"%string = AComp nm false fs cs ->
  dget String.eqb cs "HEALTH_OK"%string = Some c1 -> dget String.eqb cs "MODE_OPERATIONAL"%string = Some c2 ->
  Forall (number_field fs cs) (status_numbers t c1 c2) -> find_field fs "submode" = None -> ~ In "submode"%string (map fst cs) ->
  exists h' a, publish_NodeInfo class h t = Sends h' a Done /\ carries h nm fs cs (status_numbers t c1 c2) ["submode"%string] h' a.
Proof. exact status. Qed.
Print Assumptions C157_status.

(** The definitions as in the public regulated set; the capacities are
    smaller. *)
Definition u n := APrim KUint n Saturated.
Definition f16 := APrim KFloat 16 Saturated.
Definition Command := AComp "uavcan.equipment.actuator.Command" false [("actuator_id", u 8); ("command_type", u 8); ("command_value", f16)]%string
  [("COMMAND_TYPE_UNITLESS", 0%Z); ("COMMAND_TYPE_POSITION", 1%Z)]%string.
Definition some_class (nm : string) : atype :=
  (if String.eqb nm "uavcan.equipment.actuator.Status" then
     AComp nm false [("actuator_id", u 8); ("position", f16); ("force", f16); ("speed", f16); ("", AVoid 1); ("power_rating_pct", u 7)] []
   else if String.eqb nm "uavcan.equipment.range_sensor.Measurement" then
     AComp nm false [("sensor_id", u 8); ("field_of_view", f16); ("sensor_type", u 5); ("reading_type", u 3); ("range", f16)] [("READING_TYPE_VALID_RANGE", 1%Z)]
   else if String.eqb nm "uavcan.equipment.power.BatteryInfo" then
     AComp nm false [("temperature", f16); ("voltage", f16); ("current", f16); ("remaining_capacity_wh", f16); ("full_charge_capacity_wh", f16);
       ("state_of_charge_pct", u 7); ("battery_id", u 8)] []
   else if String.eqb nm "ardupilot.equipment.power.BatteryInfoAux" then
     AComp nm false [("voltage_cell", AArr true f16 5); ("battery_id", u 8)] []
   else if String.eqb nm "uavcan.equipment.esc.RawCommand" then AComp nm false [("cmd", AArr true (APrim KInt 14 Saturated) 20)] []
   else if String.eqb nm "ardupilot.indication.SafetyState" then
     AComp nm false [("status", u 8)] [("STATUS_SAFETY_ON", 0%Z); ("STATUS_SAFETY_OFF", 255%Z)]
   else if String.eqb nm "uavcan.equipment.actuator.Command" then Command
   else if String.eqb nm "uavcan.protocol.debug.LogMessage" then
     AComp nm false [("level", u 3); ("source", AArr true (u 8) 31); ("text", AArr true (u 8) 90)] []
   else if String.eqb nm "uavcan.protocol.NodeStatus" then
     AComp nm false [("uptime_sec", u 32); ("health", u 2); ("mode", u 3); ("sub_mode", u 3); ("vendor_specific_status_code", u 16)]
       [("HEALTH_OK", 0%Z); ("HEALTH_ERROR", 2%Z); ("MODE_OPERATIONAL", 0%Z); ("MODE_OFFLINE", 7%Z)]
   else AComp nm false [("commands", AArr true Command 15)] [])%string.

(** What is broadcast: for every message the attributes, and the items of those
    that are arrays. *)
Definition attribute (h : heap) (a : addr) (f : string) : res pyval := fst (step h (OGet a f)).
Definition items (h : heap) (a : addr) (f : string) : res pyval :=
  match attribute h a f with Ok (PRef b) => fst (step h (OGetItem b 0)) | r => r end.
Fixpoint seen (fs : list string) (r : run) : list (list (res pyval)) * option exn :=
  match r with
  | Done => ([], None)
  | Fails e => ([], Some e)
  | Sends h a r => let (l, e) := seen fs r in (map (items h a) fs :: l, e)
  end.
Definition half := FFin false 1 (-1).

Lemma plain_number fs cs f v i k n cm : ~ In f (map fst cs) -> find_field fs f = Some (i, APrim k n cm) -> number_for k n v -> number_field fs cs (f, v).
Proof. intros C F N. split; [exact C|]. exists i, k, n, cm. auto. Qed.
Ltac number := eapply plain_number; [cbn; intuition discriminate|reflexivity|];
  cbn; split; [lia|]; first [eexists; split; [reflexivity|]; intros; lia | left; eexists; split; [reflexivity|]; lia | right; eexists; split; [reflexivity|]; cbn; lia].
Definition fields (nm : string) := match some_class nm with AComp _ _ fs _ => fs | _ => [] end.
Definition consts (nm : string) := match some_class nm with AComp _ _ _ cs => cs | _ => [] end.
(** [m * 2^e], as it is read from 16 bits. *)
Definition rd (m e : Z) : res pyval := Ok (PFloat (FFin false m e)).

Example C157_servo_case : Forall (number_field (fields "uavcan.equipment.actuator.Status") []) (servo_numbers half 3) /\
  seen ["actuator_id"; "position"; "force"; "speed"; "power_rating_pct"]%string (publish_ActuatorStatus some_class [] half) =
  ([[Ok (PInt 3); rd 8388608 (-24); rd 8388608 (-23); rd 8388608 (-22); Ok (PInt 17)];
    [Ok (PInt 5); rd 8388608 (-24); rd 8388608 (-23); rd 8388608 (-22); Ok (PInt 17)]], None).
Proof.
  split; [|vm_compute; reflexivity]. unfold servo_numbers. repeat (apply Forall_cons; [number|]). constructor.
Qed.
Example C157_range_case : Forall (number_field (fields "uavcan.equipment.range_sensor.Measurement") (consts "uavcan.equipment.range_sensor.Measurement"))
    (range_numbers half (FFin false 5 0)) /\
  seen ["sensor_id"; "field_of_view"; "sensor_type"; "reading_type"; "range"]%string (publish_range_measurement some_class [] half (FFin false 5 0)) =
  ([[Ok (PInt 1); rd 8388608 (-24); Ok (PInt 2); Ok (PInt 1); rd 10485760 (-21)]], None).
Proof.
  split; [|vm_compute; reflexivity]. unfold range_numbers. repeat (apply Forall_cons; [number|]). constructor.
Qed.
Example C157_battery_case : Forall (number_field (fields "uavcan.equipment.power.BatteryInfo") []) (battery_numbers 4 (FFin false 12 0)) /\
  seen ["battery_id"; "voltage"; "current"; "temperature"; "state_of_charge_pct"; "remaining_capacity_wh"; "full_charge_capacity_wh"]%string
    (publish_BatteryInfo some_class [] 4 (FFin false 12 0)) =
  ([[Ok (PInt 4); rd 12582912 (-20); rd 10067968 (-25); rd 9510912 (-15); Ok (PInt 0); rd 0 (-149); rd 0 (-149)]], None).
Proof.
  split; [|vm_compute; reflexivity]. unfold battery_numbers. repeat (apply Forall_cons; [number|]). constructor.
Qed.
(** Three cells; six are too many for the array. *)
Example C157_cells_case : number_field (fields "ardupilot.equipment.power.BatteryInfoAux") [] ("battery_id"%string, PInt 4) /\
  number_for KFloat 16 (PFloat half) /\
  (match publish_BatteryInfoAux some_class [] 4 3 half with
   | Sends h a Done => match attribute h a "voltage_cell" with Ok (PRef b) => map (fun i => fst (step h (OGetItem b i))) [0; 1; 2; 3]%Z | _ => [] end
   | _ => [] end) = [rd 8388608 (-24); rd 8388608 (-24); rd 8388608 (-24); Err IndexError] /\
  publish_BatteryInfoAux some_class [] 4 6 half = Fails AttributeError.
Proof.
  split; [number|]. split; [cbn; split; [lia|]; right; eexists; split; [reflexivity|]; cbn; lia|]. split; vm_compute; reflexivity.
Qed.
Example C157_throttle_case : number_for KInt 14 (PInt 1000) /\ number_field (fields "ardupilot.indication.SafetyState") (consts "ardupilot.indication.SafetyState") ("status"%string, PInt 255) /\
  (match publish_throttle_setpoint some_class [] true 1000 with
   | Sends h0 s (Sends h a Done) => attribute h0 s "status" ::
       match attribute h a "cmd" with Ok (PRef b) => map (fun i => fst (step h (OGetItem b i))) [0; 1; 2; 3; 4]%Z | _ => [] end
   | _ => [] end) = [Ok (PInt 255); Ok (PInt 1000); Ok (PInt 1000); Ok (PInt 1000); Ok (PInt 1000); Err IndexError].
Proof.
  split; [cbn; split; [lia|]; eexists; split; [reflexivity|]; intros; lia|]. split; [number|]. vm_compute. reflexivity.
Qed.
Example C157_control_case : Forall (number_field (fields "uavcan.equipment.actuator.Command") (consts "uavcan.equipment.actuator.Command")) (command_numbers (PInt 1) (PInt 0) half) /\
  (match control_actuator some_class [] (PInt 1) half with
   | Sends h a Done => match items h a "commands" with Ok (PRef c) => map (attribute h c) ["actuator_id"; "command_type"; "command_value"]%string | _ => [] end
   | _ => [] end) = [Ok (PInt 1); Ok (PInt 0); rd 8388608 (-24)].
Proof.
  split; [|vm_compute; reflexivity]. unfold command_numbers. repeat (apply Forall_cons; [number|]). constructor.
Qed.
(** [--actuator-id 3]: nothing is sent, though 3 is a number for the field. *)
Theorem C157_control_refuted : exists class h v x nm fs cs nm2 fs2 cs2,
  class "uavcan.equipment.actuator.ArrayCommand"%string = AComp nm false fs cs /\
  class "uavcan.equipment.actuator.Command"%string = AComp nm2 false fs2 cs2 /\
  is_double x /\ units x = Some (3 * 2 ^ 1074)%Z /\ number_field fs2 cs2 ("actuator_id"%string, PInt 3) /\
  control_actuator class h (PFloat x) v = Fails ValueError.
Proof.
  exists some_class, [], half, (FFin false 3 0). do 6 eexists. split; [reflexivity|]. split; [reflexivity|]. split; [cbn; lia|].
  split; [reflexivity|]. split; [number|]. vm_compute. reflexivity.
Qed.
Print Assumptions C157_control_refuted.
(** With 90 bytes for the text, as in the public set, the last text just fits. *)
Example C157_texts_case : find_field (fields "uavcan.protocol.debug.LogMessage") "text" = Some (2, AArr true (u 8) 90) /\
  (match publish_message some_class [] with
   | Sends h1 a (Sends h2 _ (Sends h3 _ Done)) =>
       map (fun h => match attribute h a "source", attribute h a "text" with
                     | Ok (PRef b), Ok (PRef c) => (fst (step h (ODecode b)), match arr_len h c with Ok n => n | _ => 0 end) | _, _ => (Err KeyError, 0) end) [h1; h2; h3]
   | _ => [] end) =
  [(Ok (PStr [88%N]), 1); (Ok (PStr [67; 65; 78; 70; 68; 84; 101; 115; 116]%N), 17);
   (Ok (PStr [67; 65; 78; 70; 68; 84; 101; 115; 116; 76; 111; 110; 103]%N), 90)].
Proof. split; [reflexivity|]. vm_compute. reflexivity. Qed.
Example C157_status_case : Forall (number_field (fields "uavcan.protocol.NodeStatus") (consts "uavcan.protocol.NodeStatus")) (status_numbers 1700000000 0 0) /\
  find_field (fields "uavcan.protocol.NodeStatus") "submode" = None /\
  seen ["uptime_sec"; "health"; "mode"; "sub_mode"; "vendor_specific_status_code"; "submode"]%string (publish_NodeInfo some_class [] 1700000000) =
  ([[Ok (PInt 1700000000); Ok (PInt 0); Ok (PInt 0); Ok (PInt 0); Ok (PInt 0); Ok (PInt 0)]], None).
Proof.
  split; [|split; [reflexivity|vm_compute; reflexivity]]. unfold status_numbers. repeat (apply Forall_cons; [number|]). constructor.
Qed.

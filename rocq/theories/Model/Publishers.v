(** The example programs that broadcast messages: sim_servo.py,
    sim_rangefinder.py, sim_battery.py, servo_control.py, esc_control.py,
    canfd_msg.py, and the status of mavlink_tunnel.py. *)
From Coq Require Import String Ascii.
From Verif.Base Require Import Prelude.
From Verif.Model Require Import Types Float ObjectApi.
Open Scope list_scope.

(** What a call of a publisher does: the messages it broadcasts, in order, and
    how it ends. Broadcasting serialises the object and leaves it as it is;
    printing it with [--debug] is left out. *)
Inductive run :=
| Done
| Fails (e : exn)
| Sends (h : heap) (a : addr) (rest : run).

(** Statements: a new object, an assignment to an attribute, to an index of an
    array attribute, an attribute. *)
Definition new (t : atype) (kw : list (string * pyval)) (h : heap) (k : addr -> heap -> run) : run :=
  match step h (ONew t kw) with
  | (Ok (PRef a), h1) => k a h1
  | (Ok _, _) => Fails TypeError
  | (Err e, _) => Fails e
  end.
Definition set (a : addr) (nm : string) (v : pyval) (h : heap) (k : heap -> run) : run :=
  match step h (OSet a nm v) with (Ok _, h1) => k h1 | (Err e, _) => Fails e end.
Definition get (a : addr) (nm : string) (h : heap) (k : pyval -> heap -> run) : run :=
  match step h (OGet a nm) with (Ok v, h1) => k v h1 | (Err e, _) => Fails e end.
Definition set_item (a : addr) (nm : string) (i : Z) (v : pyval) (h : heap) (k : heap -> run) : run :=
  get a nm h (fun w h =>
    match w with
    | PRef b => match step h (OSetItem b i v) with (Ok _, h1) => k h1 | (Err e, _) => Fails e end
    | _ => Fails TypeError
    end).

Definition str (s : string) : pyval := PStr (map N_of_ascii (list_ascii_of_string s)).

Section Publishers.
  (** The generated classes. *)
  Variable class : string -> atype.

  (** sim_servo.py 17-34; [position] is the sine. *)
  Definition publish_ActuatorStatus (h : heap) (position : pyfloat) : run :=
    new (class "uavcan.equipment.actuator.Status") [] h (fun msg h =>
    set msg "position" (PFloat position) h (fun h =>
    set msg "force" (PInt 1) h (fun h =>
    set msg "speed" (PInt 2) h (fun h =>
    set msg "power_rating_pct" (PInt 17) h (fun h =>
    set msg "actuator_id" (PInt 3) h (fun h => Sends h msg (
    set msg "actuator_id" (PInt 5) h (fun h => Sends h msg Done)))))))).

  (** sim_rangefinder.py 23-44; [fov] is [math.radians(30)] and [range] the
      distance at the time. *)
  Definition publish_range_measurement (h : heap) (fov range : pyfloat) : run :=
    new (class "uavcan.equipment.range_sensor.Measurement") [] h (fun msg h =>
    set msg "sensor_id" (PInt 1) h (fun h =>
    set msg "field_of_view" (PFloat fov) h (fun h =>
    set msg "sensor_type" (PInt 2) h (fun h =>
    set msg "reading_type" (PInt 1) h (fun h =>
    set msg "range" (PFloat range) h (fun h => Sends h msg Done)))))).

  (** sim_battery.py 20-33. The doubles are [0.3] and [17+273.15]. *)
  Definition publish_BatteryInfo (h : heap) (battery_id : Z) (voltage : pyfloat) : run :=
    new (class "uavcan.equipment.power.BatteryInfo") [] h (fun msg h =>
    set msg "battery_id" (PInt battery_id) h (fun h =>
    set msg "voltage" (PFloat voltage) h (fun h =>
    set msg "current" (PFloat (FFin false 5404319552844595 (-54))) h (fun h =>
    set msg "temperature" (PFloat (FFin false 5104372780787302 (-44))) h (fun h =>
    set msg "state_of_charge_pct" (PInt 0) h (fun h =>
    set msg "remaining_capacity_wh" (PInt 0) h (fun h =>
    set msg "full_charge_capacity_wh" (PInt 0) h (fun h => Sends h msg Done)))))))).

  (** sim_battery.py 35-45; [quotient] is [voltage / num_cells], which is
      evaluated for every cell, and so not at all without cells. *)
  Fixpoint each_cell (msg : addr) (quotient : pyfloat) (n : nat) (i : Z) (h : heap) (k : heap -> run) : run :=
    match n with
    | O => k h
    | S n => set_item msg "voltage_cell" i (PFloat quotient) h (fun h => each_cell msg quotient n (i + 1) h k)
    end.
  Definition publish_BatteryInfoAux (h : heap) (battery_id num_cells : Z) (quotient : pyfloat) : run :=
    new (class "ardupilot.equipment.power.BatteryInfoAux") [] h (fun msg h =>
    set msg "battery_id" (PInt battery_id) h (fun h =>
    set msg "voltage_cell" (PList (repeat (PFloat (FFin false 0 0)) (Z.to_nat num_cells))) h (fun h =>
    each_cell msg quotient (Z.to_nat num_cells) 0 h (fun h => Sends h msg Done)))).

  (** servo_control.py 36-51; [actuator_id] is what the command line parser
      gives: the integer 1, or a float if the option is given. *)
  Definition control_actuator (h : heap) (actuator_id : pyval) (v : pyfloat) : run :=
    new (class "uavcan.equipment.actuator.ArrayCommand") [] h (fun req h =>
    new (class "uavcan.equipment.actuator.Command") [] h (fun cmd h =>
    set cmd "actuator_id" actuator_id h (fun h =>
    get cmd "COMMAND_TYPE_UNITLESS" h (fun c h =>
    set cmd "command_type" c h (fun h =>
    set cmd "command_value" (PFloat v) h (fun h =>
    set req "commands" (PList [PRef cmd]) h (fun h => Sends h req Done))))))).

  (** esc_control.py 17-32; [setpoint] is the throttle at the time. *)
  Definition throttle (h : heap) (setpoint : Z) : run :=
    new (class "uavcan.equipment.esc.RawCommand") [("cmd"%string, PList (repeat (PInt setpoint) 4))] h (fun message h =>
    Sends h message Done).
  Definition publish_throttle_setpoint (h : heap) (send_safety : bool) (setpoint : Z) : run :=
    if send_safety
    then new (class "ardupilot.indication.SafetyState") [] h (fun message h =>
         get message "STATUS_SAFETY_OFF" h (fun c h =>
         set message "status" c h (fun h => Sends h message (throttle h setpoint))))
    else throttle h setpoint.

  (** canfd_msg.py 27-39: [publish_message]. *)
  Definition publish_message (h : heap) : run :=
    new (class "uavcan.protocol.debug.LogMessage") [] h (fun m h =>
    set m "source" (str "X") h (fun h =>
    set m "text" (str "Y") h (fun h => Sends h m (
    set m "source" (str "CANFDTest") h (fun h =>
    set m "text" (str "ThisIsALongerTest") h (fun h => Sends h m (
    set m "source" (str "CANFDTestLong") h (fun h =>
    set m "text" (str "ThisIsAVeryLongTest.MaryHadALittleLampWhosFleeceWasWhiteAsSnowAndEverywhereThatMaryWentThe") h (fun h =>
    Sends h m Done))))))))).

  (** mavlink_tunnel.py 38-48: [publish_NodeInfo]; [time] is the wall clock in
      seconds. *)
  Definition publish_NodeInfo (h : heap) (time : Z) : run :=
    new (class "uavcan.protocol.NodeStatus") [] h (fun msg h =>
    set msg "uptime_sec" (PInt time) h (fun h =>
    get msg "HEALTH_OK" h (fun c h =>
    set msg "health" c h (fun h =>
    get msg "MODE_OPERATIONAL" h (fun c h =>
    set msg "mode" c h (fun h =>
    set msg "submode" (PInt 0) h (fun h =>
    set msg "vendor_specific_status_code" (PInt 0) h (fun h => Sends h msg Done)))))))).

End Publishers.

(** What the example programs are to broadcast. *)
From Coq Require Import String Ascii.
From Verif.Base Require Import Prelude.
From Verif.Model Require Import Types Float ObjectApi.
From Verif.Spec Require Import NumberSpec ObjectSpec.
Open Scope list_scope.

(** The type has this field, no constant of the name, and the number is one
    that can be written to it. *)
Definition number_field (fs : list (string * atype)) (cs : list (string * Z)) (e : string * pyval) : Prop :=
  ~ In (fst e) (map fst cs) /\ exists i k n cm, find_field fs (fst e) = Some (i, APrim k n cm) /\ number_for k n (snd e).
(** The field reads as what its type holds of the number. *)
Definition reads_number (fs : list (string * atype)) (h : heap) (a : addr) (f : string) (v : pyval) : Prop :=
  exists i k n cm w, find_field fs f = Some (i, APrim k n cm) /\ fst (step h (OGet a f)) = Ok w /\ number_stored k n cm v w.
(** [a] is a new object that has these numbers, and defaults in all other
    fields but those in [but]; nothing else has changed. *)
Definition carries (h : heap) (nm : string) (fs : list (string * atype)) (cs : list (string * Z))
    (kw : list (string * pyval)) (but : list string) (h' : heap) (a : addr) : Prop :=
  exists h1, step h (ONew (AComp nm false fs cs) []) = (Ok (PRef a), h1) /\
    (forall f v, In (f, v) kw -> reads_number fs h' a f v) /\
    (forall f, ~ In f (map fst kw) -> ~ In f but -> fst (step h' (OGet a f)) = fst (step h1 (OGet a f))) /\
    (forall b, b < List.length h -> nth_error h' b = nth_error h b).

Definition servo_numbers (position : pyfloat) (id : Z) : list (string * pyval) :=
  [("actuator_id", PInt id); ("position", PFloat position); ("force", PInt 1); ("speed", PInt 2); ("power_rating_pct", PInt 17)]%string.
Definition range_numbers (fov range : pyfloat) : list (string * pyval) :=
  [("sensor_id", PInt 1); ("field_of_view", PFloat fov); ("sensor_type", PInt 2); ("reading_type", PInt 1); ("range", PFloat range)]%string.
(** The doubles nearest to 0.3 and to 290.15. *)
Definition battery_numbers (id : Z) (voltage : pyfloat) : list (string * pyval) :=
  [("battery_id", PInt id); ("voltage", PFloat voltage); ("current", PFloat (FFin false 5404319552844595 (-54)));
   ("temperature", PFloat (FFin false 5104372780787302 (-44))); ("state_of_charge_pct", PInt 0);
   ("remaining_capacity_wh", PInt 0); ("full_charge_capacity_wh", PInt 0)]%string.
Definition command_numbers (id type : pyval) (v : pyfloat) : list (string * pyval) :=
  [("actuator_id", id); ("command_type", type); ("command_value", PFloat v)]%string.

(** The field is an array that decodes as this text. *)
Definition holds_text (h : heap) (a : addr) (f s : string) : Prop :=
  exists b, fst (step h (OGet a f)) = Ok (PRef b) /\ fst (step h (ODecode b)) = Ok (PStr (map N_of_ascii (list_ascii_of_string s))).
Definition log_texts : list (string * string) :=
  [("X", "Y"); ("CANFDTest", "ThisIsALongerTest");
   ("CANFDTestLong", "ThisIsAVeryLongTest.MaryHadALittleLampWhosFleeceWasWhiteAsSnowAndEverywhereThatMaryWentThe")]%string.
Definition status_numbers (time health mode : Z) : list (string * pyval) :=
  [("uptime_sec", PInt time); ("health", PInt health); ("mode", PInt mode); ("vendor_specific_status_code", PInt 0)]%string.

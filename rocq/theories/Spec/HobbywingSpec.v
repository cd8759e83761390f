(** What the commands of the ESC control program are to do. *)
From Coq Require Import String.
From Verif.Base Require Import Prelude.
From Verif.Model Require Import Types ObjectApi Hobbywing.
Open Scope list_scope.

(** A fresh object of type [t] with some of its fields set to numbers. *)
Definition filled (h : heap) (t : atype) (kw : list (string * Z)) (h' : heap) (a : addr) : Prop :=
  exists h1, step h (ONew t []) = (Ok (PRef a), h1) /\
    (forall f z, In (f, z) kw -> step h' (OGet a f) = (Ok (PInt z), h')) /\
    (forall f, ~ In f (map fst kw) -> fst (step h' (OGet a f)) = fst (step h1 (OGet a f))) /\
    (forall b, b < List.length h -> nth_error h' b = nth_error h b).

(** Commands that copy their arguments to fields of a request. *)
Definition forms : list (string * (string * list string)) :=
  [("GetInfo", ("GetInformation.Request", ["info_type"]));
   ("GetMaintenance", ("GetMaintenanceInformation.Request", ["option"]));
   ("GetMajorConfig", ("GetMajorConfig.Request", ["option"]));
   ("SetID", ("SetID.Request", ["node_id"; "throttle_channel"]));
   ("SetLED", ("SetLED.Request", ["option"; "color"; "blink"]));
   ("SetAngle", ("SetAngle.Request", ["option"; "angle"]));
   ("SelfTest", ("SelfTest.Request", []));
   ("SetDirection", ("SetDirection.Request", ["direction"]))]%string.

(** Names of the constants that stand for bit rates and for rates. *)
Definition bauds : list (Z * string) :=
  [(1000000%Z, "BAUD_1MBPS"); (500000%Z, "BAUD_500KBPS"); (250000%Z, "BAUD_250KBPS");
   (200000%Z, "BAUD_200KBPS"); (100000%Z, "BAUD_100KBPS"); (50000%Z, "BAUD_50KBPS")]%string.
Definition rates : list (Z * string) :=
  [(500%Z, "RATE_500HZ"); (250%Z, "RATE_250HZ"); (200%Z, "RATE_200HZ"); (100%Z, "RATE_100HZ");
   (50%Z, "RATE_50HZ"); (20%Z, "RATE_20HZ"); (10%Z, "RATE_10HZ"); (1%Z, "RATE_1HZ")]%string.
(** The type has all these constants. *)
Definition has_constants (cs : list (string * Z)) (rows : list (Z * string)) : Prop :=
  forall key nm, In (key, nm) rows -> In nm (map fst cs).
(** The value of a constant: the first of that name. *)
Definition constant_is (cs : list (string * Z)) (nm : string) (v : Z) : Prop :=
  exists pre post, cs = pre ++ (nm, v) :: post /\ ~ In nm (map fst pre).

(** Numbers of arguments that the commands ask for. *)
Definition arity : list (string * nat) :=
  [("SetBaud", 1); ("GetESCId", 1); ("GetInfo", 1); ("GetMaintenance", 1); ("GetMajorConfig", 1); ("SetID", 2);
   ("SetLED", 3); ("SetAngle", 2); ("SelfTest", 0); ("SetReportingFrequency", 2); ("SetDirection", 1);
   ("RawCommand", 1)]%string.

(** Something goes on the bus. *)
Definition sent (o : outcome) : Prop := match o with Requests _ _ | Broadcasts _ _ | Repeats _ _ => True | _ => False end.

(** examples/hobbywing_esc.py: the commands of the ESC control program. *)
From Coq Require Import String.
From Verif.Base Require Import Prelude.
From Verif.Model Require Import Types ObjectApi Slcan Parser.
Open Scope list_scope.

(** What a command does in the end. A request goes to the target node, and
    its reply is printed; [Repeats] broadcasts the object every 20 ms. *)
Inductive outcome :=
| Prints
| Requests (h : heap) (a : addr)
| Broadcasts (h : heap) (a : addr)
| Repeats (h : heap) (a : addr)
| Raises (e : exn)
| Exits (code : Z).

(** Statements of the commands: a new object, an assignment to an attribute,
    an attribute, [int(s)]. *)
Definition create (t : atype) (h : heap) (k : addr -> heap -> outcome) : outcome :=
  match step h (ONew t []) with
  | (Ok (PRef a), h1) => k a h1
  | (Ok _, _) => Raises TypeError
  | (Err e, _) => Raises e
  end.
Definition assign (a : addr) (nm : string) (v : pyval) (h : heap) (k : heap -> outcome) : outcome :=
  match step h (OSet a nm v) with (Ok _, h1) => k h1 | (Err e, _) => Raises e end.
Definition attribute (a : addr) (nm : string) (h : heap) (k : pyval -> heap -> outcome) : outcome :=
  match step h (OGet a nm) with (Ok v, h1) => k v h1 | (Err e, _) => Raises e end.
Definition number (s : text) (k : Z -> outcome) : outcome :=
  match py_int 10 s with Ok z => k z | Err e => Raises e end.
Fixpoint numbers (l : list text) (k : list Z -> outcome) : outcome :=
  match l with
  | [] => k []
  | s :: r => number s (fun z => numbers r (fun zs => k (z :: zs)))
  end.
(** A dict whose values are attributes of the object. *)
Fixpoint table (a : addr) (rows : list (Z * string)) (h : heap) (k : list (Z * pyval) -> heap -> outcome) : outcome :=
  match rows with
  | [] => k [] h
  | (key, nm) :: r => attribute a nm h (fun v h1 => table a r h1 (fun d h2 => k ((key, v) :: d) h2))
  end.

Section Commands.
  (** The generated classes of com.hobbywing.esc, whose definitions are not a
      part of the repository. *)
  Variable class : string -> atype.

  (** 30-49. [','.join] of a dict with integer keys raises [TypeError]. *)
  Definition SetBaud (h : heap) (arguments : list text) : outcome :=
    create (class "SetBaud.Request") h (fun req h =>
    table req [(1000000%Z, "BAUD_1MBPS"); (500000%Z, "BAUD_500KBPS"); (250000%Z, "BAUD_250KBPS");
               (200000%Z, "BAUD_200KBPS"); (100000%Z, "BAUD_100KBPS"); (50000%Z, "BAUD_50KBPS")]%string h (fun bmap h =>
    match arguments with
    | [] => Prints
    | s :: _ => number s (fun baudrate =>
        match dget Z.eqb bmap baudrate with
        | None => Raises TypeError
        | Some v => assign req "baud" v h (fun h => Requests h req)
        end)
    end)).
  (** 72-79 *)
  Definition GetInfo (h : heap) (arguments : list text) : outcome :=
    create (class "GetInformation.Request") h (fun req h =>
    match arguments with
    | s :: _ => number s (fun z => assign req "info_type" (PInt z) h (fun h => Requests h req))
    | _ => Prints
    end).
  (** 81-88 *)
  Definition GetMaintenance (h : heap) (arguments : list text) : outcome :=
    create (class "GetMaintenanceInformation.Request") h (fun req h =>
    match arguments with
    | s :: _ => number s (fun z => assign req "option" (PInt z) h (fun h => Requests h req))
    | _ => Prints
    end).
  (** 96-104; adding the handler is left out. *)
  Definition GetESCId (h : heap) (arguments : list text) : outcome :=
    create (class "GetEscID") h (fun req h =>
    match arguments with
    | s :: _ => number s (fun z => assign req "payload" (PList [PInt z]) h (fun h => Broadcasts h req))
    | _ => Prints
    end).
  (** 106-113 *)
  Definition GetMajorConfig (h : heap) (arguments : list text) : outcome :=
    create (class "GetMajorConfig.Request") h (fun req h =>
    match arguments with
    | s :: _ => number s (fun z => assign req "option" (PInt z) h (fun h => Requests h req))
    | _ => Prints
    end).
  (** 115-123 *)
  Definition SetID (h : heap) (arguments : list text) : outcome :=
    create (class "SetID.Request") h (fun req h =>
    match arguments with
    | s :: t :: _ =>
        number s (fun z => assign req "node_id" (PInt z) h (fun h =>
        number t (fun z => assign req "throttle_channel" (PInt z) h (fun h => Requests h req))))
    | _ => Prints
    end).
  (** 125-134 *)
  Definition SetLED (h : heap) (arguments : list text) : outcome :=
    create (class "SetLED.Request") h (fun req h =>
    match arguments with
    | s :: t :: u :: _ =>
        number s (fun z => assign req "option" (PInt z) h (fun h =>
        number t (fun z => assign req "color" (PInt z) h (fun h =>
        number u (fun z => assign req "blink" (PInt z) h (fun h => Requests h req))))))
    | _ => Prints
    end).
  (** 136-144 *)
  Definition SetAngle (h : heap) (arguments : list text) : outcome :=
    create (class "SetAngle.Request") h (fun req h =>
    match arguments with
    | s :: t :: _ =>
        number s (fun z => assign req "option" (PInt z) h (fun h =>
        number t (fun z => assign req "angle" (PInt z) h (fun h => Requests h req))))
    | _ => Prints
    end).
  (** 146-149 *)
  Definition SelfTest (h : heap) (arguments : list text) : outcome :=
    create (class "SelfTest.Request") h (fun req h => Requests h req).
  (** 151-158 *)
  Definition SetDirection (h : heap) (arguments : list text) : outcome :=
    create (class "SetDirection.Request") h (fun req h =>
    match arguments with
    | s :: _ => number s (fun z => assign req "direction" (PInt z) h (fun h => Requests h req))
    | _ => Prints
    end).
  (** 160-175; adding the handlers is left out. *)
  Definition RawCommand (h : heap) (arguments : list text) : outcome :=
    create (class "RawCommand") h (fun req h =>
    match arguments with
    | [] => Prints
    | _ => numbers arguments (fun zs => assign req "command" (PList (map PInt zs)) h (fun h => Repeats h req))
    end).
  (** 177-200. As above, [','.join] raises before anything is printed. *)
  Definition SetReportingFrequency (h : heap) (arguments : list text) : outcome :=
    create (class "SetReportingFrequency.Request") h (fun req h =>
    match arguments with
    | s :: t :: _ =>
        attribute req "OPTION_WRITE" h (fun v h => assign req "option" v h (fun h =>
        number s (fun z => assign req "MSG_ID" (PInt z) h (fun h =>
        table req [(500%Z, "RATE_500HZ"); (250%Z, "RATE_250HZ"); (200%Z, "RATE_200HZ"); (100%Z, "RATE_100HZ");
                   (50%Z, "RATE_50HZ"); (20%Z, "RATE_20HZ"); (10%Z, "RATE_10HZ"); (1%Z, "RATE_1HZ")]%string h (fun rmap h =>
        number t (fun rate =>
        match dget Z.eqb rmap rate with
        | None => Raises TypeError
        | Some v => assign req "rate" v h (fun h => Requests h req)
        end))))))
    | _ => Prints
    end).

  (** 202-215 *)
  Definition commands : list (string * (heap -> list text -> outcome)) :=
    [("SetBaud", SetBaud); ("GetESCId", GetESCId); ("GetInfo", GetInfo); ("GetMaintenance", GetMaintenance);
     ("GetMajorConfig", GetMajorConfig); ("SetID", SetID); ("SetLED", SetLED); ("SetAngle", SetAngle);
     ("SelfTest", SelfTest); ("SetReportingFrequency", SetReportingFrequency); ("SetDirection", SetDirection);
     ("RawCommand", RawCommand)]%string.
  (** 229-246: an unknown command ends the program before the node is made. *)
  Definition main (h : heap) (command : string) (arguments : list text) : outcome :=
    match dget String.eqb commands command with
    | None => Exits 1
    | Some f => f h arguments
    end.
End Commands.

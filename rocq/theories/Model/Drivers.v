(** The choice of a driver: dronecan/driver/__init__.py, with what the drivers
    for python-can and for UDP multicast make of the name. *)
From Coq Require Import String.
From Verif.Base Require Import Prelude Bits.
From Verif.Model Require Import Types Parser Introspect.
Open Scope list_scope.
Open Scope N_scope.

(** The driver classes; both files have the same. *)
Inductive dclass := DMavcan | DSlcan | DMcast | DFile | DPythonCan | DSocketCan.
(** Keyword arguments, as far as their values matter. *)
Inductive kwval := KwText (t : text) | KwBool (b : bool) | KwNum (z : Z).
Definition kwargs := list (text * kwval).

(** What the choice depends on besides the name: which packages are installed
    (__init__.py 15-19, python_can.py 27-30), the platform (22-25), and
    whether MAVLink messages arrive at a port (mavcan.py 251-259). *)
Record world := World {
  have_mavcan : bool;
  have_python_can : bool;
  on_linux : bool;
  speaks_mavlink : text -> kwval -> bool
}.

(** __init__.py 30-35 *)
Definition is_mavlink_port (w : world) (name : text) (kw : kwargs) : bool :=
  if negb (have_mavcan w) then false
  else speaks_mavlink w name (match dget text_eqb kw (txt "baudrate") with
                              | Some v => v
                              | None => KwNum 115200
                              end).

(** 43: [replace('\\', '').replace('.', '').lower().startswith('com')] *)
Definition windows_com_port (name : text) : bool :=
  starts_with (txt "com")
    (map lower (filter (fun c => negb (c =? 46)) (filter (fun c => negb (c =? 92)) name))).

(** 37-73: [make_driver]: the class, and the arguments of its constructor. *)
Definition make_driver (w : world) (name : text) (kw : kwargs)
    : res (dclass * text * kwargs) :=
  let unix_tty := starts_with (txt "/dev/") name in
  let kw := if starts_with (txt "PCAN") name
            then dset text_eqb kw (txt "bustype") (KwText (txt "pcan")) else kw in
  if starts_with (txt "mavcan:") name then
    if negb (have_mavcan w) then Err DriverError
    else Ok (DMavcan, skipn 7 name, kw)
  else if starts_with (txt "slcan:") name then Ok (DSlcan, skipn 6 name, kw)
  else if starts_with (txt "mcast:") name then Ok (DMcast, skipn 6 name, kw)
  else if starts_with (txt "filein:") name then
    Ok (DFile, skipn 7 name, dset text_eqb kw (txt "readonly") (KwBool true))
  else if starts_with (txt "fileout:") name then
    Ok (DFile, skipn 8 name, dset text_eqb kw (txt "readonly") (KwBool false))
  else if windows_com_port name || unix_tty then
    if is_mavlink_port w name kw then Ok (DMavcan, name, kw) else Ok (DSlcan, name, kw)
  else if have_python_can w then Ok (DPythonCan, name, kw)
  else if on_linux w then Ok (DSocketCan, name, kw)
  else Err DriverError.

(** python_can.py 36-44: the arguments of [can.interface.Bus]: channel, bus
    type and bit rate. *)
Definition python_can_bus (channel : text) (kw : kwargs) : res (text * kwval * kwval) :=
  let kw := match dget text_eqb kw (txt "bustype") with
            | Some _ => kw
            | None => dset text_eqb kw (txt "bustype") (KwText (txt "socketcan"))
            end in
  match dget text_eqb kw (txt "bustype"), dget text_eqb kw (txt "bitrate") with
  | Some bustype, Some bitrate => Ok (channel, bustype, bitrate)
  | _, _ => Err KeyError
  end.

(** mcast.py 76-82: the address of the group for a URL. *)
Definition mcast_ip (url : text) : res text :=
  let a := split_by (N.eqb 58) url in
  bus <- (match a with
          | [x] => if nonempty x then py_int 10 x else Ok 0%Z
          | _ => Ok 0%Z
          end) ;;
  Ok (txt "239.65.82." ++ decimal_z bus).

(** Choosing a driver by the name of a device: property C123. *)
From Coq Require Import String.
From Verif.Base Require Import Prelude Bits.
From Verif.Model Require Import Types Parser Drivers.
From Verif.Spec Require Import IntrospectSpec DriverSpec.
From Verif.Proofs Require Import IntrospectNames DriverFacts.
Open Scope list_scope.
Open Scope N_scope.

(** ** C123: a name reaches the driver that it is meant for *)

(** A prefix names the driver, which gets the rest of the name. Arguments are
    passed on; files are opened for reading or writing as the prefix says,
    whatever the arguments say. *)
Theorem C123_scheme_partial : forall w s d r kw,
  In (s, d) schemes -> (d = DMavcan -> have_mavcan w = true) ->
  exists kw', make_driver w (s ++ r) kw = Ok (d, r, kw') /\
    same_but (txt "readonly") kw kw' /\
    (s = txt "filein:" -> dget text_eqb kw' (txt "readonly") = Some (KwBool true)) /\
    (s = txt "fileout:" -> dget text_eqb kw' (txt "readonly") = Some (KwBool false)) /\
    (d <> DFile -> kw' = kw).
Proof. exact scheme_driver. Qed.
Print Assumptions C123_scheme_partial.

(** Without pymavlink the prefix for MAVLink is refused, not passed on. *)
Theorem C123_missing_partial : forall w (r : text) kw, have_mavcan w = false ->
  make_driver w (txt "mavcan:" ++ r) kw = Err DriverError.
Proof. exact mavcan_missing. Qed.
Print Assumptions C123_missing_partial.

(** A serial port reaches the MAVLink driver if MAVLink messages arrive there
    at the given or the usual speed, otherwise the SLCAN driver, with its
    whole name and all arguments. *)
Theorem C123_serial_partial : forall w name kw, serial_port name ->
  make_driver w name kw =
  Ok (if have_mavcan w && speaks_mavlink w name
           (match dget text_eqb kw (txt "baudrate") with Some v => v | None => KwNum 115200 end)
      then DMavcan else DSlcan, name, kw).
Proof. exact serial_driver. Qed.
Print Assumptions C123_serial_partial.

(** Every other name is that of a CAN interface, unless it begins like that of
    a COM port. *)
Theorem C123_interface_partial : forall w name kw,
  schemeless name -> ~ in_dev name -> ~ com_like name ->
  exists kw', same_but (txt "bustype") kw kw' /\
    ((exists r, name = txt "PCAN" ++ r) ->
       dget text_eqb kw' (txt "bustype") = Some (KwText (txt "pcan"))) /\
    (~ (exists r, name = txt "PCAN" ++ r) -> kw' = kw) /\
    make_driver w name kw =
      if have_python_can w then Ok (DPythonCan, name, kw')
      else if on_linux w then Ok (DSocketCan, name, kw') else Err DriverError.
Proof. exact interface_driver. Qed.
Print Assumptions C123_interface_partial.

(** With a bit rate python-can opens the interface, as a SocketCAN interface
    if no type is given; *)
Theorem C123_rate_partial : forall channel kw rate,
  dget text_eqb kw (txt "bitrate") = Some rate ->
  python_can_bus channel kw =
  Ok (channel, match dget text_eqb kw (txt "bustype") with
               | Some b => b | None => KwText (txt "socketcan") end, rate).
Proof. exact bus_of. Qed.
Print Assumptions C123_rate_partial.

(** without one it never does. *)
Theorem C123_rate_needed_partial : forall channel kw,
  dget text_eqb kw (txt "bitrate") = None -> python_can_bus channel kw = Err KeyError.
Proof. exact bus_needs_rate. Qed.
Print Assumptions C123_rate_needed_partial.

(** Multicast: the number of the bus is the last part of the address of its
    group; no number means the first bus. *)
Theorem C123_group_partial : forall ds : text, Forall (fun c => 48 <= c <= 57) ds ->
  exists b, mcast_ip ds = Ok (txt "239.65.82." ++ b) /\
    decimal_text b (Z.of_N (digits_value ds)).
Proof. exact group_of. Qed.
Print Assumptions C123_group_partial.

(** Two nodes are on the same bus exactly if their numbers are equal. *)
Theorem C123_apart_partial : forall ds ds' : text,
  Forall (fun c => 48 <= c <= 57) ds -> Forall (fun c => 48 <= c <= 57) ds' ->
  mcast_ip ds = mcast_ip ds' <-> digits_value ds = digits_value ds'.
Proof. exact groups_apart. Qed.
Print Assumptions C123_apart_partial.

(** A CAN interface whose name begins with "com" is taken for a serial port. *)
Definition linux_world : world := World false true true (fun _ _ => false).
Theorem C123_interface_refuted : exists w name kw, schemeless name /\ ~ in_dev name /\
  ~ serial_port name /\ have_python_can w = true /\ make_driver w name kw = Ok (DSlcan, name, kw).
Proof.
  exists linux_world, (txt "comms0"), []. split; [|split; [|split; [|split]]].
  - intros s d r H E. unfold schemes in H. cbn [In] in H.
    repeat (destruct H as [H|H]; [injection H as <- <-; discriminate E|]). contradiction.
  - intros (r & E). discriminate E.
  - intros [(r & E)|(pre & com & ds & E & Hp & Hc & _ & Hd)]; [discriminate E|].
    pose proof (f_equal (@length N) E) as L. rewrite !app_length in L.
    pose proof (IntrospectNames.alike_length _ _ Hc) as Lc. cbn in L, Lc.
    destruct Hp as [->| ->]; [|discriminate E].
    destruct com as [|c1 [|c2 [|c3 [|]]]]; try discriminate Lc.
    cbn in E. injection E as _ _ _ <-. apply Forall_inv in Hd. destruct Hd as [_ Hd]. vm_compute in Hd. exact (Hd eq_refl).
  - reflexivity.
  - vm_compute. reflexivity.
Qed.
Print Assumptions C123_interface_refuted.

(** The name that the documentation gives as an example, without further
    arguments, does not open an interface if python-can is installed. *)
Theorem C123_can0_refuted : exists w name kw,
  make_driver w name kw = Ok (DPythonCan, name, kw) /\ name = txt "can0" /\
  python_can_bus name kw = Err KeyError.
Proof. exists linux_world, (txt "can0"), []. vm_compute. auto. Qed.
Print Assumptions C123_can0_refuted.

(** A number with a colon after it is dropped: the second bus becomes the
    first one. *)
Theorem C123_group_refuted : exists url : text, (exists r, url = txt "1:" ++ r) /\
  mcast_ip url = mcast_ip (txt "0").
Proof. exists (txt "1:57732"). split; [exists (txt "57732")|]; vm_compute; reflexivity. Qed.
Print Assumptions C123_group_refuted.

Example C123_serial_case : serial_port [92; 92; 46; 92; 67; 79; 77; 49; 48] /\ serial_port (txt "/dev/ttyACM0").
Proof.
  split; [right|left; exists (txt "ttyACM0"); reflexivity].
  exists [92; 92; 46; 92], [67; 79; 77], [49; 48]. split; [reflexivity|]. split; [auto|].
  split; [|split; [discriminate|repeat constructor; discriminate]].
  change (txt "com") with [99; 111; 109].
  repeat (apply Forall2_cons; [right; left; split; [split; discriminate|reflexivity]|]). constructor.
Qed.
Example C123_interface_case : ~ com_like (txt "can0") /\ schemeless (txt "PCAN_USBBUS1") /\
  make_driver linux_world (txt "PCAN_USBBUS1") [] =
    Ok (DPythonCan, txt "PCAN_USBBUS1", [(txt "bustype", KwText (txt "pcan"))]).
Proof.
  split; [|split].
  - intros H. apply com_like_iff in H. vm_compute in H. discriminate.
  - intros s d r H E. unfold schemes in H. cbn [In] in H.
    repeat (destruct H as [H|H]; [injection H as <- <-; discriminate E|]). contradiction.
  - vm_compute. reflexivity.
Qed.
Example C123_scheme_case :
  make_driver linux_world (txt "filein:a.bin") [(txt "readonly", KwBool false)] =
    Ok (DFile, txt "a.bin", [(txt "readonly", KwBool true)]) /\
  mcast_ip (txt "17") = Ok (txt "239.65.82.17").
Proof. vm_compute. auto. Qed.

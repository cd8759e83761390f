(** What lies between two nodes: links and bridges. *)
From Verif.Base Require Import Prelude.
From Verif.Model Require Import CanFrame Frames Packets FileLog TsEst Slcan Bridge.
From Verif.Spec Require Import PacketSpec LogSpec SlcanSpec BridgeSpec.
Local Open Scope N_scope.

(** node.py 472-473, 520-521, 542-543: what a node gives to its driver for a frame. *)
Definition given (ts : Z) (f : frame) : cframe := CFrame (f_id f) (f_bytes f) true (f_canfd f) ts.
(** node.py 326: what a node makes of a frame from its driver. *)
Definition as_heard (g : cframe) : frame := Frame (c_id g) (c_data g) (c_fd g) (Some (c_ts g)) None.
(** A frame as the SLCAN driver delivers it, at some time. *)
Definition read_at (ts : Z) (r : rxframe) (g : cframe) : Prop :=
  g = CFrame (Z.to_N (r_id r)) (r_data r) (r_ext r) (r_fd r) ts.

(** One link, or one bridge: the frames that go in, the frames that come out. *)
Inductive hop : list cframe -> list cframe -> Prop :=
| hop_socketcan fs gs :
    Forall2 (fun f g => exists p now, sock_packet f = Ok p /\ sock_parse now p = Ok g) fs gs -> hop fs gs
| hop_multicast fs gs :
    Forall2 (fun f g => exists p now myport address port, myport <> Some port /\
       mcast_packet f = Ok p /\ mcast_receive now myport address port p = Some g) fs gs -> hop fs gs
| hop_mavlink bus fs gs :
    Forall2 (fun f g => exists m now, mav_message bus f = Some m /\ g = mav_parse now m) fs gs -> hop fs gs
| hop_slcan fs lines params reads gs :
    (* the adapter on the other side writes a line for each frame that a line
       of the driver stands for; they are read in any pieces *)
    Forall2 (fun f l => exists line line' r, slcan_encode f = Ok (line ++ [13]) /\
       frame_line r None line /\ frame_line r None line' /\ l = line' ++ [13]) fs lines ->
    stream reads = concat lines ->
    Forall2 (fun r g => exists ts, read_at ts r g) (delivered (rx_reads params rx_new reads)) gs -> hop fs gs
| hop_log f fs now r start calls gs :
    Forall loggable (f :: fs) -> open_log (recorded (f :: fs)) now = Ok r -> (length (f :: fs) <= length calls)%nat ->
    snd (receive_all (recorded (f :: fs)) None (set_start_timestamp r (Some start)) calls) = map Ok gs -> hop (f :: fs) gs
| hop_bridge ids n i j steps :
    let log := b_log (run ids n (start n) steps) in
    (j < n)%nat -> i <> j -> idle i (run ids n (start n) steps) -> Forall (wanted ids) (received i log) ->
    hop (received i log) (forwarded i j log).
(** Any number of them. *)
Inductive route : list cframe -> list cframe -> Prop :=
| route_here fs : route fs fs
| route_on fs gs hs : hop fs gs -> route gs hs -> route fs hs.

(** A frame that fits on a CAN bus, with a length there is a code for. *)
Definition sendable (f : cframe) : Prop :=
  on_bus f /\ c_ext f = true /\ In (N.of_nat (length (c_data f))) legal_lengths.
(** The same frame at another time. *)
Definition same_can (f g : cframe) : Prop :=
  c_id g = c_id f /\ c_data g = c_data f /\ c_ext g = c_ext f /\ c_fd g = c_fd f.

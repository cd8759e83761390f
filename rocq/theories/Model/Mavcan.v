(** CAN over MAVLink (dronecan/driver/mavcan.py): the process that talks to
    the autopilot. Times are in microseconds. The main loop is a sequence of
    events: taking an element of the transmit queue (lines 132-171), or one
    call of [recv_match] (lines 173-192). Writing of commands to the link does
    not raise; the loss display is left out, signing and the end of the process
    are in MavDriver.v. *)
From Verif.Base Require Import Prelude.
From Verif.Model Require Import CanFrame Packets.
Local Open Scope Z_scope.

(** mavcan.py 33-36: what comes from the main process. Buses are counted from
    0 here and in the frame messages. *)
Inductive item := Frame (f : cframe) | BusNum (bus : Z) | FilterList (ids : option (list Z)).

(** What is written to the link: the request to forward a bus (counted from
    1), the filter, and a frame. *)
Inductive sending :=
  | Forward (target bus : Z)
  | Filter (target bus : Z) (num : Z) (ids : list Z)
  | CanSent (target : Z) (m : mavmsg).

Record mav := {
  v_bus : Z; v_target : Z; v_filter : option (list Z); v_last : Z; v_readonly : bool;
  v_sent : list sending; v_received : list cframe
}.
Definition mav_write (s : mav) (l : list sending) : mav :=
  {| v_bus := v_bus s; v_target := v_target s; v_filter := v_filter s; v_last := v_last s; v_readonly := v_readonly s;
     v_sent := v_sent s ++ l; v_received := v_received s |}.

(** [sorted] *)
Fixpoint insert (x : Z) (l : list Z) : list Z :=
  match l with
  | [] => [x]
  | y :: r => if x <=? y then x :: l else y :: insert x r
  end.
Definition sorted (l : list Z) : list Z := fold_right insert [] l.

(** mavcan.py 88-105: the filter message. Packing raises if an identifier is
    not an unsigned number of 16 bits, which is printed only. *)
Definition filter_message (s : mav) : list sending :=
  match v_filter s with
  | None => []
  | Some l =>
      let ids := sorted (firstn 16 l) in
      if forallb (fun i => (0 <=? i) && (i <? 65536)) ids then
        [Filter (v_target s) (v_bus s + 1) (Z.of_nat (length ids)) (ids ++ repeat 0 (16 - length ids)%nat)]
      else []
  end.

(** mavcan.py 69-105 *)
Definition enable_can_forward (now : Z) (s : mav) : mav :=
  if v_readonly s then s
  else
    mav_write {| v_bus := v_bus s; v_target := v_target s; v_filter := v_filter s; v_last := now; v_readonly := v_readonly s;
                 v_sent := v_sent s; v_received := v_received s |}
      (Forward (v_target s) (v_bus s + 1) :: filter_message s).

(** mavcan.py 170, 180 *)
Definition enable_if_due (now : Z) (s : mav) : mav := if v_last s + 1000000 <? now then enable_can_forward now s else s.

(** mavcan.py 107-119, 138-171. Packing a frame raises, which is printed only,
    if the bus is not an unsigned number of 8 bits or the frame does not fit. *)
Definition take (now : Z) (i : item) (s : mav) : mav :=
  if v_readonly s then s
  else match i with
  | BusNum b => {| v_bus := b; v_target := v_target s; v_filter := v_filter s; v_last := v_last s; v_readonly := v_readonly s;
                   v_sent := v_sent s; v_received := v_received s |}
  | FilterList l => {| v_bus := v_bus s; v_target := v_target s; v_filter := l; v_last := v_last s; v_readonly := v_readonly s;
                       v_sent := v_sent s; v_received := v_received s |}
  | Frame f =>
      enable_if_due now
        (if (0 <=? v_bus s) && (v_bus s <? 256) then
           match mav_message (Z.to_N (v_bus s)) f with Some m => mav_write s [CanSent (v_target s) m] | None => s end
         else s)
  end.

(** mavcan.py 173-192: an exception (the link is opened again), nothing, or a
    message with the system it comes from. *)
Inductive reception := LinkLost | NoMessage | Message (system : Z) (m : mavmsg).
Definition mav_recv (now : Z) (r : reception) (s : mav) : mav :=
  match r with
  | LinkLost => s
  | NoMessage => enable_if_due now s
  | Message system m =>
      {| v_bus := v_bus s; v_target := if v_target s =? 0 then system else v_target s; v_filter := v_filter s; v_last := v_last s;
         v_readonly := v_readonly s; v_sent := v_sent s; v_received := v_received s ++ [mav_parse now m] |}
  end.

(** mavcan.py 38-49, 121-122: the start. *)
Definition mav_new (bus target : Z) (readonly : bool) (now : Z) : mav :=
  enable_can_forward now {| v_bus := bus; v_target := target; v_filter := None; v_last := now; v_readonly := readonly; v_sent := []; v_received := [] |}.

Inductive mav_event := Take (now : Z) (i : item) | Recv (now : Z) (r : reception).
Definition mav_step (s : mav) (e : mav_event) : mav :=
  match e with Take now i => take now i s | Recv now r => mav_recv now r s end.
Definition mav_run (s : mav) (l : list mav_event) : mav := fold_left mav_step l s.

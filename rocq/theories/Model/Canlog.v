(** examples/canlog2gps.py: the messages of one type in a recorded log are
    written to a file. The log driver plays the log back all at once.
    Simplifications: [time.sleep] and the progress bar have no effect; Ctrl-C
    is not pressed; the data types are parameters. *)
From Verif.Base Require Import Prelude Bits.
From Verif.Model Require Import Types Prim Codec MsgId Frames TransferManager Sched Node CanFrame FileLog MavTunnel.
Local Open Scope Z_scope.

Section Canlog.
  Variable clk : nat -> Z.
  Variable status : list nobs -> value.
  Variable status_dt : datatype.
  Variable types : datatypes.
  Variable second : Z.
  (** The response to GetNodeInfo. *)
  Variable node_info : option (datatype * value).
  (** Where the field [data] is in the message type, if it has one. *)
  Variable pos : option nat.
  (** The log, the number of the message type, and 0.001 s. *)
  Variable content : list N.
  Variable dtid : N.
  Variable tick : Z.
  Variables (interval : Z) (info : typeid) (fuel : nat).

  (** transport.py 459-460, and the attribute access of line 22; [None] is
      AttributeError. *)
  Definition data_in (v : value) : option (list N) :=
    match v, pos with
    | VComp vs _, Some i => match nth_error vs i with Some (VArr items) => get_bytes items | _ => None end
    | _, _ => None
    end.
  (** 20-22: [handle_Data] is handler 1 (26); what it writes is read off the
      log of the node ([written]). Handler 0 is the one for GetNodeInfo. *)
  Definition callbacks (l : list nobs) : list (nop * bool) * outcome :=
    match last l (ONodeId 0) with
    | OHandled hd t =>
        if Nat.eqb (hd_id hd) 1
        then ([], match data_in (rx_value t) with Some _ => Returns None | None => Raises end)
        else ([], Returns node_info)
    | _ => ([], Returns None)
    end.
  Fixpoint written (l : list nobs) : list N :=
    match l with
    | [] => []
    | OHandled hd t :: l' =>
        (if Nat.eqb (hd_id hd) 1 then match data_in (rx_value t) with Some b => b | None => [] end else []) ++ written l'
    | _ :: l' => written l'
    end.
  (** file.py 162-164: [send_frame] does nothing when the log is played back. *)
  Definition discards (l : list nobs) (fs : list frame) : option exn := None.

  (** 18, 26: [make_node] with node id 10 and [add_handler]. *)
  Definition the_node : node :=
    fst (apply_nop clk discards second (new_node clk (Some 10%N) false true interval info)
           (NAddHandler (Some (dtid, false)) false)).

  (** node.py 422-435: [execute_once] with the log driver, whose state is
      [r]. The driver is not called if the scheduler raises, but then the
      program is over. The driver looks at neither the clock nor the timeout
      (file.py 145-148: [speedup] is -1, [start_monotonic_ts] is set). *)
  Definition log_once (deadline : Z) (r : reader) (s : node) : reader * node * option exn :=
    let '(r, x) := FileLog.receive content None r None 0 in
    let x := match x with
             | Ok (Some g) => Ok (Some (c_ext g, Frame (c_id g) (c_data g) (c_fd g) (Some (c_ts g)) None))
             | Ok None => Ok None
             | Err e => Err e
             end in
    match execute_once clk callbacks discards status status_dt types second (fun _ _ _ => x) fuel (Some deadline) s [] 0 with
    | (s, _, Ok _) => (r, s, None)
    | (s, _, Err e) => (r, s, Some e)
    end.
  (** node.py 437-447: the loop of [spin]. *)
  Fixpoint log_loop (turns : nat) (deadline : Z) (r : reader) (s : node) : reader * node * option exn :=
    match turns with
    | O => (r, s, Some RuntimeError)
    | S turns' =>
        let (now, s) := nread clk s in
        if now <? deadline then
          match log_once deadline r s with
          | (r, s, Some e) => (r, s, Some e)
          | (r, s, None) => log_loop turns' deadline r s
          end
        else (r, s, None)
    end.
  (** 33: [node.spin(0.001)]. *)
  Definition log_spin (turns : nat) (r : reader) (s : node) : reader * node * option exn :=
    let (now, s) := nread clk s in
    match log_once (now + tick) r s with
    | (r, s, Some e) => (r, s, Some e)
    | (r, s, None) => log_loop turns (now + tick) r s
    end.
  (** 31-41: the main loop: [Ok] for [sys.exit(0)], and [None] if it has not
      ended after [loops] rounds. Each round may take [turns] turns of the loop
      of [spin]. *)
  Fixpoint convert_loop (turns loops : nat) (r : reader) (s : node) : node * option (res unit) :=
    match loops with
    | O => (s, None)
    | S loops' =>
        match log_spin turns r s with
        | (_, s, Some e) => (s, Some (Err e))
        | (r, s, None) => if r_eof r then (s, Some (Ok tt)) else convert_loop turns loops' r s
        end
    end.
  (** 16-44; [now] is the clock reading of file.py 49. *)
  Definition convert (turns loops : nat) (now : Z) : node * option (res unit) :=
    match open_log content now with
    | Err e => (the_node, Some (Err e))
    | Ok r => convert_loop turns loops r the_node
    end.
End Canlog.

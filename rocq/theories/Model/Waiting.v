(** The example programs that wait for other nodes: esc_control.py,
    esc_enumeration.py, hobbywing_esc.py, firmware_update.py. *)
From Verif.Base Require Import Prelude.
From Verif.Model Require Import Monitor.

Section Waiting.
  (** As for [NodeMonitor]. *)
  Variables timeout min_retry : Z.

  (** node_monitor.py 133-135: [get_all_node_id]. *)
  Definition all_node_id (s : monitor) : list N := map fst (mo_registry s).

  (** [while len(node_monitor.get_all_node_id()) < least: node.spin(...)]. A
      call of [spin] is what the monitor sees during it: exceptions of its
      handlers are logged by the node, and those of the driver end the program
      or the call of [spin]. [None]: still waiting. *)
  Fixpoint wait (least : nat) (s : monitor) (spins : list (list mevent)) : option (monitor * list (list mevent)) :=
    if Nat.ltb (length (all_node_id s)) least then
      match spins with
      | [] => None
      | evs :: spins => wait least (fold_left (mstep timeout min_retry) evs s) spins
      end
    else Some (s, spins).

  (** esc_control.py 44-47, esc_enumeration.py 146-149: while there are one or
      none. *)
  Definition esc_wait : list (list mevent) -> option (monitor * list (list mevent)) := wait 2 (Monitor [] []).
  (** hobbywing_esc.py 19-27, firmware_update.py 51-59. *)
  Definition other_wait : list (list mevent) -> option (monitor * list (list mevent)) := wait 1 (Monitor [] []).
  (** firmware_update.py 61-64; [None]: the list is empty. *)
  Definition target (given : Z) (s : monitor) : option Z :=
    if (given =? -1)%Z then match all_node_id s with n :: _ => Some (Z.of_N n) | [] => None end else Some given.
End Waiting.

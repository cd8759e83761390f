(** dronecan/app/dynamic_node_id.py on dronecan/app/node_monitor.py: the
    allocation server with the node monitor it is constructed with (83-113) and
    whose events it handles (91, 118-128). Both run on the thread of the node,
    one event at a time.
    Simplifications: the server is the monitor's only update handler (a handler
    that raises could keep events from it; see C135); the number standing for a
    GetNodeInfo response determines the unique id in it. *)
From Verif.Base Require Import Prelude.
From Verif.Model Require Import Monitor Allocator.
Local Open Scope N_scope.

Record system := Sys { sy_mon : monitor; sy_srv : server }.

(** Something for the monitor, with the wall clock read by the allocation
    table; or an Allocation message ([am_discovered] is not looked at: line 150
    asks the monitor). *)
Inductive sevent :=
| SMonitor (e : mevent) (wall : Z)
| SMessage (m : amsg).

Definition with_discovered (m : amsg) (d : bool) : amsg :=
  Amsg (am_source m) d (am_first m) (am_node m) (am_uid m) (am_ts m) (am_now m) (am_wall m) (am_sent m).

Section AllocSystem.
  Variable uid_of : N -> uid.
  Variables timeout min_retry : Z.
  Variable tie : list N -> nat.
  Variable query_timeout : Z.
  Variables lo hi : N.

  (** [_call_event_handlers] (node_monitor.py 110-112) with the handler of the
      server: [event.entry] is the entry of the node, which has its info when
      the event is an update and has none when it is new. *)
  Definition tell (e : mevent) (wall : Z) (s : server) (o : mobs) : server :=
    match o with
    | MNew n => on_monitor s false n None wall
    | MUpdate n => on_monitor s false n (match e with MInfo _ _ i _ _ _ => Some (uid_of i) | _ => None end) wall
    | MOffline n => on_monitor s true n None wall
    | _ => s
    end.

  Definition sys_step (s : system) (e : sevent) : system :=
    match e with
    | SMonitor e wall =>
        let m := mstep timeout min_retry (sy_mon s) e in
        Sys m (fold_left (tell e wall) (skipn (length (mo_log (sy_mon s))) (mo_log m)) (sy_srv s))
    | SMessage m =>
        Sys (sy_mon s)
            (on_message tie query_timeout lo hi (sy_srv s) (with_discovered m (all_discovered (sy_mon s))))
    end.

  (** 83-113: the constructor, with a monitor that has seen [evs0]: the nodes
      of [find_all(lambda _: True)] with their unique ids, if known. *)
  Definition listed_nodes (m : monitor) (wall : Z) : list (N * option uid * Z) :=
    map (fun r => (fst r, option_map uid_of (en_info (snd r)), wall)) (mo_registry m).
  Definition sys_start (db : table) (own : N) (own_uid : uid) (wall : Z) (evs0 : list mevent) : system :=
    let m := monitored timeout min_retry evs0 in
    Sys m (start db own own_uid wall (listed_nodes m wall)).

  Definition sys_run (s : system) (evs : list sevent) : system := fold_left sys_step evs s.
End AllocSystem.

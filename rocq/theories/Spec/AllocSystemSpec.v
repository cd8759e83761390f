(** What the allocation server and the node monitor promise together. *)
From Verif.Base Require Import Prelude.
From Verif.Model Require Import Monitor Allocator AllocSystem.
From Verif.Spec Require Import MonitorSpec AllocatorSpec.
Local Open Scope N_scope.

(** What the monitor was given. *)
Definition for_monitor (evs : list sevent) : list mevent :=
  flat_map (fun e => match e with SMonitor e _ => [e] | SMessage _ => [] end) evs.

(** Node ids are of seven bits. *)
Definition seven_bits (evs : list mevent) : Prop :=
  forall e n, In e evs -> heard_in n e <> [] -> n <= 127.
Definition seven_bits_asked (evs : list sevent) : Prop :=
  forall m, In (SMessage m) evs -> am_node m <= 127.

(** A message by which a node introduces itself: a NodeStatus, or a GetNodeInfo
    response with a name in UTF-8. *)
Definition introduces (n : N) (e : mevent) : Prop :=
  match e with
  | MStatus n' _ _ _ _ => n' = n
  | MInfo n' _ _ _ _ text => n' = n /\ text = true
  | _ => False
  end.

(** Node [n] has been heard, and the first message from it was one of those. *)
Definition came_introduced (n : N) (evs : list mevent) : Prop :=
  exists a e b, evs = a ++ e :: b /\ heard n a = [] /\ introduces n e.

(** Device [u] is or was the one with id [n]: so says the database of an
    earlier run, or it is the server itself, or a GetNodeInfo response from
    node [n] carried [u], or the server gave [n] to [u] before. *)
Definition was_at (uid_of : N -> uid) (db : table) (own : N) (own_uid : uid) (evs : list mevent)
    (l : list aobs) (n : N) (u : uid) : Prop :=
  (exists w, In (n, (Some u, w)) db) \/
  (n = own /\ u = own_uid) \/
  (exists up i ts now text, In (MInfo n up i ts now text) evs /\ uid_of i = u) \/
  In (OAlloc n u) l.

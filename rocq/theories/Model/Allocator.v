(** dronecan/app/dynamic_node_id.py 25-224: [CentralizedServer]. *)
From Verif.Base Require Import Prelude.
Local Open Scope N_scope.

Definition uid := list N.                      (* bytes *)
Definition uid_eqb (a b : uid) : bool := if list_eq_dec N.eq_dec a b then true else false.

(** The table: node id to unique id ([None]: NULL) and time of writing.
    Simplification: the SQL table with primary key [node_id] is a dictionary;
    [CURRENT_TIMESTAMP] is a number. *)
Definition table := list (N * (option uid * Z)).

(** 48-55: [set] ("insert or replace"). *)
Definition all_zero (u : uid) : bool := forallb (N.eqb 0) u.
Definition stored (u : option uid) : option uid :=
  match u with Some u => if all_zero u then None else Some u | None => None end.
Definition table_set (t : table) (u : option uid) (nid : N) (wall : Z) : table :=
  dset N.eqb t nid (stored u, wall).

(** 65-70: [get_unique_id]; 72-76: [is_known_node_id]. *)
Definition get_unique_id (t : table) (nid : N) : option uid :=
  match dget N.eqb t nid with Some (u, _) => u | None => None end.
Definition is_known (t : table) (nid : N) : bool := dmem N.eqb t nid.

(** What comes in. For a message: its source, whether the monitor has
    discovered all nodes, its fields and time stamp, the readings of both
    clocks, and whether the broadcast of the answer returns (or raises). *)
Record amsg := Amsg {
  am_source : N; am_discovered : bool;
  am_first : bool; am_node : N; am_uid : uid;
  am_ts : Z; am_now : Z; am_wall : Z; am_sent : bool
}.
Inductive aevent :=
| AMessage (m : amsg)
| AMonitor (offline : bool) (nid : N) (u : option uid) (wall : Z).

(** What goes out: a query for the next part, or an allocation; and, for
    reference, what the monitor said. *)
Inductive aobs :=
| OQuery (u : uid)
| OAlloc (nid : N) (u : uid)
| OReport (nid : N) (u : option uid).

Record server := Server {
  sv_table : table;
  sv_query : uid;
  sv_query_ts : Z;
  sv_log : list aobs
}.

(** [range(a, b)] and [range(a, b, -1)]. *)
Definition range_up (a b : N) : list N := map (fun i => a + N.of_nat i) (seq 0 (N.to_nat (b - a))).
Definition range_down (a b : N) : list N := map (fun i => a - N.of_nat i) (seq 0 (N.to_nat (a - b))).

Section Allocator.
  (** Which of several newest rows SQLite returns; the timeout of a query; the
      configured range. *)
  Variable tie : list N -> nat.
  Variable query_timeout : Z.
  Variables lo hi : N.

  (** 57-63: [get_node_id]: "where unique_id = ? order by ts desc limit 1". *)
  Definition rows_of (t : table) (u : uid) : list (N * Z) :=
    flat_map (fun r => match fst (snd r) with
                       | Some u' => if uid_eqb u' u then [(fst r, snd (snd r))] else []
                       | None => [] end) t.
  Definition newest (rows : list (N * Z)) : list N :=
    map fst (filter (fun r => forallb (fun r' => (snd r' <=? snd r)%Z) rows) rows).
  Definition get_node_id (t : table) (u : uid) : option N :=
    let c := newest (rows_of t u) in nth_error c (Nat.modulo (tie c) (length c)).

  (** 118-128: [_handle_monitor_event]. *)
  Definition on_monitor (s : server) (offline : bool) (nid : N) (u : option uid) (wall : Z) : server :=
    if offline then s
    else
      let t := match get_unique_id (sv_table s) nid with
               | None => table_set (sv_table s) u nid wall
               | Some _ => sv_table s
               end in
      Server t (sv_query s) (sv_query_ts s) (sv_log s ++ [OReport nid u]).

  (** 191-208: the choice of the id. An id of 0 counts as none. *)
  Definition truthy (x : option N) : option N :=
    match x with Some n => if n =? 0 then None else Some n | None => None end.
  Definition choose (t : table) (requested : N) (u : uid) : option N :=
    let unknown n := negb (is_known t n) in
    let given := get_node_id t u in
    let given := match truthy given with
                 | Some _ => given
                 | None => if requested =? 0 then given
                           else match find unknown (range_up requested hi) with
                                | Some n => Some n | None => given end
                 end in
    match truthy given with
    | Some n => Some n
    | None => truthy (match find unknown (range_down hi lo) with
                      | Some n => Some n | None => given end)
    end.

  (** 137-224: [_on_allocation_message]. [response.node_id] is a saturated
      uint7. *)
  Definition on_message (s : server) (m : amsg) : server :=
    if negb (am_source m =? 0) then s
    else if negb (am_discovered m) then s
    else
      let q := if negb (Nat.eqb (length (sv_query s)) 0) &&
                  (query_timeout <? am_now m - sv_query_ts s)%Z then [] else sv_query s in
      if am_first m then
        Server (sv_table s) (am_uid m) (am_ts m) (sv_log s ++ [OQuery (am_uid m)])
      else if Nat.eqb (length (am_uid m)) 6 && Nat.eqb (length q) 6 then
        Server (sv_table s) (q ++ am_uid m) (am_ts m) (sv_log s ++ [OQuery (q ++ am_uid m)])
      else if Nat.eqb (length (am_uid m)) 4 && Nat.eqb (length q) 12 then
        let u := q ++ am_uid m in
        match choose (sv_table s) (am_node m) u with
        | Some n =>
            Server (table_set (sv_table s) (Some u) n (am_wall m))
                   (if am_sent m then [] else u) (am_ts m)
                   (sv_log s ++ [OAlloc (N.min n 127) u])
        | None => Server (sv_table s) u (am_ts m) (sv_log s)
        end
      else Server (sv_table s) q (sv_query_ts s) (sv_log s).

  Definition astep (s : server) (e : aevent) : server :=
    match e with
    | AMessage m => on_message s m
    | AMonitor off nid u wall => on_monitor s off nid u wall
    end.

  (** 83-113: the constructor, on a database with the rows [db]: the own id,
      then the nodes the monitor knows, with the times of writing. *)
  Definition start (db : table) (own : N) (own_uid : uid) (wall : Z)
      (known : list (N * option uid * Z)) : server :=
    let t := table_set db (Some own_uid) own wall in
    Server (fold_left (fun t e => table_set t (snd (fst e)) (fst (fst e)) (snd e)) known t) [] 0 [].

  Definition served (s : server) (evs : list aevent) : server := fold_left astep evs s.
End Allocator.

(** dronecan/app/node_monitor.py: [NodeMonitor].
    Simplifications: the status is its uptime, the node info a number standing
    for the response; the update handlers return and leave the monitor alone
    (the allocator's does). *)
From Verif.Base Require Import Prelude.
Local Open Scope Z_scope.

(** 23: [MAX_RETRIES]. *)
Definition max_retries : nat := 10.

(** 25-32: [Entry]. The time stamp is set right after the creation. *)
Record entry := Entry {
  en_uptime : option N;      (* of [status]; [None]: no status *)
  en_info : option N;
  en_ts : Z;
  en_retries : nat;          (* [_remaining_retries] *)
  en_asked : Z               (* [_info_requested_at] *)
}.
Definition new_entry : entry := Entry None None 0 max_retries 0.

(** 34-36: [discovered]. *)
Definition discovered (e : entry) : bool :=
  match en_info e with Some _ => true | None => Nat.leb (en_retries e) 0 end.

(** What comes in: a NodeStatus, a GetNodeInfo response (to our request or
    overheard; [text]: its name is valid UTF-8), a GetNodeInfo request to this
    node, the timer, a call of [get]. The readings of the clock come with
    them; the timer reads it once for each node. *)
Inductive mevent :=
| MStatus (n : N) (uptime : N) (ts now : Z) (anonymous : bool)
| MInfo (n : N) (uptime info : N) (ts now : Z) (text : bool)
| MRequest (n : N) (ts now : Z)
| MTick (now : N -> Z)
| MGet (n : N) (now : Z).

(** The log: what came in, the events reported to the handlers, the requests
    for info, with the time they are booked at, and exceptions. *)
Inductive mobs :=
| MIn (e : mevent)
| MNew (n : N)
| MUpdate (n : N)
| MOffline (n : N)
| MAsk (n : N) (ts : Z)
| MRaise (x : exn).

Record monitor := Monitor { mo_registry : list (N * entry); mo_log : list mobs }.
Definition say (s : monitor) (o : mobs) : monitor := Monitor (mo_registry s) (mo_log s ++ [o]).
Definition put (s : monitor) (n : N) (e : entry) : monitor := Monitor (dset N.eqb (mo_registry s) n e) (mo_log s).
Definition drop (s : monitor) (n : N) : monitor := Monitor (ddel N.eqb (mo_registry s) n) (mo_log s).

Section Monitor.
  (** [TIMEOUT], [MIN_RETRY_INTERVAL]. *)
  Variables timeout min_retry : Z.

  (** 38-46: [_update_from_status]. *)
  Definition update_from_status (e : entry) (uptime : N) (ts : Z) : entry :=
    let restarted := match en_uptime e with Some u => (uptime <? u)%N | None => false end in
    if restarted then Entry (Some uptime) None ts max_retries (en_asked e)
    else Entry (Some uptime) (en_info e) ts (en_retries e) (en_asked e).

  (** 48-53: [_update_from_info], on a response. *)
  Definition update_from_info (e : entry) (uptime info : N) (ts : Z) : entry :=
    Entry (Some uptime) (Some info) ts max_retries (en_asked e).

  Definition stale (e : entry) (now : Z) : bool := en_ts e + timeout <? now.

  (** 121-131: [get]; [None] for a KeyError. *)
  Definition get (s : monitor) (n : N) (now : Z) : monitor * option entry :=
    match dget N.eqb (mo_registry s) n with
    | None => (s, None)
    | Some e => if stale e now then (drop (say s (MOffline n)) n, None) else (s, Some e)
    end.

  (** 156-160: [_remove_stale]. *)
  Definition remove_stale (s : monitor) (now : N -> Z) : monitor :=
    fold_left (fun s (r : N * entry) =>
                 if stale (snd r) (now (fst r)) then say (drop s (fst r)) (MOffline (fst r)) else s)
              (mo_registry s) s.

  (** 162-185: [_on_node_status]. Whether the request succeeds makes no
      difference to the monitor. *)
  Definition on_status (s : monitor) (n uptime : N) (ts now : Z) (anonymous : bool) : monitor :=
    let (s, found) := get s n now in
    let e := update_from_status (match found with Some e => e | None => new_entry end) uptime ts in
    let s := put s n e in
    let s := match found with Some _ => s | None => say s (MNew n) end in
    if negb (discovered e) && negb anonymous && (min_retry <? en_ts e - en_asked e) then
      match en_retries e with
      | O => say (put s n (Entry (en_uptime e) (en_info e) (en_ts e) O (en_ts e))) (MRaise AssertionError)
      | S r => say (put s n (Entry (en_uptime e) (en_info e) (en_ts e) r (en_ts e))) (MAsk n (en_ts e))
      end
    else s.

  (** 187-224: [_on_info_response]. *)
  Definition on_info (s : monitor) (n uptime info : N) (ts now : Z) (text : bool) : monitor :=
    let (s, found) := get s n now in
    let e := match found with Some e => e | None => new_entry end in
    let s := put s n (update_from_info e uptime info ts) in
    if text then say s (MUpdate n) else say s (MRaise UnicodeError).

  (** The same method on a request: the handler is registered for both, but a
      request has no [response]; [_update_from_info] stops at 52. *)
  Definition on_request (s : monitor) (n : N) (ts now : Z) : monitor :=
    let (s, found) := get s n now in
    let e := match found with Some e => e | None => new_entry end in
    say (put s n (Entry (en_uptime e) (en_info e) ts max_retries (en_asked e))) (MRaise AttributeError).

  Definition mstep (s : monitor) (e : mevent) : monitor :=
    let s := say s (MIn e) in
    match e with
    | MStatus n up ts now anon => on_status s n up ts now anon
    | MInfo n up i ts now text => on_info s n up i ts now text
    | MRequest n ts now => on_request s n ts now
    | MTick now => remove_stale s now
    | MGet n now => fst (get s n now)
    end.

  Definition monitored (evs : list mevent) : monitor := fold_left mstep evs (Monitor [] []).

  (** 114-119: [exists]; 146-149: [are_all_nodes_discovered]. *)
  Definition listed (s : monitor) (n : N) : bool := dmem N.eqb (mo_registry s) n.
  Definition all_discovered (s : monitor) : bool := forallb (fun r => discovered (snd r)) (mo_registry s).
End Monitor.

(** What the allocator promises, in terms of what came in and went out. *)
From Verif.Base Require Import Prelude.
From Verif.Model Require Import Allocator.
Local Open Scope N_scope.

(** Ids that were given to [u], in order. *)
Definition given_to (u : uid) (l : list aobs) : list N :=
  flat_map (fun o => match o with
                     | OAlloc n u' => if list_eq_dec N.eq_dec u' u then [n] else []
                     | _ => [] end) l.

(** A unique id that identifies a device has a byte that is not zero. *)
Definition identifies (u : uid) : bool := existsb (fun b => negb (b =? 0)) u.

(** A database as this program writes it: one row for each node id, and no
    unique id that identifies nothing. *)
Definition good_table (t : table) : Prop :=
  NoDup (map fst t) /\ forall n u ts, In (n, (u, ts)) t -> n <= 127 /\
    forall u', u = Some u' -> identifies u' = true.

(** Node ids are of seven bits. *)
Definition good_event (e : aevent) : Prop :=
  match e with AMonitor _ n _ _ => n <= 127 | AMessage m => am_node m <= 127 end.

(** The unique ids said to be at node [n]: in the table at the start, then by
    the monitor or by an allocation, in order. *)
Definition row_at (t : table) (n : N) : list (option uid) :=
  flat_map (fun r => if fst r =? n then [fst (snd r)] else []) t.
Definition said_at (n : N) (l : list aobs) : list (option uid) :=
  flat_map (fun o => match o with
                     | OReport n' u => if n' =? n then [u] else []
                     | OAlloc n' u => if n' =? n then [Some u] else []
                     | OQuery _ => [] end) l.
Definition said (t : table) (l : list aobs) (n : N) : list (option uid) := row_at t n ++ said_at n l.

(** The device node [n] belongs to: the first one that could be identified. *)
Definition belongs (t : table) (l : list aobs) (n : N) : option uid :=
  hd_error (flat_map (fun u => match u with
                               | Some u' => if identifies u' then [u'] else []
                               | None => [] end) (said t l n)).

(** Device [u] is at node [n] only. *)
Definition only_at (t : table) (evs : list aevent) (u : uid) (n : N) : Prop :=
  (forall n' ts, In (n', (Some u, ts)) t -> n' = n) /\
  (forall n' w, In (AMonitor false n' (Some u) w) evs -> n' = n).

(** A message the allocator listens to. *)
Definition heeded (m : amsg) : Prop := am_source m = 0 /\ am_discovered m = true.

(** Nothing in [b] starts over or continues the unique id collected so far. *)
Definition untouched (u : uid) (b : list aevent) : Prop :=
  forall m, In (AMessage m) b -> heeded m ->
    am_first m = false /\
    (length u = 6%nat -> length (am_uid m) <> 6%nat) /\
    (length u = 12%nat -> length (am_uid m) <> 4%nat).

(** The events collect the beginning [u] of a unique id, last added to at [ts]:
    a first part, and then a part of six bytes within the timeout. *)
Inductive collected (timeout : Z) : list aevent -> uid -> Z -> Prop :=
| col_first a m b : heeded m -> am_first m = true -> untouched (am_uid m) b ->
    collected timeout (a ++ AMessage m :: b) (am_uid m) (am_ts m)
| col_next a m b u ts : collected timeout a u ts -> heeded m -> am_first m = false ->
    length u = 6%nat -> length (am_uid m) = 6%nat -> (am_now m - ts <= timeout)%Z ->
    untouched (u ++ am_uid m) b ->
    collected timeout (a ++ AMessage m :: b) (u ++ am_uid m) (am_ts m).

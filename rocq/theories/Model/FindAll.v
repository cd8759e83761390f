(** dronecan/app/node_monitor.py 137-149: [find_all] and
    [are_all_nodes_discovered]. *)
From Verif.Base Require Import Prelude.
From Verif.Model Require Import Monitor.

(** How the generator ends. *)
Inductive ending := Finished | Raised (x : exn) | Unspecified.

Section FindAll.
  (** As for [NodeMonitor]. *)
  Variables timeout min_retry : Z.
  (** The predicate; it returns, and leaves the monitor alone. *)
  Variable predicate : N -> entry -> bool.

  (** 142-144, of the registry with [keys], with those of [todo] still to come.
      The monitor sees the first of [between] while the caller has the first
      entry, and so on. The iterator of a dict first compares the number of
      entries with that at its start. What it does if they are as many but not
      the same depends on the implementation. An entry is an object: the
      caller gets it with what it holds then. *)
  Fixpoint find_from (keys todo : list N) (s : monitor) (between : list (list mevent)) : monitor * list (N * entry) * ending :=
    if negb (Nat.eqb (length (mo_registry s)) (length keys)) then (s, [], Raised RuntimeError)
    else if list_eq_dec N.eq_dec (map fst (mo_registry s)) keys then
         match todo with
         | [] => (s, [], Finished)
         | n :: todo =>
             match dget N.eqb (mo_registry s) n with
             | None => (s, [], Unspecified)
             | Some e =>
                 if predicate n e then
                   let '(s, l, r) := find_from keys todo (fold_left (mstep timeout min_retry) (hd [] between) s) (tl between) in
                   (s, (n, e) :: l, r)
                 else find_from keys todo s between
             end
         end
    else (s, [], Unspecified).
  (** The body runs from the first [next] on. *)
  Definition find_all (s : monitor) (between : list (list mevent)) : monitor * list (N * entry) * ending :=
    let keys := map fst (mo_registry s) in find_from keys keys s between.
End FindAll.

(** 146-149; [list] takes all at once. *)
Definition are_all_discovered (timeout min_retry : Z) (s : monitor) : bool :=
  match find_all timeout min_retry (fun _ e => negb (discovered e)) s [] with (_, l, _) => Nat.eqb (length l) 0 end.

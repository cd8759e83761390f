(** What the collector promises. *)
From Verif.Base Require Import Prelude.
From Verif.Model Require Import Collector.
Local Open Scope Z_scope.

(** The messages received with key [k]. *)
Definition received (k : N) (evs : list cevent) : list (Z * N) :=
  flat_map (fun e => match e with
                     | CReceive k' ts m => if (k' =? k)%N then [(ts, m)] else []
                     | _ => [] end) evs.
(** The clock as read about key [k]. *)
Definition readings_of (k : N) (evs : list cevent) : list Z :=
  flat_map (fun e => match e with
                     | CGet k' now => if (k' =? k)%N then [now] else []
                     | CIter now => [now k]
                     | _ => [] end) evs.
Definition in_time (timeout : option Z) (ts now : Z) : Prop :=
  match timeout with Some t => now <= ts + t | None => True end.
(** The clock does not go back. *)
Definition clock_to (k : N) (evs : list cevent) (now : Z) : Prop :=
  forall r, In r (readings_of k evs) -> r <= now.

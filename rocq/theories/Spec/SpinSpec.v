(** How long a spinning node may wait for a frame. *)
From Verif.Base Require Import Prelude.
From Verif.Model Require Import Sched Node.
Local Open Scope Z_scope.

(** [s]: the node after it polled its scheduler, [now]: the clock after that.
    It does not wait beyond the end of spinning, beyond a second, or beyond the
    next scheduled event by more than [late]. *)
Definition wakes_in_time (second late : Z) (deadline : option Z) (s : node) (now t : Z) : Prop :=
  0 <= t <= second /\
  (forall d, deadline = Some d -> now + t <= Z.max now d) /\
  (forall e, In e (n_queue s) -> now + t <= Z.max now (ev_time e + late)).
(** And it waits until one of them. *)
Definition waits_for_something (second late : Z) (deadline : option Z) (s : node) (now t : Z) : Prop :=
  t = second \/ (exists d, deadline = Some d /\ Z.max now d = now + t) \/
  (exists e, In e (n_queue s) /\ Z.max now (ev_time e + late) = now + t).

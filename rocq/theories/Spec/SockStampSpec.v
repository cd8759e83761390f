(** What the time stamps of frames from a socket should be. *)
From Verif.Base Require Import Prelude.
From Verif.Model Require Import SockStamp.
Local Open Scope Z_scope.

(** [time.monotonic] does not go back. *)
Fixpoint monotonic (t : Z) (l : list reading) : Prop :=
  match l with [] => True | r :: l' => t <= r_mono r /\ monotonic (r_mono r) l' end.
(** The clock of [time.time] is ahead by [c], and it is read up to [d]
    microseconds after the other. *)
Definition even (c d : Z) (l : list reading) : Prop := Forall (fun r => c <= r_real r - r_mono r <= c + d) l.
(** The time the kernel gave, on the monotonic clock as just read. *)
Definition direct (r : reading) : Z := r_kernel r - (r_real r - r_mono r).

(** What updating the firmware of a node means. *)
From Verif.Base Require Import Prelude.
From Verif.Model Require Import FwUpdate.
Local Open Scope Z_scope.

(** The statuses of the target, with their times. *)
Definition statuses (target : N) (evs : list event) : list (Z * N) :=
  flat_map (fun e => match e with
                     | EStatus t (Some n) mode => if N.eqb n target then [(t, mode)] else []
                     | _ => []
                     end) evs.
(** The target was in update mode. *)
Definition seen_updating (target : N) (evs : list event) : Prop := exists t, In (t, 3%N) (statuses target evs).
(** It was in update mode from [t1] on, and then, first at [t2], in another. *)
Definition updated (target : N) (evs : list event) (t1 t2 : Z) : Prop :=
  exists p q r m, statuses target evs = p ++ (t1, 3%N) :: q ++ (t2, m) :: r /\
    Forall (fun s => snd s <> 3%N) p /\ Forall (fun s => snd s = 3%N) q /\ m <> 3%N.
(** The requests and answers. *)
Definition talk (l : list entry) : list entry := filter (fun e => match e with LComplete _ => false | _ => true end) l.
Definition requests (l : list entry) : list entry := filter (fun e => match e with LRequest _ => true | _ => false end) l.
(** What was printed. *)
Definition printed (l : list entry) : list Z := flat_map (fun e => match e with LComplete d => [d] | _ => [] end) l.

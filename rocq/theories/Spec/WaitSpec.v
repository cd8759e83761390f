(** Waiting for nodes. *)
From Verif.Base Require Import Prelude.
From Verif.Model Require Import Monitor.

(** Something came from the node. *)
Definition came_from (n : N) (e : mevent) : Prop :=
  match e with MStatus m _ _ _ _ | MInfo m _ _ _ _ _ | MRequest m _ _ => m = n | _ => False end.
(** Nothing is heard of any other node. *)
Definition only (n : N) (e : mevent) : Prop := forall m, came_from m e -> m = n.

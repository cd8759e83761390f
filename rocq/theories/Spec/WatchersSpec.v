(** What the update handlers of the node monitor are told. *)
From Verif.Base Require Import Prelude.
From Verif.Model Require Import Monitor Watchers.

(** The events handler [h] was called with. *)
Definition notices (h : nat) (l : list notice) : list mobs :=
  flat_map (fun c => if Nat.eqb (fst c) h then [snd c] else []) l.

(** The events in a log of the monitor. *)
Definition is_event (o : mobs) : bool :=
  match o with MNew _ | MUpdate _ | MOffline _ => true | _ => false end.
Definition events (l : list mobs) : list mobs := filter is_event l.

(** What came to the monitor. *)
Definition inputs (es : list wevent) : list mevent :=
  flat_map (fun e => match e with WIn e => [e] | _ => [] end) es.

(** Handlers that do not raise and remove no handler. *)
Definition tame (beh : list notice -> list watch_op * option exn) : Prop :=
  forall l, snd (beh l) = None /\ forall h, ~ In (WHRemove h) (fst (beh l)).

(** The log of the plain monitor, but for its exceptions, which [Watchers]
    returns and does not log. *)
Definition unraised (l : list mobs) : list mobs :=
  filter (fun o => match o with MRaise _ => false | _ => true end) l.

Definition adds_none (beh : list notice -> list watch_op * option exn) : Prop :=
  forall l, ~ In WHAdd (fst (beh l)).
Definition is_add (e : wevent) : bool := match e with WAdd => true | _ => false end.

(** Nothing that comes to a closed monitor: no info response or request, and
    no call of [get]. *)
Definition undisturbed (es : list wevent) : Prop :=
  forall e, In e es -> match e with WIn (MInfo _ _ _ _ _ _) | WIn (MRequest _ _ _) | WIn (MGet _ _) => False | _ => True end.

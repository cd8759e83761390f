(** What the bridge is to do. *)
From Verif.Base Require Import Prelude.
From Verif.Model Require Import CanFrame Bridge.

(** Frames that interface [i] received, oldest first. *)
Definition received (i : nat) (log : list happening) : list cframe :=
  flat_map (fun h => match h with Received i' f => if Nat.eqb i' i then [f] else [] | _ => [] end) log.

(** Frames that came from interface [i] and were handed to interface [j]. *)
Definition forwarded (i j : nat) (log : list happening) : list cframe :=
  flat_map (fun h => match h with
                     | Sent i' j' f _ => if Nat.eqb i' i && Nat.eqb j' j then [f] else []
                     | _ => []
                     end) log.

(** The frame comes from a node that is to be forwarded: the low seven bits of
    the identifier are the source node. *)
Definition wanted (ids : option (list N)) (f : cframe) : Prop :=
  match ids with None => True | Some l => In (c_id f mod 128)%N l end.

(** Nothing but frames came from the receive calls of interface [i], and no
    send call made for a frame of it failed other than by a full queue. *)
Definition undisturbed (i : nat) (steps : list (nat * receipt * delivery)) : Prop :=
  forall r d, In (i, r, d) steps ->
    (forall e, r <> RError e) /\ (forall e, d <> Failed e).

(** Thread [i] has nothing left to hand on. *)
Definition idle (i : nat) (b : bridge) : Prop :=
  exists t, nth_error (b_threads b) i = Some t /\ th_pc t = Top.

(** [l'] consists of the elements of [l] that satisfy [P], in order. *)
Inductive selects {A} (P : A -> Prop) : list A -> list A -> Prop :=
| sel_nil : selects P [] []
| sel_keep x l l' : P x -> selects P l l' -> selects P (x :: l) (x :: l')
| sel_drop x l l' : ~ P x -> selects P l l' -> selects P (x :: l) l'.

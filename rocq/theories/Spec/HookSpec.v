(** What a hook sees of the traffic. *)
From Verif.Base Require Import Prelude.
From Verif.Model Require Import CanFrame Hooks.

(** The frames with which hook [h] was called. *)
Definition seen (h : nat) (d : direction) (log : list hook_call) : list cframe :=
  flat_map (fun c => match c with (h', d', f) =>
    if Nat.eqb h' h && match d, d' with RX, RX | TX, TX => true | _, _ => false end then [f] else [] end) log.
(** No hook removes one. *)
Definition never_removes (beh : list hook_call -> list hook_op * bool) : Prop :=
  forall log h, ~ In (HRemove h) (fst (beh log)).
Definition never_adds (beh : list hook_call -> list hook_op * bool) : Prop :=
  forall log, ~ In HAdd (fst (beh log)).
Definition frames_of (l : list (cframe + exn)) : list cframe :=
  flat_map (fun x => match x with inl f => [f] | inr _ => [] end) l.

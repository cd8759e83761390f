(** Broadcasts of messages that programs have built. *)
From Verif.Base Require Import Prelude.
From Verif.Model Require Import Types Codec Frames Node ObjectApi.
From Verif.Spec Require Import StreamSpec SendableSpec.

(** The type is in the receiver's table, and the message was built by some
    program over the types [env]. *)
Definition made_for (env : catalogue) (types : datatypes) (b : bcast) : Prop :=
  (dt_id (b_type b) < 2 ^ 16)%N /\ (dt_crc (b_type b) < 2 ^ 16)%N /\ types (dt_id (b_type b)) false = Some (b_type b) /\
  match b_prio b with Some p => (p < 32)%N | None => True end /\
  exists t, dt_fields (b_type b) = erase t /\ built_as env t (b_value b).

(** A node that announces itself. *)
From Verif.Base Require Import Prelude.
From Verif.Model Require Import Types Frames TransferManager Node.
From Verif.Spec Require Import NodeSpec.

(** The broadcasts of the status type that were attempted. *)
Definition announced (status_dt : datatype) (l : list nobs) : list N := attempted (dt_id status_dt, None) l.

(** The user does not broadcast messages of the status type themself. *)
Definition leaves_status (status_dt : datatype) (op : nop) : Prop :=
  match op with NBroadcast dt _ _ _ => dt_id dt <> dt_id status_dt | _ => True end.
Definition only_own_status (status_dt : datatype) (beh : list nobs -> list (nop * bool) * outcome) (ins : list ninput) : Prop :=
  (forall l op c, In (op, c) (fst (beh l)) -> leaves_status status_dt op) /\
  (forall op, In (IOp op) ins -> leaves_status status_dt op).

(** Frames and characters. *)
From Verif.Base Require Import Prelude.
From Verif.Model Require Import CanFrame.
Local Open Scope N_scope.

(** A frame that can be on a bus. *)
Definition real_frame (f : cframe) : Prop :=
  c_id f < (if c_ext f then 2 ^ 29 else 2 ^ 11) /\ Forall (fun b => b < 256) (c_data f) /\
  (length (c_data f) <= if c_fd f then 64 else 8)%nat.
Definition printable (c : N) : Prop := 32 <= c <= 126.
(** A byte as a character, a dot for others. *)
Definition shown_as (b c : N) : Prop := printable b /\ c = b \/ ~ printable b /\ c = 46.

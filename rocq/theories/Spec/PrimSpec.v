(** Integer types: ranges, nearest representable value, residues. *)
From Verif.Base Require Import Prelude.
From Verif.Model Require Import Types.
Local Open Scope Z_scope.

Definition int_lo (k : kind) (n : nat) : Z :=
  match k with KInt => - 2 ^ (Z.of_nat n - 1) | _ => 0 end.
Definition int_hi (k : kind) (n : nat) : Z :=
  match k with KInt => 2 ^ (Z.of_nat n - 1) - 1 | _ => 2 ^ Z.of_nat n - 1 end.

(** The integer types of DSDL (a boolean has one bit). *)
Definition int_type (k : kind) (n : nat) : Prop :=
  match k with
  | KBool => n = 1%nat
  | KUint | KInt => (1 <= n <= 64)%nat
  | KFloat => False
  end.

Definition representable (k : kind) (n : nat) (x : Z) : Prop :=
  int_lo k n <= x <= int_hi k n.

(** [y] is the representable value nearest to [x]. *)
Definition nearest (k : kind) (n : nat) (x y : Z) : Prop :=
  representable k n y /\
  forall z, representable k n z -> Z.abs (x - y) <= Z.abs (x - z).

(** [y] is the representable value congruent to [x] modulo 2^n. *)
Definition wrapped (k : kind) (n : nat) (x y : Z) : Prop :=
  representable k n y /\ exists q, x = y + q * 2 ^ Z.of_nat n.

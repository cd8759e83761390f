(** Comparing percentages. *)
From Verif.Base Require Import Prelude.
Local Open Scope Z_scope.

(** Fractions with a positive denominator. *)
Definition at_most (a b : Z * Z) : Prop := fst a * snd b <= fst b * snd a.
Definition percentage (a : Z * Z) : Prop := 0 < snd a /\ at_most (0, 1) a /\ at_most a (100, 1).

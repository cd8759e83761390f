(** Checksums as remainders of polynomial division over GF(2). Bit [i] of a
    number is the coefficient of x^i; addition is [N.lxor]. *)
From Verif.Base Require Import Prelude Bits.
Local Open Scope N_scope.

(** Product of two polynomials. *)
Fixpoint pmul_pos (p : positive) (g : N) : N :=
  match p with
  | xH => g
  | xO q => 2 * pmul_pos q g
  | xI q => N.lxor g (2 * pmul_pos q g)
  end.
Definition pmul (p g : N) : N :=
  match p with N0 => 0 | Npos q => pmul_pos q g end.

(** [r] is the remainder of [m] modulo the polynomial [g] of degree [w]. *)
Definition premainder (w g m r : N) : Prop :=
  r < 2 ^ w /\ exists q, m = N.lxor (pmul q g) r.

(** The bits of a byte string as one number, first byte most significant. *)
Definition be_number (bytes : list N) : N :=
  fold_left (fun acc b => 256 * acc + b) bytes 0.

Definition byte_string (l : list N) : Prop := Forall (fun b => b < 256) l.

(** The bit string of a byte string, most significant bit first. *)
Definition bit_string (l : list N) : bits := concat (map (bits_of_N 8) l).

(** Two strings of the same length that differ, and only within a window of
    [w] consecutive bits. *)
Definition burst (w : nat) (a b : bits) : Prop :=
  a <> b /\ exists pre x y post,
    a = pre ++ x ++ post /\ b = pre ++ y ++ post /\
    length x = length y /\ (length x <= w)%nat.

(** Number of positions in which two strings differ. *)
Fixpoint distance (a b : bits) : nat :=
  match a, b with
  | x :: a', y :: b' => (if eqb x y then 0 else 1) + distance a' b'
  | _, _ => 0
  end.

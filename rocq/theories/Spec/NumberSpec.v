(** What a field or an array item is to hold after a number was written to
    it. *)
From Coq Require Import String.
From Verif.Base Require Import Prelude.
From Verif.Model Require Import Types Float ObjectApi.
From Verif.Spec Require Import PrimSpec FloatSpec.
Local Open Scope Z_scope.

(** The largest number of a format. *)
Definition limit (n : nat) : Z := match n with 16%nat => max16 | 32%nat => max32 | _ => max64 end.
(** A number beyond it. *)
Definition beyond (cm : cast_mode) (s : bool) (top : Z) (y : pyfloat) : Prop :=
  match cm with Saturated => units y = Some (signum s * top) | Truncated => y = FInf s end.
(** A number [v] (in units) within it: exact in 64 bits, the nearest number in
    32 bits, and from there the nearest number in 16 bits. *)
Definition rounded (n : nat) (v : Z) (y : pyfloat) : Prop :=
  match n with
  | 64%nat => units y = Some v
  | 32%nat => nearest_float32 v y
  | _ => exists y' w h, nearest_float32 v y' /\ units y' = Some w /\ nearest_float16 w h /\ units y = Some (f16_units h)
  end.
Definition float_stored (n : nat) (cm : cast_mode) (x y : pyfloat) : Prop :=
  match x with
  | FNan => y = FNan
  | FInf s => beyond cm s (limit n) y
  | FFin s m e =>
      (m * 2 ^ (e + 1074) <= limit n -> rounded n (signum s * (m * 2 ^ (e + 1074))) y) /\
      (limit n < m * 2 ^ (e + 1074) -> beyond cm s (limit n) y)
  end.

(** The number that is assigned, as a float. *)
Definition given_float (v : pyval) (x : pyfloat) : Prop :=
  match v with
  | PFloat y => x = y
  | PInt z => x = FFin (z <? 0) (Z.abs z) 0
  | _ => False
  end.
Definition nonzero (v : pyval) : Prop :=
  match v with PInt z => z <> 0 | PFloat (FFin _ m _) => m <> 0 | _ => True end.

(** Numbers that are told about here: integers for all types, but for those
    out of range of signed types of more than 53 bits (C02), and floats for
    boolean and float types. *)
Definition number_for (k : kind) (n : nat) (v : pyval) : Prop :=
  match k with
  | KBool => n = 1%nat /\ ((exists z, v = PInt z) \/ exists x, v = PFloat x)
  | KFloat => (n = 16%nat \/ n = 32%nat \/ n = 64%nat) /\
      ((exists z, v = PInt z /\ Z.abs z < 2 ^ 53) \/ exists x, v = PFloat x /\ is_double x)
  | _ => int_type k n /\ exists z, v = PInt z /\ (k = KInt -> (53 < n)%nat -> representable k n z)
  end.
(** [w] is what the field reads as after [v] was written to it. *)
Definition number_stored (k : kind) (n : nat) (cm : cast_mode) (v w : pyval) : Prop :=
  match k with
  | KBool => (nonzero v -> w = PInt 1) /\ (~ nonzero v -> w = PInt 0)
  | KFloat => exists x y, given_float v x /\ w = PFloat y /\ float_stored n cm x y
  | _ => exists z y, v = PInt z /\ w = PInt y /\
      match cm with Saturated => nearest k n z y | Truncated => wrapped k n z y end
  end.

(** Floats and the range of an integer type. *)
Definition range_low (k : kind) (n : nat) : Z := match k with KInt => - 2 ^ (Z.of_nat n - 1) | _ => 0 end.
Definition range_high (k : kind) (n : nat) : Z := match k with KInt => 2 ^ (Z.of_nat n - 1) - 1 | _ => 2 ^ Z.of_nat n - 1 end.
Definition greater (x : pyfloat) (z : Z) : Prop := match units x with Some u => z * 2 ^ 1074 < u | None => x = FInf false end.
Definition less (x : pyfloat) (z : Z) : Prop := match units x with Some u => u < z * 2 ^ 1074 | None => x = FInf true end.

(** Floating point numbers as integers: every double, float32 and float16 is a
    multiple of 2^-1074. *)
From Verif.Base Require Import Prelude Bits.
From Verif.Model Require Import Types Float.
Local Open Scope Z_scope.

(** The sign of a number, given its sign bit. *)
Definition signum (s : bool) : Z := if s then -1 else 1.

(** A number in units of 2^-1074 (numbers with smaller exponents are not
    doubles). Infinities and NaN have no value. *)
Definition units (x : pyfloat) : option Z :=
  match x with
  | FFin s m e => Some (signum s * (m * 2 ^ (e + 1074)))
  | _ => None
  end.

(** Python floats: doubles. *)
Definition is_double (x : pyfloat) : Prop :=
  match x with
  | FFin _ m e => 0 <= m < 2 ^ 53 /\ -1074 <= e <= 971
  | _ => True
  end.

(** IEEE 754: what a pattern without sign means, in units of the smallest
    positive number of its format: gradual underflow, then [2^mb] numbers per
    power of two. *)
Definition pattern_value (mb p : Z) : Z :=
  if p <? 2 ^ mb then p else (2 ^ mb + p mod 2 ^ mb) * 2 ^ (p / 2 ^ mb - 1).

(** float16: sign in bit 15, 5 exponent and 10 fraction bits, smallest
    positive number 2^-24. The pattern 0x7C00 would be 2^16 by the same formula; it
    stands for infinity, larger ones for NaN. *)
Definition f16_magnitude (h : Z) : Z := h mod 2 ^ 15.
Definition f16_negative (h : Z) : bool := h / 2 ^ 15 =? 1.
Definition f16_finite (h : Z) : Prop := 0 <= h < 2 ^ 16 /\ f16_magnitude h < 0x7C00.
Definition f16_nan (h : Z) : Prop := 0x7C00 < f16_magnitude h.
Definition f16_units (h : Z) : Z :=
  signum (f16_negative h) * (pattern_value 10 (f16_magnitude h) * 2 ^ 1050).

(** A float16 pattern and the Python number it should be read as. *)
Definition f16_means (h : Z) (x : pyfloat) : Prop :=
  if f16_magnitude h <? 0x7C00 then units x = Some (f16_units h)
  else if f16_magnitude h =? 0x7C00 then x = FInf (f16_negative h)
  else x = FNan.

(** Sign of a number; also of zeros. *)
Definition negative (x : pyfloat) : bool :=
  match x with FNan => false | FInf s => s | FFin s _ _ => s end.

(** Doubles that are float32 numbers. *)
Definition is_float32 (x : pyfloat) : Prop :=
  is_double x /\
  match x with
  | FFin _ m e => exists m' e', 0 <= m' < 2 ^ 24 /\ -149 <= e' <= 104 /\
                    m * 2 ^ (e + 1074) = m' * 2 ^ (e' + 1074)
  | _ => True
  end.

(** No finite float32 number is nearer to [v] (in units) than [y]. *)
Definition nearest_float32 (v : Z) (y : pyfloat) : Prop :=
  is_float32 y /\ exists w, units y = Some w /\
  forall z wz, is_float32 z -> units z = Some wz -> Z.abs (w - v) <= Z.abs (wz - v).

(** No finite float16 number is nearer to [v] than [h], and none equally near
    is larger in magnitude. *)
Definition nearest_float16 (v h : Z) : Prop :=
  f16_finite h /\ forall h', f16_finite h' ->
    Z.abs (f16_units h - v) <= Z.abs (f16_units h' - v) /\
    (Z.abs (f16_units h - v) = Z.abs (f16_units h' - v) -> f16_magnitude h' <= f16_magnitude h).

(** The largest numbers of the formats, in units. *)
Definition max16 : Z := 65504 * 2 ^ 1074.
Definition max32 : Z := (2 ^ 24 - 1) * 2 ^ (104 + 1074).
Definition max64 : Z := (2 ^ 53 - 1) * 2 ^ (971 + 1074).

(** The [w] bits of a pattern, most significant first: the stored [_bits]. *)
Definition pattern_bits (w : nat) (u : Z) : bits := bits_of_N w (Z.to_N u).

(** The two ways the property says an out-of-range number is stored. *)
Definition out_of_range (cm : Types.cast_mode) (s : bool) (limit : Z) (y : pyfloat) : Prop :=
  match cm with
  | Types.Saturated => units y = Some (signum s * limit) /\ negative y = s
  | Types.Truncated => y = FInf s
  end.
Definition out_of_range16 (cm : Types.cast_mode) (s : bool) (h : Z) : Prop :=
  0 <= h < 2 ^ 16 /\ f16_negative h = s /\
  match cm with
  | Types.Saturated => f16_finite h /\ f16_units h = signum s * max16
  | Types.Truncated => f16_magnitude h = 0x7C00
  end.

(** Floating point fields: C04, C05, C72. *)
From Verif.Base Require Import Prelude Bits.
From Verif.Model Require Import Types Float.
From Verif.Spec Require Import FloatSpec.
From Verif.Proofs Require Import FloatFacts FloatTop FloatFields FloatTies.
Local Open Scope Z_scope.

(** ** C04 *)

(** The conversion functions: every pattern that is not a NaN comes back, and
    means the IEEE 754 number. *)
Theorem C04_conversion_round_trip h : 0 <= h < 2 ^ 16 ->
  exists x, f32_from_f16 h = Ok x /\ f16_means h x /\
    (~ f16_nan h -> f16_from_f32 x = Ok h) /\
    (f16_nan h -> exists h', f16_from_f32 x = Ok h' /\ f16_nan h').
Proof. exact (functions_back h). Qed.
Print Assumptions C04_conversion_round_trip.

(** Full statement, for a field of either cast mode: [~ f16_nan h] implies
    that writing back the value read gives the same 16 bits. *)
Theorem C04_field_round_trip_refuted : exists b x,
  length b = 16%nat /\ ~ f16_nan (Z.of_N (N_of_bits b)) /\
  get_float 16 b = Ok (Some x) /\ set_float 16 Saturated x <> Ok b.
Proof.
  exists (pattern_bits 16 0x7C00), (FInf false). split; [reflexivity|].
  split; [vm_compute; discriminate|]. split; [vm_compute; reflexivity|]. vm_compute. discriminate.
Qed.
Print Assumptions C04_field_round_trip_refuted.

(** Missing: infinities in saturated fields, which become the largest finite
    number (above). *)
Theorem C04_field_round_trip_partial b : length b = 16%nat -> let h := Z.of_N (N_of_bits b) in
  exists x, get_float 16 b = Ok (Some x) /\ f16_means h x /\
    (f16_finite h -> forall cm, set_float 16 cm x = Ok b) /\
    (f16_magnitude h = 0x7C00 -> set_float 16 Truncated x = Ok b) /\
    (f16_nan h -> forall cm, exists h', set_float 16 cm x = Ok (pattern_bits 16 h') /\ f16_nan h').
Proof. exact (field_back b). Qed.
Print Assumptions C04_field_round_trip_partial.

(** The smallest subnormal, negative. *)
Example C04_case : get_float 16 (pattern_bits 16 0x8001) = Ok (Some (FFin true 8388608 (-47))) /\
  f16_finite 0x8001 /\ set_float 16 Saturated (FFin true 8388608 (-47)) = Ok (pattern_bits 16 0x8001) /\
  f16_nan 0xFE00.
Proof.
  split; [vm_compute; reflexivity|]. split; [split; [lia|reflexivity]|].
  split; [vm_compute; reflexivity|reflexivity].
Qed.

(** ** C05 *)

(** Stronger than stated: the result is the nearest float16, the one larger in
    magnitude of two equally near. From 65520 on the result is an infinity. *)
Theorem C05_nearest s m e : is_float32 (FFin s m e) ->
  exists h, f16_from_f32 (FFin s m e) = Ok h /\ 0 <= h < 2 ^ 16 /\ f16_negative h = s /\
    let v := m * 2 ^ (e + 1074) in
    (v < 65520 * 2 ^ 1074 -> nearest_float16 (signum s * v) h) /\
    (65520 * 2 ^ 1074 <= v -> f16_magnitude h = 0x7C00).
Proof. exact (write_f16 s m e). Qed.
Print Assumptions C05_nearest.

(** Larger inputs never produce smaller outputs; an infinity counts as 65536. *)
Theorem C05_monotone x y vx vy h h' : is_float32 x -> is_float32 y ->
  units x = Some vx -> units y = Some vy -> vx <= vy ->
  f16_from_f32 x = Ok h -> f16_from_f32 y = Ok h' -> f16_units h <= f16_units h'.
Proof. exact (write_f16_monotone x y vx vy h h'). Qed.
Print Assumptions C05_monotone.

Theorem C05_infinite_and_nan :
  (forall s, exists h, f16_from_f32 (FInf s) = Ok h /\ 0 <= h < 2 ^ 16 /\
     f16_negative h = s /\ f16_magnitude h = 0x7C00) /\
  exists h, f16_from_f32 FNan = Ok h /\ 0 <= h < 2 ^ 16 /\ f16_nan h.
Proof. exact f16_from_f32_special. Qed.
Print Assumptions C05_infinite_and_nan.

(** Assigning any Python float to a float16 field: first to the nearest
    float32, then to the nearest float16; out of range by cast mode. *)
Theorem C05_assign_any_float s m e cm : is_double (FFin s m e) ->
  let v := m * 2 ^ (e + 1074) in
  (v <= max16 -> exists y w h, nearest_float32 (signum s * v) y /\ units y = Some w /\
     nearest_float16 w h /\ f16_negative h = s /\
     set_float 16 cm (FFin s m e) = Ok (pattern_bits 16 h)) /\
  (max16 < v -> exists h, out_of_range16 cm s h /\
     set_float 16 cm (FFin s m e) = Ok (pattern_bits 16 h)).
Proof. exact (set16_any s m e cm). Qed.
Print Assumptions C05_assign_any_float.

(** 1 + 2^-11 is half way between two float16 numbers; the larger is taken.
    65519.996 is the largest float32 that stays finite. *)
Example C05_case : is_float32 (FFin false 2049 (-11)) /\
  f16_from_f32 (FFin false 2049 (-11)) = Ok 0x3C01 /\
  f16_from_f32 (FFin true 0xFFEFFF (-8)) = Ok 0xFBFF /\
  f16_from_f32 (FFin true 0xFFF000 (-8)) = Ok 0xFC00 /\ is_double (FFin false 1 (-1074)).
Proof.
  split; [split; [split; lia|exists 2049, (-11); split; [lia|split; [lia|reflexivity]]]|].
  split; [vm_compute; reflexivity|]. split; [vm_compute; reflexivity|].
  split; [vm_compute; reflexivity|]. split; lia.
Qed.

(** ** C72 *)
Theorem C72_float64_exact s m e cm : is_double (FFin s m e) ->
  exists b y, set_float 64 cm (FFin s m e) = Ok b /\ length b = 64%nat /\
    get_float 64 b = Ok (Some y) /\ units y = units (FFin s m e) /\ negative y = s.
Proof. exact (set64_finite s m e cm). Qed.
Print Assumptions C72_float64_exact.

Theorem C72_float32_nearest s m e cm : is_double (FFin s m e) ->
  let v := m * 2 ^ (e + 1074) in
  exists b y, set_float 32 cm (FFin s m e) = Ok b /\ length b = 32%nat /\ get_float 32 b = Ok (Some y) /\
    (v <= max32 -> nearest_float32 (signum s * v) y /\ negative y = s /\
       (is_float32 (FFin s m e) -> units y = units (FFin s m e))) /\
    (max32 < v -> out_of_range cm s max32 y).
Proof. exact (set32_any s m e cm). Qed.
Print Assumptions C72_float32_nearest.

(** Where two float32 numbers are equally near, the one whose pattern is even is
    stored. *)
Theorem C72_ties_even s m e cm b y w : is_double (FFin s m e) -> let v := signum s * (m * 2 ^ (e + 1074)) in
  m * 2 ^ (e + 1074) <= max32 ->
  set_float 32 cm (FFin s m e) = Ok b -> get_float 32 b = Ok (Some y) -> units y = Some w ->
  forall z wz, is_float32 z -> units z = Some wz -> wz <> w -> Z.abs (w - v) = Z.abs (wz - v) -> last b false = false.
Proof. exact (ties32 s m e cm b y w). Qed.
Print Assumptions C72_ties_even.
(** 2^24 + 1 is stored as 2^24, 2^24 + 3 as 2^24 + 4. *)
Example C72_ties_case :
  set_float 32 Saturated (FFin false (2 ^ 24 + 1) 0) = Ok (pattern_bits 32 0x4B800000) /\
  get_float 32 (pattern_bits 32 0x4B800000) = Ok (Some (FFin false (2 ^ 23) 1)) /\
  set_float 32 Saturated (FFin false (2 ^ 24 + 3) 0) = Ok (pattern_bits 32 0x4B800002) /\
  get_float 32 (pattern_bits 32 0x4B800002) = Ok (Some (FFin false (2 ^ 23 + 2) 1)).
Proof. vm_compute. repeat split. Qed.

Theorem C72_infinite_and_nan cm w limit : (w = 32%nat /\ limit = max32) \/ (w = 64%nat /\ limit = max64) ->
  (exists b, set_float w cm FNan = Ok b /\ length b = w /\ get_float w b = Ok (Some FNan)) /\
  forall s, exists b y, set_float w cm (FInf s) = Ok b /\ length b = w /\
    get_float w b = Ok (Some y) /\ out_of_range cm s limit y.
Proof. exact (set_special cm w limit). Qed.
Print Assumptions C72_infinite_and_nan.

Example C72_case : is_double (FFin true 0x1921FB54442D18 (-51)) /\
  get_float 32 (pattern_bits 32 0xC0490FDB) = Ok (Some (FFin true 0xC90FDB (-22))) /\
  set_float 32 Truncated (FFin true 0x1921FB54442D18 (-51)) = Ok (pattern_bits 32 0xC0490FDB).
Proof. split; [split; lia|]. split; vm_compute; reflexivity. Qed.

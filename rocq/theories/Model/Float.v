(** Floating point fields: dronecan/transport.py 150-245 and the float branches
    of [PrimitiveValue]; dronecan/dsdl/type_limits.py 25-34. *)
From Verif.Base Require Import Prelude Bits.
From Verif.Model Require Import Types.
Local Open Scope Z_scope.

(** A Python float. [FFin s m e] is (-1)^s * m * 2^e with [m >= 0]. NaN
    payloads and signs are not modelled. *)
Inductive pyfloat :=
| FNan
| FInf (s : bool)
| FFin (s : bool) (m e : Z).

(** ** IEEE 754 interchange formats, as [struct] and C casts use them *)

(** [m / 2^k] rounded to an integer, ties to even. *)
Definition rne (m k : Z) : Z :=
  let q := m / 2 ^ k in
  let r := m mod 2 ^ k in
  let half := 2 ^ (k - 1) in
  if r <? half then q
  else if half <? r then q + 1
  else if Z.even q then q else q + 1.

(** The pattern (exponent and fraction bits) of the number nearest to
    [m * 2^e] in the format with [mb] fraction bits whose smallest positive
    number is [2^emin]; the exponent range is not limited here. *)
Definition round_pattern (mb emin m e : Z) : Z :=
  if m =? 0 then 0
  else
    let et := Z.max (Z.log2 m + e - mb) emin in
    let q := if et <=? e then m * 2 ^ (e - et) else rne m (et - e) in
    (et - emin) * 2 ^ mb + q.

(** A pattern with [eb] exponent bits and a sign bit on top, as a number. *)
Definition decode_pattern (mb eb emin u : Z) : pyfloat :=
  let s := Z.testbit u (mb + eb) in
  let ex := (u / 2 ^ mb) mod 2 ^ eb in
  let fr := u mod 2 ^ mb in
  if ex =? 2 ^ eb - 1 then (if fr =? 0 then FInf s else FNan)
  else if ex =? 0 then FFin s fr emin
  else FFin s (2 ^ mb + fr) (emin + ex - 1).

(** The pattern of a number; [OverflowError] when a finite number rounds to
    infinity (CPython's [PyFloat_Pack4]). *)
Definition encode_pattern (mb eb emin : Z) (x : pyfloat) : res Z :=
  let inf := (2 ^ eb - 1) * 2 ^ mb in
  let sign (s : bool) := if s then 2 ^ (mb + eb) else 0 in
  match x with
  | FNan => Ok (inf + 2 ^ (mb - 1))
  | FInf s => Ok (sign s + inf)
  | FFin s m e =>
      let p := round_pattern mb emin m e in
      if inf <=? p then Err OverflowError else Ok (sign s + p)
  end.

(** [struct.pack('=f', x)] read as '=I', and back; likewise for '<d'. *)
Definition pack_f32 : pyfloat -> res Z := encode_pattern 23 8 (-149).
Definition unpack_f32 : Z -> pyfloat := decode_pattern 23 8 (-149).
Definition pack_f64 : pyfloat -> res Z := encode_pattern 52 11 (-1074).
Definition unpack_f64 : Z -> pyfloat := decode_pattern 52 11 (-1074).

(** Multiplication. The code only multiplies float32 numbers by powers of two
    in a range where the double product is exact, so no rounding. *)
Definition fmul (a b : pyfloat) : pyfloat :=
  match a, b with
  | FNan, _ | _, FNan => FNan
  | FInf s, FInf t => FInf (xorb s t)
  | FInf s, FFin t m _ | FFin t m _, FInf s => if m =? 0 then FNan else FInf (xorb s t)
  | FFin s m e, FFin t n f => FFin (xorb s t) (m * n) (e + f)
  end.

(** [a < b] *)
Definition signed_mantissa (s : bool) (m : Z) : Z := if s then - m else m.
Definition flt (a b : pyfloat) : bool :=
  match a, b with
  | FNan, _ | _, FNan => false
  | FInf s, FInf t => s && negb t
  | FInf s, FFin _ _ _ => s
  | FFin _ _ _, FInf t => negb t
  | FFin s m e, FFin t n f =>
      let lo := Z.min e f in
      signed_mantissa s m * 2 ^ (e - lo) <? signed_mantissa t n * 2 ^ (f - lo)
  end.
(** [a >= b] *)
Definition fge (a b : pyfloat) : bool :=
  match a, b with FNan, _ | _, FNan => false | _, _ => negb (flt a b) end.

(** ** transport.py 190-212: [f16_from_f32] *)
Definition f16_from_f32 (x : pyfloat) : res Z :=
  let f32infty := Z.shiftl 255 23 in
  let f16infty := Z.shiftl 31 23 in
  let magic := Z.shiftl 15 23 in
  inval <- pack_f32 x ;;
  let sign_mask := 0x80000000 in
  let round_mask := Z.lnot 0xFFF in
  let sign := Z.land inval sign_mask in
  let inval := Z.lxor inval sign in
  out <-
    (if f32infty <=? inval then Ok (if f32infty <? inval then 0x7FFF else 0x7C00)
     else
       let inval := Z.land inval round_mask in
       inval <- pack_f32 (fmul (unpack_f32 inval) (unpack_f32 magic)) ;;
       let inval := inval - round_mask in
       let inval := if f16infty <? inval then f16infty else inval in
       Ok (Z.land (Z.shiftr inval 13) 0xFFFF)) ;;
  Ok (Z.lor out (Z.land (Z.shiftr sign 16) 0xFFFF)).

(** ** transport.py 215-226: [f32_from_f16] *)
Definition f32_from_f16 (float16 : Z) : res pyfloat :=
  let magic := Z.shiftl (254 - 15) 23 in
  let was_inf_nan := Z.shiftl (127 + 16) 23 in
  let out := Z.shiftl (Z.land float16 0x7FFF) 13 in
  out <- pack_f32 (fmul (unpack_f32 out) (unpack_f32 magic)) ;;
  let out := if fge (unpack_f32 out) (unpack_f32 was_inf_nan)
             then Z.lor out (Z.shiftl 255 23) else out in
  let out := Z.lor out (Z.shiftl (Z.land float16 0x8000) 16) in
  Ok (unpack_f32 out).

(** type_limits.py 25-34: the largest number; the smallest is its negative. *)
Definition float_max (bitlen : nat) : res pyfloat :=
  match bitlen with
  | 16%nat => Ok (FFin false 65504 0)
  | 32%nat => Ok (FFin false (2 ^ 24 - 1) 104)
  | 64%nat => Ok (FFin false (2 ^ 53 - 1) 971)
  | _ => Err DsdlException
  end.
Definition fneg (x : pyfloat) : pyfloat :=
  match x with FNan => FNan | FInf s => FInf (negb s) | FFin s m e => FFin (negb s) m e end.

(** transport.py 229-245: [cast] for floats. *)
Definition cast_float (value : pyfloat) (bitlen : nat) (cm : cast_mode) : res pyfloat :=
  hi <- float_max bitlen ;;
  let lo := fneg hi in
  match cm with
  | Saturated =>
      Ok (if flt hi value then hi else if flt value lo then lo else value)
  | Truncated =>
      Ok (if flt hi value then FInf false else if flt value lo then FInf true else value)
  end.

(** transport.py 323-333: the setter, floats; the new [_bits]. *)
Definition set_float (bitlen : nat) (cm : cast_mode) (new_value : pyfloat) : res bits :=
  v <- cast_float new_value bitlen cm ;;
  int_value <-
    (match bitlen with
     | 16%nat => f16_from_f32 v
     | 32%nat => pack_f32 v
     | 64%nat => pack_f64 v
     | _ => Err ValueError
     end) ;;
  Ok (py_format_b bitlen (Z.to_N int_value)).

(** transport.py 299-307: the getter, floats. *)
Definition get_float (bitlen : nat) (b : bits) : res (option pyfloat) :=
  match b with
  | [] => Ok None
  | _ =>
      let int_value := Z.of_N (N_of_bits b) in
      match bitlen with
      | 16%nat => v <- f32_from_f16 int_value ;; Ok (Some v)
      | 32%nat => Ok (Some (unpack_f32 int_value))
      | 64%nat => Ok (Some (unpack_f64 int_value))
      | _ => Err ValueError
      end
  end.

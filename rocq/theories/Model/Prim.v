(** Integer and boolean field values: dronecan/transport.py [PrimitiveValue],
    [cast], and dronecan/dsdl/type_limits.py. Floats are in Model/Float.v. *)
From Verif.Base Require Import Prelude Bits.
From Verif.Model Require Import Types.
Local Open Scope Z_scope.

(** Rounding of a positive integer to 53 significant bits, ties to even: the
    conversion to a Python float (the exponent range is not a concern below
    2^1024). *)
Definition round53 (n : Z) : Z :=
  if n <? 2 ^ 53 then n
  else
    let e := Z.log2 n - 52 in
    let q := n / 2 ^ e in
    let r := n mod 2 ^ e in
    let half := 2 ^ (e - 1) in
    let q' := if r <? half then q
              else if half <? r then q + 1
              else if Z.even q then q else q + 1 in
    q' * 2 ^ e.

(** [int(n / 2)] with [from __future__ import division]: the quotient is a
    correctly rounded float, [int] truncates it. Halving is exact, so it is
    [round53 n / 2]. *)
Definition int_half (n : Z) : Z := round53 n / 2.

(** type_limits.py 14-17: [get_unsigned_integer_range]. *)
Definition unsigned_range (bitlen : nat) : res (Z * Z) :=
  if (1 <=? bitlen)%nat && (bitlen <=? 64)%nat
  then Ok (0, 2 ^ Z.of_nat bitlen - 1) else Err DsdlException.

(** type_limits.py 20-22: [get_signed_integer_range]. *)
Definition signed_range (bitlen : nat) : res (Z * Z) :=
  '(_, uint_max) <- unsigned_range bitlen ;;
  Ok (- int_half uint_max - 1, int_half uint_max).

(** parser.py 96-112: the [value_range] of an integer or boolean type. *)
Definition value_range (k : kind) (bitlen : nat) : res (Z * Z) :=
  match k with
  | KBool | KUint => unsigned_range bitlen
  | KInt => signed_range bitlen
  | KFloat => Err TypeError
  end.

(** transport.py 227-245: [cast] for integer types. *)
Definition cast (value : Z) (k : kind) (bitlen : nat) (cm : cast_mode) : res Z :=
  '(lo, hi) <- value_range k bitlen ;;
  match cm with
  | Saturated =>
      Ok (if hi <? value then hi else if value <? lo then lo else value)
  | Truncated => Ok (Z.land value (Z.shiftl 1 (Z.of_nat bitlen) - 1))
  end.

(** [format(x, '0' + str(w) + 'b')]. A negative number would get a minus
    sign, which no digit string represents: [ValueError] marks that case,
    which the setter never reaches. *)
Definition format_b (w : nat) (x : Z) : res bits :=
  if x <? 0 then Err ValueError else Ok (py_format_b w (Z.to_N x)).

(** transport.py 307-333: the [value] setter, integer kinds: the new [_bits]. *)
Definition set_int (k : kind) (bitlen : nat) (cm : cast_mode) (new_value : Z)
    : res bits :=
  match k with
  | KBool => Ok [negb (new_value =? 0)]
  | KUint =>
      v <- cast new_value k bitlen cm ;; format_b bitlen v
  | KInt =>
      v <- cast new_value k bitlen cm ;;
      format_b bitlen (if v <? 0 then v + 2 ^ Z.of_nat bitlen else v)
  | KFloat => Err TypeError
  end.

(** transport.py 285-305: the [value] getter, integer kinds ([None] when
    there are no bits; booleans are read as 0 or 1). *)
Definition get_int (k : kind) (bitlen : nat) (b : bits) : option Z :=
  match b with
  | [] => None
  | _ =>
      let int_value := Z.of_N (N_of_bits b) in
      match k with
      | KBool => Some (if int_value =? 0 then 0 else 1)
      | KUint => Some int_value
      | KInt =>
          Some (if Z.shiftl 1 (Z.of_nat bitlen - 1) <=? int_value
                then - (Z.shiftl 1 (Z.of_nat bitlen) - int_value) else int_value)
      | KFloat => None
      end
  end.

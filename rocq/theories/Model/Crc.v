(** Checksums: dronecan/dsdl/common.py [crc16_from_bytes] and
    dronecan/dsdl/signature.py. *)
From Verif.Base Require Import Prelude Bits.
Local Open Scope N_scope.

(** common.py 66-70: one iteration of the inner loop. *)
Definition crc16_bit (crc : N) : N :=
  if negb (N.land crc 0x8000 =? 0)
  then N.land (N.lxor (N.shiftl crc 1) 0x1021) 0xFFFF
  else N.land (N.shiftl crc 1) 0xFFFF.

(** common.py 65-70: one byte. [for bit in range(8)] is [Nat.iter 8]. *)
Definition crc16_byte (crc byte : N) : N :=
  Nat.iter 8 crc16_bit (N.lxor crc (N.shiftl byte 8)).

(** common.py 47-71: [crc16_from_bytes] on a byte string (the conversion of
    text by [ord] is left out). *)
Definition crc16_from_bytes (bytes : list N) (initial : N) : N :=
  N.land (fold_left crc16_byte bytes initial) 0xFFFF.

(** common.py 74-77: [bytes_from_crc64], little-endian. *)
Definition bytes_from_crc64 (crc64 : N) : list N :=
  map (fun i => N.land (N.shiftr crc64 (8 * N.of_nat i)) 0xFF) (seq 0 8).

Definition MASK64 : N := 0xFFFFFFFFFFFFFFFF.
Definition POLY64 : N := 0x42F0E1EBA9EA3693.

(** signature.py 29-36: [Signature.__init__]; the state is [_crc]. *)
Definition sig_init (extend_from : option N) : N :=
  match extend_from with
  | Some x => N.lxor (N.land x MASK64) MASK64
  | None => MASK64
  end.

(** signature.py 49-52. *)
Definition sig_bit (crc : N) : N :=
  if negb (N.land crc (N.shiftl 1 63) =? 0)
  then N.lxor (N.land (N.shiftl crc 1) MASK64) POLY64
  else N.shiftl crc 1.

(** signature.py 47-52. *)
Definition sig_byte (crc byte : N) : N :=
  Nat.iter 8 sig_bit (N.lxor crc (N.land (N.shiftl byte 56) MASK64)).

(** signature.py 38-52: [Signature.add]. *)
Definition sig_add (crc : N) (data : list N) : N := fold_left sig_byte data crc.

(** signature.py 54-56: [get_value]. *)
Definition sig_value (crc : N) : N := N.lxor (N.land crc MASK64) MASK64.

(** signature.py 59-66: [compute_signature]. *)
Definition compute_signature (data : list N) : N :=
  sig_value (sig_add (sig_init None) data).

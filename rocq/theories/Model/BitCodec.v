(** Bit-string helpers of dronecan/transport.py. *)
From Verif.Base Require Import Prelude Bits.

(** transport.py 92-93: [bits_from_bytes]. Bytes are numbers; a value of 256
    or more cannot occur in a bytearray. *)
Definition bits_from_bytes (s : list N) : bits :=
  concat (map (py_format_b 8) s).

(** transport.py 96-100: [bytes_from_bits], padding on the right to a
    multiple of 8. *)
Definition bytes_from_bits (s : bits) : list N :=
  let s' := if Nat.eqb (length s mod 8) 0 then s
            else s ++ repeat false (8 - length s mod 8) in
  map N_of_bits (chunks 8 s').

(** transport.py 103-109: [be_from_le_bits]. *)
Definition be_from_le_bits (s : bits) (bitlen : nat) : res bits :=
  if length s <? bitlen then Err ValueError
  else
    let s' := if bitlen <? length s then firstn bitlen s else s in
    Ok (concat (rev (chunks 8 s'))).

(** transport.py 112-118: [le_from_be_bits]. *)
Definition le_from_be_bits (s : bits) (bitlen : nat) : res bits :=
  if length s <? bitlen then Err ValueError
  else
    let s' := if bitlen <? length s then skipn (length s - bitlen) s else s in
    Ok (concat (rchunks 8 s')).

(** transport.py 125-126: [union_tag_bits_from_num_elements] is
    [ceil(log(n, 2))]. Simplification: the logarithm is exact (CPython's float
    logarithm gives another result only for some n >= 2^29). *)
Definition union_tag_bits_from_num_elements (n : nat) : nat :=
  N.to_nat (N.log2_up (N.of_nat n)).

(** transport.py 128-129: [array_len_bits_from_max_size] is
    [ceil(log(max_size + 1, 2))]; same simplification. *)
Definition array_len_bits_from_max_size (max_size : nat) : nat :=
  N.to_nat (N.log2_up (N.of_nat max_size + 1)).

(** Checksum properties: C20, C21, C23, C70. *)
From Verif.Base Require Import Prelude Bits.
From Verif.Model Require Import Crc.
From Verif.Spec Require Import CrcSpec.
From Verif.Proofs Require Import CrcFacts.
Local Open Scope N_scope.

(** C20: the checksum level; FrameProps states the effect on the receiver. *)
Theorem C20_burst_changes_crc : forall a b initial,
  byte_string a -> byte_string b -> initial < 2 ^ 16 ->
  burst 16 (bit_string a) (bit_string b) ->
  crc16_from_bytes a initial <> crc16_from_bytes b initial.
Proof. exact crc16_burst. Qed.
Print Assumptions C20_burst_changes_crc.

Example C20_case : byte_string [0x12; 0x34; 0x56] /\ byte_string [0x12; 0xA7; 0xD6] /\
  burst 16 (bit_string [0x12; 0x34; 0x56]) (bit_string [0x12; 0xA7; 0xD6]).
Proof.
  split; [repeat constructor|]. split; [repeat constructor|]. split; [vm_compute; discriminate|].
  exists (bits_of_N 8 0x12), (bits_of_N 16 0x3456), (bits_of_N 16 0xA7D6), [].
  split; [reflexivity|]. split; [reflexivity|]. split; [reflexivity|]. cbn. lia.
Qed.

(** C21 *)
Theorem C21_incremental : forall a b initial,
  byte_string a -> byte_string b -> initial < 2 ^ 16 ->
  crc16_from_bytes (a ++ b) initial = crc16_from_bytes b (crc16_from_bytes a initial).
Proof. exact crc16_incremental. Qed.
Print Assumptions C21_incremental.

Theorem C21_range : forall bytes initial, crc16_from_bytes bytes initial < 2 ^ 16.
Proof. exact crc16_range. Qed.
Print Assumptions C21_range.

(** The message polynomial is the bytes, first byte most significant, times
    x^16, with the initial value added to its leading 16 coefficients. *)
Theorem C21_polynomial_remainder : forall bytes initial,
  byte_string bytes -> initial < 2 ^ 16 ->
  premainder 16 (2 ^ 16 + 2 ^ 12 + 2 ^ 5 + 1)
    (N.lxor (N.shiftl initial (8 * N.of_nat (length bytes))) (N.shiftl (be_number bytes) 16))
    (crc16_from_bytes bytes initial).
Proof. exact crc16_remainder. Qed.
Print Assumptions C21_polynomial_remainder.

(** Remainders are unique, so this pins the value down. *)
Theorem C21_remainder_unique : forall m r r',
  premainder 16 (2 ^ 16 + 2 ^ 12 + 2 ^ 5 + 1) m r ->
  premainder 16 (2 ^ 16 + 2 ^ 12 + 2 ^ 5 + 1) m r' -> r = r'.
Proof. exact ccitt_remainder_unique. Qed.
Print Assumptions C21_remainder_unique.

(** The published check value of CRC-16/CCITT-FALSE, over "123456789". *)
Example C21_case : byte_string [0x31;0x32;0x33;0x34;0x35;0x36;0x37;0x38;0x39] /\
  crc16_from_bytes [0x31;0x32;0x33;0x34;0x35;0x36;0x37;0x38;0x39] 0xFFFF = 0x29B1.
Proof. split; [repeat constructor|vm_compute; reflexivity]. Qed.

(** C23 *)
Theorem C23_chunking : forall parts initial,
  fold_left sig_add parts initial = sig_add initial (concat parts).
Proof. intros. symmetry. apply sig_chunked. Qed.
Print Assumptions C23_chunking.

Theorem C23_resume : forall a b, byte_string a -> byte_string b ->
  sig_value (sig_add (sig_init (Some (compute_signature a))) b) = compute_signature (a ++ b).
Proof. exact sig_resume. Qed.
Print Assumptions C23_resume.

Theorem C23_range : forall data, byte_string data -> compute_signature data < 2 ^ 64.
Proof. exact sig_range. Qed.
Print Assumptions C23_range.

Theorem C23_burst : forall a b, byte_string a -> byte_string b ->
  burst 64 (bit_string a) (bit_string b) -> compute_signature a <> compute_signature b.
Proof. exact sig_burst. Qed.
Print Assumptions C23_burst.

(** The value is the complement of the remainder of the complemented message
    (all ones added to the leading 64 coefficients) modulo the polynomial. *)
Theorem C23_polynomial_remainder : forall data, byte_string data ->
  premainder 64 (2 ^ 64 + 0x42F0E1EBA9EA3693)
    (N.lxor (N.shiftl (N.ones 64) (8 * N.of_nat (length data))) (N.shiftl (be_number data) 64))
    (N.lxor (compute_signature data) (N.ones 64)).
Proof. exact sig_remainder. Qed.
Print Assumptions C23_polynomial_remainder.

(** The bytes that carry a signature into further hashing determine it. *)
Theorem C23_bytes_faithful : forall crc, crc < 2 ^ 64 ->
  fold_right (fun b acc => b + 256 * acc) 0 (bytes_from_crc64 crc) = crc.
Proof. exact crc64_bytes_value. Qed.
Print Assumptions C23_bytes_faithful.

(** The published check value of CRC-64/WE. *)
Example C23_case : byte_string [0x31;0x32;0x33;0x34;0x35;0x36;0x37;0x38;0x39] /\
  compute_signature [0x31;0x32;0x33;0x34;0x35;0x36;0x37;0x38;0x39] = 0x62EC59E3F1A4F00A.
Proof. split; [repeat constructor|vm_compute; reflexivity]. Qed.

(** C70 *)
Theorem C70_three_bit_errors : forall a b initial,
  byte_string a -> byte_string b -> initial < 2 ^ 16 ->
  length a = length b -> N.of_nat (length a) <= 4095 ->
  (1 <= distance (bit_string a) (bit_string b) <= 3)%nat ->
  crc16_from_bytes a initial <> crc16_from_bytes b initial.
Proof. exact crc16_three_bits. Qed.
Print Assumptions C70_three_bit_errors.

Theorem C70_odd_bit_errors : forall a b initial,
  byte_string a -> byte_string b -> initial < 2 ^ 16 -> length a = length b ->
  Nat.odd (distance (bit_string a) (bit_string b)) = true ->
  crc16_from_bytes a initial <> crc16_from_bytes b initial.
Proof. exact crc16_odd. Qed.
Print Assumptions C70_odd_bit_errors.

Example C70_case : byte_string [0x80; 0; 0; 0; 1] /\
  distance (bit_string [0; 0; 0; 0; 0]) (bit_string [0x80; 0; 0; 0; 1]) = 2%nat /\
  distance (bit_string [0; 0; 0; 0; 0]) (bit_string [0x80; 0; 0x18; 0xC0; 0]) = 5%nat.
Proof. split; [repeat constructor|]. split; reflexivity. Qed.

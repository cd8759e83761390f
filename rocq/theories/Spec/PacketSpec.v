(** Frames that can be on a CAN bus. *)
From Verif.Base Require Import Prelude.
From Verif.Model Require Import CanFrame.
From Verif.Spec Require Import CrcSpec.
Local Open Scope N_scope.

(** The 16 lengths that a frame can have, by code. *)
Definition legal_lengths : list N := [0; 1; 2; 3; 4; 5; 6; 7; 8; 12; 16; 20; 24; 32; 48; 64].

(** At most 29 identifier bits, bytes, and no more of them than fit. *)
Definition on_bus (f : cframe) : Prop :=
  c_id f < 2 ^ 29 /\ byte_string (c_data f) /\ (length (c_data f) <= if c_fd f then 64 else 8)%nat.

(** The same identifier, data and formats; the time of reception. *)
Definition received_at (now : Z) (f g : cframe) : Prop :=
  c_id g = c_id f /\ c_data g = c_data f /\ c_ext g = c_ext f /\ c_fd g = c_fd f /\ c_ts g = now.

(** The bytes that other programs expect: little-endian numbers, bit 31 of the
    identifier for the extended format. *)
Definition wire_id (f : cframe) : N := c_id f + if c_ext f then 2147483648 else 0.
Definition id_bytes (f : cframe) : list N :=
  let w := wire_id f in [w mod 256; w / 256 mod 256; w / 65536 mod 256; w / 16777216].
(** Multicast, after the checksum. *)
Definition mcast_body (f : cframe) : list N := [if c_fd f then 1 else 0; 0] ++ id_bytes f ++ c_data f.
(** SocketCAN: [struct can_frame] and [struct canfd_frame]. *)
Definition can_struct (f : cframe) : list N :=
  id_bytes f ++ [N.of_nat (length (c_data f)); if c_fd f then 1 else 0; 0; 0] ++
  c_data f ++ repeat 0 ((if c_fd f then 64 else 8) - length (c_data f)).

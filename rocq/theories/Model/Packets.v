(** The frame codecs of the UDP multicast, SocketCAN and MAVLink drivers
    (dronecan/driver/mcast.py, socketcan.py, mavcan.py). [now] is the time of
    reception, with which the receiver stamps the frame. *)
From Verif.Base Require Import Prelude Pack.
From Verif.Model Require Import Crc CanFrame.
Local Open Scope N_scope.

(** Part of a byte string: [n] bytes from [i]. *)
Definition part (i n : nat) (b : list N) : list N := firstn n (skipn i b).
(** The identifier with the flag for the extended format, and back. *)
Definition flagged_id (f : cframe) : N := if c_ext f then N.lor (c_id f) (N.shiftl 1 31) else c_id f.
Definition plain_id (m : N) : N := N.land m 0x1FFFFFFF.
Definition ext_flag (m : N) : bool := negb (N.land m (N.shiftl 1 31) =? 0).

(** ** UDP multicast *)

(** mcast.py 30-32 *)
Definition MCAST_MAGIC : N := 0x2934.
Definition MCAST_FLAG_CANFD : N := 1.
Definition MCAST_MAX_PKT_LEN : nat := 74.

(** mcast.py 115-121: the packet sent for a frame. *)
Definition mcast_packet (f : cframe) : res (list N) :=
  let flags := if c_fd f then MCAST_FLAG_CANFD else 0 in
  b1 <- pack_le 2 (Z.of_N flags) ;;
  b2 <- pack_le 4 (Z.of_N (flagged_id f)) ;;
  let body := b1 ++ b2 ++ c_data f in
  h1 <- pack_le 2 (Z.of_N MCAST_MAGIC) ;;
  h2 <- pack_le 2 (Z.of_N (crc16_from_bytes body 0xFFFF)) ;;
  Ok (h1 ++ h2 ++ body).
(** mcast.py 151-162: the frame received in [data]. *)
Definition mcast_parse (now : Z) (data : list N) : option cframe :=
  if (length data <? 10)%nat then None
  else if negb (le_value (part 0 2 data) =? MCAST_MAGIC) then None
  else if negb (le_value (part 2 2 data) =? crc16_from_bytes (skipn 4 data) 0xFFFF) then None
  else
    let flags := le_value (part 4 2 data) in
    let message_id := le_value (part 6 4 data) in
    Some {| c_id := plain_id message_id; c_data := skipn 10 data; c_ext := ext_flag message_id;
            c_fd := negb (N.land flags MCAST_FLAG_CANFD =? 0); c_ts := now |}.
(** mcast.py 135-163: a datagram from [port] of [address]; [myport] is the
    port of the socket that this driver sends from, once known. [recvfrom]
    discards what is beyond 74 bytes. *)
Definition mcast_receive (now : Z) (myport : option N) (address port : N) (datagram : list N) : option cframe :=
  if match myport with Some p => p =? port | None => false end then None
  else mcast_parse now (firstn MCAST_MAX_PKT_LEN datagram).

(** What happens to the I/O process: a new connection, whose sending socket
    gets the port [out], or a datagram. *)
Inductive mcast_event :=
| MConnect (out : N)
| MDatagram (now : Z) (address port : N) (datagram : list N).
Record mcast_state := { ms_my : option N; ms_out : N }.
(** mcast.py 69-73 *)
Definition mcast_init (out : N) : mcast_state := {| ms_my := None; ms_out := out |}.
(** mcast.py 106-111, 135-163: one event, and the frame received. [getsockname]
    does not raise; [myport] is asked for once only. *)
Definition mcast_step (s : mcast_state) (e : mcast_event) : mcast_state * option cframe :=
  match e with
  | MConnect out => ({| ms_my := ms_my s; ms_out := out |}, None)
  | MDatagram now address port datagram =>
      let my := match ms_my s with Some p => p | None => ms_out s end in
      ({| ms_my := Some my; ms_out := ms_out s |}, mcast_receive now (Some my) address port datagram)
  end.
Fixpoint mcast_run (s : mcast_state) (es : list mcast_event) : mcast_state :=
  match es with [] => s | e :: r => mcast_run (fst (mcast_step s e)) r end.

(** ** SocketCAN *)

(** [struct.pack('<n>s')]: padded with zeros or cut off. *)
Definition pack_s (n : nat) (b : list N) : list N := firstn n b ++ repeat 0 (n - length b).
(** socketcan.py 172-173, 179-180, 232-240: the structure written to the socket. The
    machine is little-endian. *)
Definition sock_packet (f : cframe) : res (list N) :=
  let message_id := if c_ext f then N.lor (c_id f) 0x80000000 else c_id f in
  b1 <- pack_le 4 (Z.of_N message_id) ;;
  b2 <- pack_le 1 (Z.of_nat (length (c_data f))) ;;
  if c_fd f then Ok (b1 ++ b2 ++ [1; 0; 0] ++ pack_s 64 (c_data f ++ repeat 0 (64 - length (c_data f))))
  else Ok (b1 ++ b2 ++ [0; 0; 0] ++ pack_s 8 (c_data f ++ repeat 0 (8 - length (c_data f)))).
(** socketcan.py 297-311: the frame read from the socket. *)
Definition sock_parse (now : Z) (raw : list N) : res cframe :=
  let fd := negb (length raw <=? 16)%nat in
  if negb (length raw =? if fd then 72 else 16)%nat then Err StructError
  else
    let can_id := le_value (part 0 4 raw) in
    let can_len := N.to_nat (le_value (part 4 1 raw)) in
    Ok {| c_id := N.land can_id 0x1FFFFFFF; c_data := firstn can_len (skipn 8 raw);
          c_ext := negb (N.land can_id 0x80000000 =? 0); c_fd := fd; c_ts := now |}.

(** ** MAVLink *)

(** CAN_FRAME or CANFD_FRAME *)
Record mavmsg := { mv_fd : bool; mv_bus : N; mv_len : nat; mv_id : N; mv_data : list N }.
(** mavcan.py 144-168: the message sent for a frame. Sending raises, and the
    frame is given up, if the data does not fit; [mlen] is its length before
    padding. *)
Definition mav_message (bus : N) (f : cframe) : option mavmsg :=
  let max := if c_fd f then 64%nat else 8%nat in
  let mlen := length (c_data f) in
  let message := if (mlen <? max)%nat then c_data f ++ repeat 0 (max - mlen) else c_data f in
  if (length message =? max)%nat && (flagged_id f <? 2 ^ 32) then
    Some {| mv_fd := c_fd f; mv_bus := bus; mv_len := mlen; mv_id := flagged_id f; mv_data := message |}
  else None.
(** mavcan.py 188-191 *)
Definition mav_parse (now : Z) (m : mavmsg) : cframe :=
  {| c_id := plain_id (mv_id m); c_data := firstn (mv_len m) (mv_data m); c_ext := ext_flag (mv_id m);
     c_fd := mv_fd m; c_ts := now |}.

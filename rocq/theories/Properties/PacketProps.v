(** Properties of the drivers' frame codecs: C49 to C51, C78, C79. *)
From Verif.Base Require Import Prelude Pack.
From Verif.Model Require Import Crc CanFrame Packets.
From Verif.Spec Require Import CrcSpec PacketSpec.
From Verif.Proofs Require Import PacketFacts PacketLayout.
Local Open Scope N_scope.

Definition example_frame : cframe := CFrame 0x18EEFF21 [1; 2; 250; 192] true false 0.
Definition example_fd : cframe := CFrame 0x123 (repeat 0x55 20) false true 0.
Lemma example_frame_ok : on_bus example_frame.
Proof. split; [reflexivity|]. split; [repeat constructor|cbn; lia]. Qed.
Lemma example_fd_ok : on_bus example_fd.
Proof. split; [reflexivity|]. split; [repeat constructor|cbn; lia]. Qed.

(** ** C49: multicast packets *)

(** Every frame of the bus that another participant sends is received as it
    was. *)
Theorem C49_roundtrip : forall f now myport address port, on_bus f -> myport <> Some port ->
  exists p, mcast_packet f = Ok p /\ exists g, mcast_receive now myport address port p = Some g /\ received_at now f g.
Proof. exact mcast_received. Qed.
Print Assumptions C49_roundtrip.
Example C49_roundtrip_case : mcast_packet example_fd =
  Ok ([0x34; 0x29; 73; 78; 1; 0; 0x23; 1; 0; 0] ++ repeat 0x55 20).
Proof. vm_compute. reflexivity. Qed.

(** The bytes of a packet are those that other programs expect. *)
Theorem C49_layout : forall f, on_bus f -> exists lo hi,
  mcast_packet f = Ok ([0x34; 0x29; lo; hi] ++ mcast_body f) /\ lo < 256 /\ hi < 256 /\
  lo + 256 * hi = crc16_from_bytes (mcast_body f) 0xFFFF.
Proof. exact mcast_layout. Qed.
Print Assumptions C49_layout.
Example C49_layout_case : mcast_packet example_frame =
  Ok [0x34; 0x29; 93; 106; 0; 0; 0x21; 0xFF; 0xEE; 0x98; 1; 2; 250; 192].
Proof. vm_compute. reflexivity. Qed.

(** Datagrams that are too short or have another magic number or checksum
    are dropped. *)
Theorem C49_invalid_dropped : forall now data,
  (length data < 10)%nat \/ le_value (part 0 2 data) <> 0x2934 \/
  le_value (part 2 2 data) <> crc16_from_bytes (skipn 4 data) 0xFFFF -> mcast_parse now data = None.
Proof. exact mcast_dropped. Qed.
Print Assumptions C49_invalid_dropped.

(** So is a packet whose checked part was corrupted within 16 bits, *)
Theorem C49_burst_dropped : forall f now p q, on_bus f -> mcast_packet f = Ok p -> firstn 4 q = firstn 4 p ->
  byte_string q -> burst 16 (bit_string (skipn 4 p)) (bit_string (skipn 4 q)) -> mcast_parse now q = None.
Proof. exact mcast_burst. Qed.
Print Assumptions C49_burst_dropped.

(** or in up to three bits anywhere. *)
Theorem C49_bits_dropped : forall f now p q, on_bus f -> mcast_packet f = Ok p -> firstn 4 q = firstn 4 p ->
  byte_string q -> length q = length p -> (1 <= distance (bit_string (skipn 4 p)) (bit_string (skipn 4 q)) <= 3)%nat ->
  mcast_parse now q = None.
Proof. exact mcast_bits. Qed.
Print Assumptions C49_bits_dropped.
Example C49_dropped_case :
  let q := [0x34; 0x29; 73; 78; 1; 0; 0x23; 1; 0; 0] ++ repeat 0x55 19 ++ [0x54] in
  mcast_parse 7 q = None /\ distance (bit_string (skipn 4 ([0x34; 0x29; 73; 78; 1; 0; 0x23; 1; 0; 0] ++ repeat 0x55 20)))
                                     (bit_string (skipn 4 q)) = 1%nat.
Proof. vm_compute. split; reflexivity. Qed.

(** ** C50: SocketCAN *)

Theorem C50_roundtrip : forall f now, on_bus f ->
  exists p, sock_packet f = Ok p /\ exists g, sock_parse now p = Ok g /\ received_at now f g.
Proof. exact sock_roundtrip. Qed.
Print Assumptions C50_roundtrip.
(** The bytes are those of the structure of the system. *)
Theorem C50_layout : forall f, on_bus f -> sock_packet f = Ok (can_struct f).
Proof. exact sock_layout. Qed.
Print Assumptions C50_layout.
Example C50_case : sock_packet example_frame = Ok [0x21; 0xFF; 0xEE; 0x98; 4; 0; 0; 0; 1; 2; 250; 192; 0; 0; 0; 0] /\
  sock_parse 9 [0x21; 0xFF; 0xEE; 0x98; 4; 0; 0; 0; 1; 2; 250; 192; 0; 0; 0; 0] =
  Ok (CFrame 0x18EEFF21 [1; 2; 250; 192] true false 9).
Proof. vm_compute. split; reflexivity. Qed.

(** ** C51: length codes *)

Theorem C51_codes : forall d, d <= 15 ->
  In (dlc_to_datalength d) legal_lengths /\ datalength_to_dlc (dlc_to_datalength d) = d.
Proof.
  intros d H. pose proof (dlc_inverse d H) as E. split; [|exact E].
  assert (L : dlc_to_datalength d <= 64) by (unfold dlc_to_datalength; dif; lia).
  pose proof (dlc_smallest _ L) as (_ & _ & I & _). rewrite E in I. exact I.
Qed.
Print Assumptions C51_codes.
Theorem C51_lengths : forall l, In l legal_lengths -> dlc_to_datalength (datalength_to_dlc l) = l.
Proof. exact dlc_exact. Qed.
Print Assumptions C51_lengths.
Theorem C51_smallest : forall l, l <= 64 ->
  datalength_to_dlc l <= 15 /\ l <= dlc_to_datalength (datalength_to_dlc l) /\
  In (dlc_to_datalength (datalength_to_dlc l)) legal_lengths /\
  forall m, In m legal_lengths -> l <= m -> dlc_to_datalength (datalength_to_dlc l) <= m.
Proof. exact dlc_smallest. Qed.
Print Assumptions C51_smallest.
Example C51_case : datalength_to_dlc 13 = 10 /\ dlc_to_datalength 10 = 16 /\ dlc_to_datalength (datalength_to_dlc 49) = 64.
Proof. repeat split. Qed.

(** ** C78: the frames of others, and not the own ones

    The full statement is: a datagram is reported exactly if it was not sent
    by this driver, that is, if it is not from the address of this machine
    and the port of the sending socket. *)

(** It is false: another machine may send from a port with the same number. *)
Theorem C78_others_refuted : exists out me es f now address p g,
  address <> me /\ on_bus f /\ mcast_packet f = Ok p /\
  mcast_parse now p = Some g /\ received_at now f g /\
  snd (mcast_step (mcast_run (mcast_init out) es) (MDatagram now address out p)) = None.
Proof.
  destruct (mcast_roundtrip example_frame 7%Z example_frame_ok) as (p & E & _ & g & G & R).
  exists 40000, 1, [], example_frame, 7%Z, 2, p, g. split; [discriminate|]. split; [exact example_frame_ok|].
  split; [exact E|]. split; [exact G|]. split; [exact R|]. apply mcast_own. intros o [].
Qed.
Print Assumptions C78_others_refuted.

(** After a new connection the own frames are reported, because the port of
    the first connection is taken for the own one for ever. *)
Theorem C78_own_refuted : exists out out' f now me p g,
  let s := mcast_run (mcast_init out) [MDatagram now me out p; MConnect out'] in
  ms_out s = out' /\ mcast_packet f = Ok p /\ received_at now f g /\
  snd (mcast_step s (MDatagram now me out' p)) = Some g.
Proof.
  destruct (mcast_received example_frame 7%Z (Some 40000) 1 40001 example_frame_ok ltac:(discriminate)) as (p & E & g & G & R).
  exists 40000, 40001, example_frame, 7%Z, 1, p, g. cbv zeta. split; [reflexivity|]. split; [exact E|].
  split; [exact R|]. exact G.
Qed.
Print Assumptions C78_own_refuted.

(** Frames sent from any port that this driver never had are reported. *)
Theorem C78_others_partial : forall out es f now address port, on_bus f -> port <> out -> ~ In (MConnect port) es ->
  exists p, mcast_packet f = Ok p /\
  exists g, snd (mcast_step (mcast_run (mcast_init out) es) (MDatagram now address port p)) = Some g /\ received_at now f g.
Proof. exact mcast_others. Qed.
Print Assumptions C78_others_partial.

(** As long as there was one connection only, the own frames are not. *)
Theorem C78_own_partial : forall out es now address p, (forall o, ~ In (MConnect o) es) ->
  snd (mcast_step (mcast_run (mcast_init out) es) (MDatagram now address out p)) = None.
Proof. exact mcast_own. Qed.
Print Assumptions C78_own_partial.
Example C78_case : exists p, mcast_packet example_fd = Ok p /\
  snd (mcast_step (mcast_run (mcast_init 40000) [MDatagram 1 9 41000 p]) (MDatagram 2 9 41000 p)) =
    Some (CFrame 0x123 (repeat 0x55 20) false true 2) /\
  snd (mcast_step (mcast_run (mcast_init 40000) [MDatagram 1 9 41000 p]) (MDatagram 2 9 40000 p)) = None.
Proof. eexists. split; [vm_compute; reflexivity|]. vm_compute. split; reflexivity. Qed.

(** ** C79: MAVLink *)

(** The message carries the frame in the fixed number of bytes of its kind
    and is read as the same frame. *)
Theorem C79_roundtrip : forall bus f now, on_bus f ->
  exists m, mav_message bus f = Some m /\ mv_bus m = bus /\
    length (mv_data m) = (if c_fd f then 64%nat else 8%nat) /\ received_at now f (mav_parse now m).
Proof. exact mav_roundtrip. Qed.
Print Assumptions C79_roundtrip.
Example C79_case : exists m, mav_message 1 example_frame = Some m /\ mv_len m = 4%nat /\
  mav_parse 3 m = CFrame 0x18EEFF21 [1; 2; 250; 192] true false 3.
Proof. eexists. split; [vm_compute; reflexivity|]. split; reflexivity. Qed.

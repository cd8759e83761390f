(** What the multicast driver is to do with frames and datagrams. *)
From Verif.Base Require Import Prelude Pack.
From Verif.Model Require Import Crc CanFrame Packets McastIo.
From Verif.Spec Require Import PacketSpec.

Definition accepted (l : list sight) : list cframe :=
  flat_map (fun o => match o with Accepted f => [f] | _ => [] end) l.
Definition sent (l : list sight) : list (list N) :=
  flat_map (fun o => match o with Sent p => [p] | _ => [] end) l.
(** Datagrams given to the operating system, and whether it took them. *)
Definition tried (l : list sight) : list (list N * bool) :=
  flat_map (fun o => match o with Sent p => [(p, true)] | Failed p => [(p, false)] | _ => [] end) l.
Definition delivered (l : list sight) : list cframe :=
  flat_map (fun o => match o with Delivered f => [f] | _ => [] end) l.
(** Datagrams that came in, with their times. *)
Definition heard (l : list sight) : list (Z * N * list N) :=
  flat_map (fun o => match o with Heard now _ port b => [(now, port, b)] | _ => [] end) l.

(** The frame the process has taken from the queue and not yet tried to send. *)
Definition in_hand (s : state) : list cframe :=
  match mc_place s with AtSend f _ => [f] | _ => [] end.
Definition ended (s : state) : Prop := mc_place s = AtEnd.
(** Nothing is left to be sent. *)
Definition idle (s : state) : Prop := ~ ended s /\ mc_tx s = [] /\ in_hand s = [].

(** The process is about to send, to wait or to receive. *)
Definition calling (s : state) : Prop :=
  match mc_place s with AtSend _ _ | AtSelect | AtReceive => True | _ => False end.

(** Nothing raises. *)
Definition calm (acts : list act) : Prop := ~ In (AProcess Raises) acts.
(** The program takes frames before the queue is full. *)
Definition keeps_up (tx_size rx_size : nat) (ports : nat -> N) (acts : list act) : Prop :=
  forall pre post, acts = pre ++ post -> (length (mc_rx (run tx_size rx_size ports start pre)) < rx_size)%nat.
Definition handed (acts : list act) : list cframe :=
  flat_map (fun a => match a with ASend f => [f] | _ => [] end) acts.
(** [getsockname] does not raise. *)
Definition all_named (acts : list act) : Prop :=
  forall now address port b, ~ In (AProcess (Datagram now address port b false)) acts.

(** A datagram from another socket, made of a frame. *)
Definition foreign (ports : nat -> N) (f : cframe) (h : Z * N * list N) : Prop :=
  on_bus f /\ (forall i, ports i <> snd (fst h)) /\ mcast_packet f = Ok (snd h).
(** A datagram that is not of this protocol, or damaged. *)
Definition junk (h : Z * N * list N) : Prop :=
  let b := firstn 74 (snd h) in
  (length b < 10)%nat \/ le_value (firstn 2 b) <> 0x2934%N \/
  le_value (firstn 2 (skipn 2 b)) <> crc16_from_bytes (skipn 4 b) 0xFFFF.
(** One from the first socket of this driver. *)
Definition own (ports : nat -> N) (h : Z * N * list N) : Prop := snd (fst h) = ports 0%nat.

(** The frames to be reported for the datagrams that came in. *)
Inductive reports (ports : nat -> N) : list (Z * N * list N) -> list cframe -> Prop :=
| rep_none : reports ports [] []
| rep_frame f g h hs gs : reports ports hs gs -> foreign ports f h -> received_at (fst (fst h)) f g ->
    reports ports (hs ++ [h]) (gs ++ [g])
| rep_other h hs gs : reports ports hs gs -> junk h \/ own ports h -> reports ports (hs ++ [h]) gs.

(** The I/O process of the multicast driver (dronecan/driver/mcast.py 69-163)
    and the two queues between it and the program (176-207). Each step below is
    one access to a queue or a socket, so that a run is any interleaving of the
    program and the process. Queues are taken to be atomic; [sleep] and the
    waiting of [select] take no step of their own. *)
From Verif.Base Require Import Prelude.
From Verif.Model Require Import CanFrame Packets.

(** What the operating system answers: the call succeeds, it raises, there is nothing to be
    received (143: EAGAIN, EWOULDBLOCK, ECONNREFUSED), or a datagram is
    received; [named] tells whether [getsockname] succeeds (138-141). *)
Inductive reply :=
| Fine
| Raises
| Nothing
| Datagram (now : Z) (address port : N) (bytes : list N) (named : bool).

(** Where the process is: before the test of [need_connect] (107), in
    [connect] (110), before the test of the queue (113), before [send] (124),
    before [select] (130), before [recvfrom] (136); or it has ended by an
    exception. *)
Inductive place :=
| AtTop
| AtConnect
| AtQueue
| AtSend (f : cframe) (packet : list N)
| AtSelect
| AtReceive
| AtEnd.

(** What can be seen, newest last: [send_frame] took a frame, or raised
    [queue.Full]; a datagram went out; [send] raised; a datagram came in; the
    program got a frame. *)
Inductive sight :=
| Accepted (f : cframe)
| Refused (f : cframe)
| Sent (packet : list N)
| Failed (packet : list N)
| Heard (now : Z) (address port : N) (bytes : list N)
| Delivered (f : cframe).

Record state := State {
  mc_tx : list cframe;
  mc_rx : list cframe;
  mc_place : place;
  mc_need : bool;
  mc_conns : nat;
  mc_my : option N;
  mc_log : list sight
}.

Section Driver.
  (** [TX_QUEUE_SIZE] and [RX_QUEUE_SIZE] (lines 52-56). *)
  Variables (tx_size rx_size : nat).
  (** The port of the sending socket of each connection. *)
  Variable ports : nat -> N.

  (** Lines 69-72. *)
  Definition start : state := State [] [] AtTop true 0 None [].

  Definition go (s : state) (p : place) : state :=
    State (mc_tx s) (mc_rx s) p (mc_need s) (mc_conns s) (mc_my s) (mc_log s).
  Definition see (s : state) (o : sight) : state :=
    State (mc_tx s) (mc_rx s) (mc_place s) (mc_need s) (mc_conns s) (mc_my s) (mc_log s ++ [o]).
  Definition broken (s : state) : state :=
    State (mc_tx s) (mc_rx s) (mc_place s) true (mc_conns s) (mc_my s) (mc_log s).

  (** 137-163: a datagram; an exception of [put_nowait] ends the process. *)
  Definition datagram (s : state) (now : Z) (address port : N) (bytes : list N) (named : bool) : state :=
    let my := match mc_my s with
              | Some p => Some p
              | None => if named then match mc_conns s with O => None | S n => Some (ports n) end else None
              end in
    let s := see (State (mc_tx s) (mc_rx s) AtTop (mc_need s) (mc_conns s) my (mc_log s)) (Heard now address port bytes) in
    match mcast_receive now my address port bytes with
    | None => s
    | Some f =>
        if (length (mc_rx s) <? rx_size)%nat
        then State (mc_tx s) (mc_rx s ++ [f]) AtTop (mc_need s) (mc_conns s) my (mc_log s)
        else go s AtEnd
    end.

  (** A step of the process (106-163); packing a frame raises outside of the
      [try] (119-121), and so does [connect]. *)
  Definition process_step (s : state) (r : reply) : state :=
    match mc_place s with
    | AtTop =>
        if mc_need s
        then State (mc_tx s) (mc_rx s) AtConnect false (mc_conns s) (mc_my s) (mc_log s)
        else go s AtQueue
    | AtConnect =>
        match r with
        | Raises => go s AtEnd
        | _ => State (mc_tx s) (mc_rx s) AtTop (mc_need s) (S (mc_conns s)) (mc_my s) (mc_log s)
        end
    | AtQueue =>
        match mc_tx s with
        | [] => go s AtSelect
        | f :: q =>
            State q (mc_rx s) match mcast_packet f with Ok p => AtSend f p | Err _ => AtEnd end
              (mc_need s) (mc_conns s) (mc_my s) (mc_log s)
        end
    | AtSend f p =>
        match r with
        | Raises => see (go (broken s) AtQueue) (Failed p)
        | _ => see (go s AtQueue) (Sent p)
        end
    | AtSelect =>
        match r with
        | Raises => go (broken s) AtReceive
        | _ => go s AtReceive
        end
    | AtReceive =>
        match r with
        | Raises => go (broken s) AtTop
        | Datagram now address port bytes named => datagram s now address port bytes named
        | _ => go s AtTop
        end
    | AtEnd => s
    end.

  (** 205-207: [send_frame] after the hooks. *)
  Definition send_frame (s : state) (f : cframe) : state :=
    if (length (mc_tx s) <? tx_size)%nat
    then see (State (mc_tx s ++ [f]) (mc_rx s) (mc_place s) (mc_need s) (mc_conns s) (mc_my s) (mc_log s)) (Accepted f)
    else see s (Refused f).
  (** 192-199: one turn of the loop in [receive]. *)
  Definition poll (s : state) : state :=
    match mc_rx s with
    | [] => s
    | f :: r => see (State (mc_tx s) r (mc_place s) (mc_need s) (mc_conns s) (mc_my s) (mc_log s)) (Delivered f)
    end.

  Inductive act :=
  | ASend (f : cframe)
  | APoll
  | AProcess (r : reply).
  Definition step (s : state) (a : act) : state :=
    match a with
    | ASend f => send_frame s f
    | APoll => poll s
    | AProcess r => process_step s r
    end.
  Definition run (s : state) (acts : list act) : state := fold_left step acts s.
End Driver.

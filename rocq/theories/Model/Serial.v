(** dronecan/utility.py: [DroneCANSerial], a serial port over DroneCAN.
    Simplifications: the port is open (45-52 not modelled). The node is
    modelled by what it does for the port: each call of [Node.spin] delivers
    some messages to the handler and may raise, each broadcast may raise. A
    broadcast that raises is taken not to reach its destination (C131_refused
    shows that it does not). *)
From Verif.Base Require Import Prelude.
Local Open Scope Z_scope.

(** uavcan.tunnel.Targetted, with the node that sent it. *)
Record tmsg := { m_source : N; m_target : N; m_serial : Z; m_protocol : N; m_options : N; m_baud : Z; m_buffer : list N }.

(** How a call into the node ends; [Full] is TxQueueFullError, a subclass of
    DriverError. *)
Inductive outcome := Done | Full | Fails (e : exn).
(** The calls that [send_bytes] makes in one turn of its loop: the messages
    that [spin] delivers, how [spin] and [broadcast] end, and the time after. *)
Record turn := { t_arrive : list tmsg; t_spin : outcome; t_cast : outcome; t_time : Z }.

(** How an operation of the port ends; [Waits] is to be still waiting for
    room in the transmit queue. *)
Inductive result (A : Type) := Returns (a : A) | Raises (e : exn) | Waits.
Arguments Returns {A} a. Arguments Raises {A} e. Arguments Waits {A}.

(** What happened, the latest last. *)
Inductive sevent :=
| ERecv (m : tmsg)
| ESent (m : tmsg)
| ERead (bs : list N)
| EFlush.
Record port := { p_buf : list N; p_baud : Z; p_last : Z; p_log : list sevent }.

(** [b[:n]] and [b[n:]] *)
Definition cut_at (n : Z) (b : list N) : nat :=
  if n <? 0 then Z.to_nat (Z.of_nat (length b) + n) else Z.to_nat n.
Definition upto (n : Z) (b : list N) := firstn (cut_at n b) b.
Definition from (n : Z) (b : list N) := skipn (cut_at n b) b.

Section Serial.
  (** The constructor's arguments: the local node, the node to talk to, the
      device on it, and the option to lock it. *)
  Variables (own : option N) (target : N) (dev : Z) (lock : N).

  (** 23-34 *)
  Definition fresh (baud : Z) : port := {| p_buf := []; p_baud := baud; p_last := 0; p_log := [] |}.

  (** 54-59: [handle_Targetted]. *)
  Definition handle (s : port) (m : tmsg) : port :=
    let keep := (m_source m =? target)%N &&
                match own with Some i => (m_target m =? i)%N | None => false end in
    {| p_buf := if keep then p_buf s ++ m_buffer m else p_buf s;
       p_baud := p_baud s; p_last := p_last s; p_log := p_log s ++ [ERecv m] |}.
  (** 36-43: [spin]; a TransferError is ignored. *)
  Definition spin (s : port) (ms : list tmsg) (o : outcome) : port * outcome :=
    (fold_left handle ms s, match o with Fails TransferError => Done | _ => o end).

  (** 66-72: the message; [lock] is OPTION_LOCK_PORT if the port is to be
      locked and 0 otherwise. *)
  Definition message (s : port) (b : list N) : tmsg :=
    {| m_source := match own with Some i => i | None => 0%N end; m_target := target; m_serial := dev;
       m_protocol := 2; m_options := lock; m_baud := p_baud s; m_buffer := b |}.
  Definition sent (s : port) (m : tmsg) (now : Z) : port :=
    {| p_buf := p_buf s; p_baud := p_baud s; p_last := now; p_log := p_log s ++ [ESent m] |}.

  (** 61-83: [send_bytes]. The loop takes one turn after the other; the turns
      not taken are returned. *)
  Fixpoint try_send (s : port) (m : tmsg) (ts : list turn) : port * result unit * list turn :=
    match ts with
    | [] => (s, Waits, [])
    | t :: ts =>
        let '(s, o) := spin s (t_arrive t) (t_spin t) in
        match o with
        | Full => try_send s m ts
        | Fails e => (s, Raises e, ts)
        | Done => match t_cast t with
                  | Full => try_send s m ts
                  | Fails e => (s, Raises e, ts)
                  | Done => (sent s m (t_time t), Returns tt, ts)
                  end
        end
    end.
  Definition send_bytes (s : port) (b : list N) (ts : list turn) : port * result Z * list turn :=
    let n := if 120 <? Z.of_nat (length b) then 120 else Z.of_nat (length b) in
    let '(s, r, ts) := try_send s (message s (upto n b)) ts in
    (s, match r with Returns _ => Returns n | Raises e => Raises e | Waits => Waits end, ts).

  (** 85-94: [write]; the fuel [length b] suffices. *)
  Fixpoint write_fuel (fuel : nat) (s : port) (b : list N) (total : Z) (ts : list turn) : port * result Z :=
    match fuel with
    | O => (s, match b with [] => Returns total | _ => Raises RuntimeError end)
    | S f =>
        match b with
        | [] => (s, Returns total)
        | _ =>
            let '(s, r, ts) := send_bytes s b ts in
            match r with
            | Returns n => if n <=? 0 then (s, Returns total) else write_fuel f s (from n b) (total + n) ts
            | Raises e => (s, Raises e)
            | Waits => (s, Waits)
            end
        end
    end.
  Definition write (s : port) (b : list N) (ts : list turn) : port * result Z := write_fuel (length b) s b 0 ts.

  (** 96-109: [read]; half a second is [500]. *)
  Definition taken (s : port) (n : Z) : port * list N :=
    match p_buf s with
    | [] => (s, [])
    | _ =>
        let n := if Z.of_nat (length (p_buf s)) <? n then Z.of_nat (length (p_buf s)) else n in
        ({| p_buf := from n (p_buf s); p_baud := p_baud s; p_last := p_last s; p_log := p_log s |}, upto n (p_buf s))
    end.
  Definition finish (s : port) (n : Z) : port * result (list N) :=
    let '(s, bs) := taken s n in
    ({| p_buf := p_buf s; p_baud := p_baud s; p_last := p_last s; p_log := p_log s ++ [ERead bs] |}, Returns bs).
  Definition read (s : port) (n : Z) (ms : list tmsg) (o : outcome) (now : Z) (ts : list turn) : port * result (list N) :=
    let '(s, o) := spin s ms o in
    match o with
    | Full => (s, Raises DriverError)
    | Fails e => (s, Raises e)
    | Done =>
        if 500 <? now - p_last s then
          let '(s, r, _) := send_bytes s [] ts in
          match r with
          | Returns _ => finish s n
          | Raises e => (s, Raises e)
          | Waits => (s, Waits)
          end
        else finish s n
    end.

  (** 111-113: [flushInput]. *)
  Definition flush_input (s : port) : port :=
    {| p_buf := []; p_baud := p_baud s; p_last := p_last s; p_log := p_log s ++ [EFlush] |}.
  (** 115-120: [setBaudrate]. *)
  Definition set_baud (s : port) (b : Z) : port :=
    if p_baud s =? b then s
    else flush_input {| p_buf := p_buf s; p_baud := b; p_last := p_last s; p_log := p_log s |}.

  (** What is done with a port. [OSpin] is [flush] (122-124), or anybody else
      calling [Node.spin]. *)
  Inductive sop :=
  | OWrite (b : list N) (ts : list turn)
  | ORead (n : Z) (ms : list tmsg) (o : outcome) (now : Z) (ts : list turn)
  | OFlushInput
  | OSetBaud (b : Z)
  | OSpin (ms : list tmsg) (o : outcome).
  Definition sstep (s : port) (op : sop) : port :=
    match op with
    | OWrite b ts => fst (write s b ts)
    | ORead n ms o now ts => fst (read s n ms o now ts)
    | OFlushInput => flush_input s
    | OSetBaud b => set_baud s b
    | OSpin ms o => fst (spin s ms o)
    end.
  Definition run_port (baud : Z) (ops : list sop) : port := fold_left sstep ops (fresh baud).
End Serial.

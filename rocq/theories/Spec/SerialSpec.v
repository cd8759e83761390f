(** What a serial port promises. *)
From Verif.Base Require Import Prelude.
From Verif.Model Require Import Serial.
Local Open Scope Z_scope.

(** The messages sent, and the bytes read. *)
Definition sent_in (log : list sevent) : list tmsg :=
  flat_map (fun e => match e with ESent m => [m] | _ => [] end) log.
Definition read_in (log : list sevent) : list N :=
  flat_map (fun e => match e with ERead bs => bs | _ => [] end) log.
(** The bytes received from node [target] for node [own]. *)
Definition received_in (own : option N) (target : N) (log : list sevent) : list N :=
  flat_map (fun e => match e with
                     | ERecv m => if (m_source m =? target)%N &&
                                     match own with Some i => (m_target m =? i)%N | None => false end
                                  then m_buffer m else []
                     | _ => [] end) log.
(** Those of them from device [dev] of that node. *)
Definition device_bytes (own : option N) (target : N) (dev : Z) (log : list sevent) : list N :=
  flat_map (fun e => match e with
                     | ERecv m => if (m_source m =? target)%N &&
                                     match own with Some i => (m_target m =? i)%N | None => false end &&
                                     (m_serial m =? dev)
                                  then m_buffer m else []
                     | _ => [] end) log.
Definition payload (ms : list tmsg) : list N := flat_map m_buffer ms.

(** A message for the device with at most 120 bytes. *)
Definition for_device (own : option N) (target : N) (dev : Z) (lock : N) (baud : Z) (m : tmsg) : Prop :=
  own = Some (m_source m) /\ m_target m = target /\ m_serial m = dev /\ m_protocol m = 2%N /\
  m_options m = lock /\ m_baud m = baud /\ (length (m_buffer m) <= 120)%nat.

(** The bytes of the writes. *)
Definition written (ops : list sop) : list N :=
  flat_map (fun o => match o with OWrite b _ => b | _ => [] end) ops.

(** The speed last asked for. *)
Definition speed (baud : Z) (ops : list sop) : Z :=
  fold_left (fun b o => match o with OSetBaud b' => b' | _ => b end) ops baud.

(** Turns in which the node raises nothing but "transmit queue full", and
    those in which the message goes out. *)
Definition spin_fine (o : outcome) : Prop := o = Done \/ o = Fails TransferError.
Definition no_failure (t : turn) : Prop :=
  (spin_fine (t_spin t) \/ t_spin t = Full) /\ (t_cast t = Done \/ t_cast t = Full).
Definition goes_out (t : turn) : bool :=
  match t_spin t with Done | Fails TransferError => true | _ => false end &&
  match t_cast t with Done => true | _ => false end.

(** The part of the log after the last flush of the input. *)
Definition since_flush (log : list sevent) : list sevent :=
  fold_left (fun acc e => match e with EFlush => [] | _ => acc ++ [e] end) log [].

(** Every write of the history returned. *)
Fixpoint writes_return (own : option N) (target : N) (dev : Z) (lock : N) (s : port) (ops : list sop) : Prop :=
  match ops with
  | [] => True
  | op :: ops =>
      match op with OWrite b ts => exists n, snd (write own target dev lock s b ts) = Returns n | _ => True end /\
      writes_return own target dev lock (sstep own target dev lock s op) ops
  end.

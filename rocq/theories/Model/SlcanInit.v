(** SLCAN (dronecan/driver/slcan.py): opening the channel of an adapter, and
    reopening a lost port. The port is a parameter: its operations act on
    states of the outer world and may raise. Waiting times and log messages are
    left out. Waiting for an acknowledgement has a limit on the bytes passed
    over, which is not in the program; [None] means that the limit was reached. *)
From Verif.Base Require Import Prelude.
From Verif.Model Require Import Slcan.
Local Open Scope N_scope.

(** What [read(1)] does: a byte, no byte before the timeout, an exception. *)
Inductive got := Byte (b : N) | Nothing | Fault.

(** A serial port. The booleans are false if the call raises. *)
Record port (W : Type) := {
  p_write : list N -> W -> bool * W;
  p_flush : W -> bool * W;
  p_read : W -> got * W;
  p_drop : W -> bool * W  (* flushInput *)
}.
Arguments p_write {W}. Arguments p_flush {W}. Arguments p_read {W}. Arguments p_drop {W}.

(** How a piece of code ends: normally, with a DriverError, or with another
    exception. *)
Inductive ending := Done | Refused | Failed.

(** slcan.py 485-495: the codes of the bit rates; a KeyError for others. *)
Definition speed_code (bitrate : option N) : option N :=
  match match bitrate with Some b => b | None => 1000000 end with
  | 1000000 => Some 8 | 800000 => Some 7 | 500000 => Some 6 | 250000 => Some 5 | 125000 => Some 4
  | 100000 => Some 3 | 50000 => Some 2 | 20000 => Some 1 | 10000 => Some 0 | _ => None
  end.

Section Port.
Context {W : Type} (p : port W).

Definition code := W -> option (ending * W).

(** One statement after the other. *)
Definition next (a b : code) : code := fun w =>
  match a w with Some (Done, w') => b w' | r => r end.
(** [try: a except DriverError: pass] *)
Definition tolerate (a : code) : code := fun w =>
  match a w with Some (Refused, w') => Some (Done, w') | r => r end.

Definition simple (f : W -> bool * W) : code := fun w => let (ok, w') := f w in Some (if ok then Done else Failed, w').

(** slcan.py 468-479 *)
Fixpoint wait_for_ack (limit : nat) : code := fun w =>
  match limit with
  | O => None
  | S n =>
      match p_read p w with
      | (Fault, w') => Some (Failed, w')
      | (Nothing, w') => Some (Refused, w')
      | (Byte b, w') => if b =? NACK then Some (Refused, w') else if b =? CR then Some (Done, w') else wait_for_ack n w'
      end
  end.

(** slcan.py 481-483 *)
Definition send_command (cmd : list N) : code := simple (p_write p (cmd ++ [CR])).

(** slcan.py 500-530: one attempt. The code is a single digit. *)
Definition attempt (limit : nat) (speed : N) : code :=
  next (send_command []) (next (tolerate (wait_for_ack limit)) (next (simple (p_drop p))
  (next (send_command [67]) (next (tolerate (wait_for_ack limit))
  (next (send_command [83; 48 + speed]) (next (simple (p_flush p)) (next (wait_for_ack limit)
  (next (send_command [79]) (next (simple (p_flush p)) (next (wait_for_ack limit)
  (next (send_command [70]) (next (simple (p_flush p)) (tolerate (wait_for_ack limit)))))))))))))).

(** slcan.py 497-540: up to [retries] further attempts. *)
Fixpoint attempts (limit : nat) (speed : N) (retries : nat) : code := fun w =>
  match attempt limit speed w with
  | None => None
  | Some (Done, w') => Some (Done, w')
  | Some (e, w') => match retries with O => Some (e, w') | S n => attempts limit speed n w' end
  end.

(** slcan.py 467-544 *)
Definition init_adapter (limit : nat) (bitrate : option N) : code := fun w =>
  match speed_code bitrate with
  | None => Some (Failed, w)
  | Some s => next (attempts limit s 3) (simple (p_drop p)) w
  end.

(** slcan.py 94-110: reopening. [close] and [open] are those of the serial
    port; all exceptions are swallowed. *)
Definition retry (close : W -> W) (open : W -> bool * W) (limit : nat) (bitrate : option N) (w : W) : option W :=
  let (ok, w') := open (close w) in
  if ok then match init_adapter limit bitrate w' with Some (_, w'') => Some w'' | None => None end else Some w'.

(** slcan.py 112-119: reading goes on until it does not raise; [tries] bounds
    the number of times. *)
Fixpoint retry_read (close : W -> W) (open : W -> bool * W) (limit : nat) (bitrate : option N) (tries : nat) (w : W) : option (option N * W) :=
  match p_read p w with
  | (Byte b, w') => Some (Some b, w')
  | (Nothing, w') => Some (None, w')
  | (Fault, w') =>
      match tries with
      | O => None
      | S n => match retry close open limit bitrate w' with Some w'' => retry_read close open limit bitrate n w'' | None => None end
      end
  end.
End Port.

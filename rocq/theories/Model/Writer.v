(** The writer threads of the SocketCAN and python-can drivers
    (dronecan/driver/socketcan.py 222-272, 315-320; python_can.py 77-134,
    163-170). The two threads share the queue of frames, the queue of answers
    and the flag that stops the writer; each step below is one access to them,
    so that a run is any interleaving. Queues of Python are taken to be atomic. *)
From Verif.Base Require Import Prelude.
From Verif.Model Require Import CanFrame.

(** What the operating system (or python-can) does with a message: it takes it,
    raises [OSError] with [ENOBUFS], or raises anything else. *)
Inductive attempt := Fine | NoBuffers | Wrong (x : exn).

Section Writer.
  (** [W]: what is written for a frame; [encode]: how it is made of the frame.
      [flushes]: the bus is flushed after every frame (python_can.py 104).
      [refuses]: frames that [send_frame] does not take (python_can.py
      164-165). [capacity]: [TX_QUEUE_SIZE]. *)
  Variables (W : Type) (encode : cframe -> res W) (flushes : bool).
  Variables (refuses : cframe -> bool) (capacity : nat).

  (** Where the writer is: before the outer test of the flag (line 223 of
      socketcan.py), before [get] (225), before the inner test (230), before
      [send] (240), before [flush_tx_buffer] (python_can.py 104), before the
      two [put] (244 and 253), at the end. *)
  Inductive place :=
  | AtTop
  | AtGet
  | AtTry (f : cframe)
  | AtSend (f : cframe) (w : W)
  | AtFlush (f : cframe)
  | AtDone (f : cframe)
  | AtRaise (x : exn)
  | AtEnd.

  (** What can be seen, newest last: [send_frame] took a frame; it did not;
      a hook call for a transmitted frame; an exception that [send_frame] or
      [receive] raised for the writer; a message written. *)
  Inductive sight :=
  | Accepted (f : cframe)
  | Refused (f : cframe)
  | Shown (f : cframe)
  | Raised (x : exn)
  | Wrote (w : W).

  Record state := State {
    w_queue : list cframe;
    w_back : list (cframe + exn);
    w_stop : bool;
    w_place : place;
    w_log : list sight
  }.

  Definition see (s : state) (o : sight) : state :=
    State (w_queue s) (w_back s) (w_stop s) (w_place s) (w_log s ++ [o]).
  Definition go (s : state) (p : place) : state :=
    State (w_queue s) (w_back s) (w_stop s) p (w_log s).
  Definition answer (s : state) (a : cframe + exn) : state :=
    State (w_queue s) (w_back s ++ [a]) (w_stop s) AtTop (w_log s).

  (** socketcan.py 255-267, python_can.py 117-129: [_check_write_feedback];
      [true] if it raises. *)
  Definition check_write_feedback (s : state) : state * bool :=
    match w_back s with
    | [] => (s, false)
    | inl f :: r => (see (State (w_queue s) r (w_stop s) (w_place s) (w_log s)) (Shown f), false)
    | inr x :: r => (see (State (w_queue s) r (w_stop s) (w_place s) (w_log s)) (Raised x), true)
    end.

  (** socketcan.py 315-320, python_can.py 163-170: [send_frame]. *)
  Definition send_frame (s : state) (f : cframe) : state :=
    if refuses f then see s (Refused f)
    else
      match check_write_feedback s with
      | (s, true) => see s (Refused f)
      | (s, false) =>
          if (length (w_queue s) <? capacity)%nat
          then see (State (w_queue s ++ [f]) (w_back s) (w_stop s) (w_place s) (w_log s)) (Accepted f)
          else see s (Refused f)
      end.

  (** 241-242: the frame is stamped with the time after the transmission. *)
  Definition stamped (f : cframe) (now : Z) : cframe :=
    CFrame (c_id f) (c_data f) (c_ext f) (c_fd f) now.

  (** A step of the writer: [a] is what the system call does, [now] the time. *)
  Definition writer_step (s : state) (a : attempt) (now : Z) : state :=
    match w_place s with
    | AtTop => go s (if w_stop s then AtEnd else AtGet)
    | AtGet =>
        match w_queue s with
        | [] => go s AtTop
        | f :: q => State q (w_back s) (w_stop s) (AtTry f) (w_log s)
        end
    | AtTry f =>
        if w_stop s then go s AtTop
        else match encode f with
             | Err x => go s (AtRaise x)
             | Ok w => go s (AtSend f w)
             end
    | AtSend f w =>
        match a with
        | Fine => see (go s (if flushes then AtFlush f else AtDone f)) (Wrote w)
        | NoBuffers => go s (AtTry f)
        | Wrong x => go s (AtRaise x)
        end
    | AtFlush f =>
        match a with
        | Fine => go s (AtDone f)
        | NoBuffers => go s (AtTry f)
        | Wrong x => go s (AtRaise x)
        end
    | AtDone f => answer s (inl (stamped f now))
    | AtRaise x => answer s (inr x)
    | AtEnd => s
    end.

  (** What a thread does: [send_frame], the beginning of [receive] (275; the
      rest does not touch the writer), setting the flag in [close] (270), or a
      step of the writer. *)
  Inductive act :=
  | ASend (f : cframe)
  | AReceive
  | AStop
  | AWriter (a : attempt) (now : Z).
  Definition step (s : state) (a : act) : state :=
    match a with
    | ASend f => send_frame s f
    | AReceive => fst (check_write_feedback s)
    | AStop => State (w_queue s) (w_back s) true (w_place s) (w_log s)
    | AWriter a now => writer_step s a now
    end.

  (** socketcan.py 194-200. *)
  Definition start : state := State [] [] false AtTop [].
  Definition run (s : state) (acts : list act) : state := fold_left step acts s.
End Writer.
Arguments AtTop {W}. Arguments AtGet {W}. Arguments AtTry {W} f. Arguments AtSend {W} f w.
Arguments AtFlush {W} f. Arguments AtDone {W} f. Arguments AtRaise {W} x. Arguments AtEnd {W}.
Arguments Accepted {W} f. Arguments Refused {W} f. Arguments Shown {W} f. Arguments Raised {W} x.
Arguments Wrote {W} w.
Arguments State {W} w_queue w_back w_stop w_place w_log.
Arguments w_queue {W} s. Arguments w_back {W} s. Arguments w_stop {W} s. Arguments w_place {W} s. Arguments w_log {W} s.
Arguments start {W}.
Arguments run {W} encode flushes refuses capacity s acts.
Arguments step {W} encode flushes refuses capacity s a.

(** ** python-can *)

(** A message of python-can ([can.Message]). *)
Record canmsg := CanMsg {
  m_id : N; m_ext : bool; m_remote : bool; m_error : bool; m_fd : bool; m_data : list N
}.
(** python_can.py 88-102: the message for a frame (both versions). *)
Definition pycan_message (f : cframe) : res canmsg :=
  Ok (CanMsg (c_id f) (c_ext f) false false false (c_data f)).
(** python_can.py 142-158: the frame for a received message. *)
Definition pycan_receive (now : Z) (m : canmsg) : cframe :=
  CFrame (m_id m) (m_data m) true false now.

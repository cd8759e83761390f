(** tools/dronecan_bridge.py 35-70: one thread for each interface. *)
From Verif.Base Require Import Prelude.
From Verif.Model Require Import CanFrame.

(** What [d.receive(timeout=0.1)] does: a frame, nothing, or any exception.
    The handler names [dronecan.driver.common.TransferError], which does not
    exist, so an exception of any kind ends the thread with an
    [AttributeError]. *)
Inductive receipt : Type := RFrame (f : cframe) | RNone | RError (e : exn).

(** What [d.send_frame(frame)] does: the frame is taken, or it raises
    [TxQueueFullError], or it raises anything else, which ends the thread. *)
Inductive delivery : Type := Taken | QueueFull | Failed (e : exn).

(** Where a thread is: at the top of its loop; about to hand [f] to the
    drivers of the list (lines 59-65); ended. *)
Inductive pc : Type := Top | Sending (f : cframe) (to_do : list nat) | Ended.

Record thread := Thread { th_pc : pc; th_count : N }.

(** What happened, newest last: thread [i] got a frame from its driver; thread
    [i] handed a frame to driver [j], with the outcome. *)
Inductive happening : Type :=
| Received (i : nat) (f : cframe)
| Sent (i j : nat) (f : cframe) (d : delivery).

Record bridge := Bridge { b_threads : list thread; b_log : list happening }.

Section Filter.
  (** [args.filter_nodeid] and the number of drivers. *)
  Variables (filter_nodeid : option (list N)) (n : nat).

  (** 54-57. *)
  Definition passes (f : cframe) : bool :=
    match filter_nodeid with
    | None => true
    | Some ids => existsb (N.eqb (N.land (c_id f) 0x7F)) ids
    end.

  Fixpoint set_thread (l : list thread) (i : nat) (t : thread) : list thread :=
    match l with
    | [] => []
    | x :: l' => match i with O => t :: l' | S i' => x :: set_thread l' i' t end
    end.

  (** A step of thread [i]: it receives ([r]), or turns to the next driver of
      the list ([d] is what that driver does). Threads run at their own pace,
      so a run is any sequence of steps. A frame object is true, so
      [if not frame] only catches [None]. *)
  Definition step (b : bridge) (i : nat) (r : receipt) (d : delivery) : bridge :=
    match nth_error (b_threads b) i with
    | None => b
    | Some t =>
        match th_pc t with
        | Ended => b
        | Top =>
            match r with
            | RError e =>
                Bridge (set_thread (b_threads b) i (Thread Ended (th_count t))) (b_log b)
            | RNone => b
            | RFrame f =>
                if passes f
                then Bridge (set_thread (b_threads b) i (Thread (Sending f (seq 0 n)) (th_count t + 1)))
                       (b_log b ++ [Received i f])
                else Bridge (b_threads b) (b_log b ++ [Received i f])
            end
        | Sending f [] =>
            Bridge (set_thread (b_threads b) i (Thread Top (th_count t))) (b_log b)
        | Sending f (j :: js) =>
            if Nat.eqb j i
            then Bridge (set_thread (b_threads b) i (Thread (Sending f js) (th_count t))) (b_log b)
            else
              Bridge (set_thread (b_threads b) i
                        (Thread (match d with Failed _ => Ended | _ => Sending f js end) (th_count t)))
                (b_log b ++ [Sent i j f d])
        end
    end.

  (** 67-70: all threads are started. *)
  Definition start : bridge := Bridge (repeat (Thread Top 0) n) [].

  Fixpoint run (b : bridge) (steps : list (nat * receipt * delivery)) : bridge :=
    match steps with
    | [] => b
    | (i, r, d) :: steps' => run (step b i r d) steps'
    end.
End Filter.

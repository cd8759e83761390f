(** The queues between the main process and the IO process of the SLCAN driver:
    the transmitting worker (dronecan/driver/slcan.py 398-455), [send_frame],
    [execute_cli_command], [close] and [receive] (752-890). The two processes
    share the two queues; each step below is one access to a queue or to the
    port, so that a run is any interleaving. The queues are taken to be atomic.
    The receiving thread is in [Slcan] and [SlcanCli]; here it is something
    that puts objects into the queue to the main process. *)
From Verif.Base Require Import Prelude.
From Verif.Model Require Import CanFrame TsEst Slcan SlcanCli.

(** What is in the queue to the IO process: frames, the text of commands (a
    request), and the request to stop. *)
Inductive job := JFrame (f : cframe) | JCommand (c : list N) | JStop.
(** What is in the queue to the main process. *)
Inductive rxobj := XFrame (f : cframe) | XError (x : exn) | XAnswer (a : answer) | XOther.

(** A call of [write] or [flush] of the port: it succeeds, or raises after [n]
    bytes were written. [again]: what is written to open the channel once more
    ([RetrySerial.retry], 92-108; nothing if the port cannot be opened). *)
Inductive try := Smooth | Broken (n : nat) (x : exn) (again : list N).

(** Where the worker is: before [get] (432), before [write] (415, 424), before
    [flush] (416, 425), before [_stop_adapter] (667), at the end of the
    process. *)
Inductive spot := OnGet | OnWrite (bs : list N) | OnFlush | OnStop | Gone.

(** What can be seen, newest last: the main process put something into the
    queue; it was refused (queue full, or no process); a hook call for a
    transmitted frame; the worker's exception was put into the queue to the
    main process, or there was no room for it. *)
Inductive note :=
| Took (j : job)
| Denied (j : job)
| Hooked (f : cframe)
| Told (x : exn)
| Untold (x : exn).

Record io := Io {
  i_tx : list job;
  i_rx : list rxobj;
  i_pending : list (list N);
  i_spot : spot;
  i_out : list N;
  i_log : list note
}.

Definition CLI_END_OF_LINE : list N := [CR; LF].
(** 668-670: [b'C\r' * 10]. *)
Definition closing : list N := concat (repeat [67%N; CR] 10).

(** 409-414, 424: what is written for a frame or a command. *)
Definition job_line (j : job) : res (list N) :=
  match j with
  | JFrame f => slcan_encode f
  | JCommand c => if forallb (fun b => b <? 128)%N c then Ok (c ++ CLI_END_OF_LINE) else Err UnicodeError
  | JStop => Ok []
  end.

Section Io.
  (** [retry]: the port is a [RetrySerial] ([auto_reopen], 634-637), whose
      [write] and [flush] reopen the port and start again when they fail.
      [tx_size], [rx_size]: the capacities of the queues. *)
  Variables (retry : bool) (tx_size rx_size : nat).

  Definition at_spot (s : io) (p : spot) : io := Io (i_tx s) (i_rx s) (i_pending s) p (i_out s) (i_log s).
  Definition noted (s : io) (l : list note) : io :=
    Io (i_tx s) (i_rx s) (i_pending s) (i_spot s) (i_out s) (i_log s ++ l).
  Definition emit (s : io) (bs : list N) : io :=
    Io (i_tx s) (i_rx s) (i_pending s) (i_spot s) (i_out s ++ bs) (i_log s).

  (** 447-454: an exception in the worker. *)
  Definition report (s : io) (x : exn) : io :=
    if (length (i_rx s) <? rx_size)%nat
    then Io (i_tx s) (i_rx s ++ [XError x]) (i_pending s) OnGet (i_out s) (i_log s ++ [Told x])
    else Io (i_tx s) (i_rx s) (i_pending s) OnGet (i_out s) (i_log s ++ [Untold x]).

  (** 428-455: a step of the worker. [a]: what the port does; [over]: the
      termination condition (no parent, or no receiving thread). *)
  Definition worker (s : io) (a : try) (over : bool) : io :=
    match i_spot s with
    | OnGet =>
        match i_tx s with
        | [] => if over then at_spot s OnStop else s
        | j :: q =>
            let pending := match j with JCommand c => i_pending s ++ [c] | _ => i_pending s end in
            let s := Io q (i_rx s) pending OnGet (i_out s) (i_log s) in
            match j with
            | JStop => at_spot s OnStop
            | _ => match job_line j with
                   | Ok bs => at_spot s (OnWrite bs)
                   | Err x => report s x
                   end
            end
        end
    | OnWrite bs =>
        match a with
        | Smooth => at_spot (emit s bs) OnFlush
        | Broken n x again =>
            if retry then emit s (firstn n bs ++ again)
            else report (emit s (firstn n bs)) x
        end
    | OnFlush =>
        match a with
        | Smooth => at_spot s OnGet
        | Broken _ x again => if retry then emit s again else report s x
        end
    | OnStop =>
        match a with
        | Smooth => at_spot (emit s closing) Gone
        | Broken n _ again =>
            if retry then emit s (firstn n closing ++ again)
            else at_spot (emit s (firstn n closing)) Gone
        end
    | Gone => s
    end.

  (** 752-753: [_check_alive]. *)
  Definition alive (s : io) : bool := match i_spot s with Gone => false | _ => true end.

  (** [put] into the queue to the IO process. *)
  Definition put_tx (s : io) (j : job) (more : list note) : io :=
    if (length (i_tx s) <? tx_size)%nat
    then Io (i_tx s ++ [j]) (i_rx s) (i_pending s) (i_spot s) (i_out s) (i_log s ++ Took j :: more)
    else noted s [Denied j].

  (** What happens: [send_frame] (864-870); [execute_cli_command] (872-890);
      [close] puts the request to stop (725-727; [put] waits for room); [close]
      kills the process after ten seconds (729-743); the receiving thread puts
      something into the queue ([put_nowait], 289, 387; [put], 325, 369, which
      waits); the main process takes the next object out of the queue (813);
      the worker makes a step. *)
  Inductive happening :=
  | HSend (f : cframe)
  | HExecute (c : list N)
  | HClose
  | HKill
  | HPut (o : rxobj)
  | HTake
  | HWorker (a : try) (over : bool).

  Definition happen (s : io) (e : happening) : io :=
    match e with
    | HSend f => if alive s then put_tx s (JFrame f) [Hooked f] else noted s [Denied (JFrame f)]
    | HExecute c => if alive s then put_tx s (JCommand c) [] else noted s [Denied (JCommand c)]
    | HClose => if alive s then put_tx s JStop [] else s
    | HKill => at_spot s Gone
    | HPut o => if (length (i_rx s) <? rx_size)%nat
                then Io (i_tx s) (i_rx s ++ [o]) (i_pending s) (i_spot s) (i_out s) (i_log s) else s
    | HTake => Io (i_tx s) (tl (i_rx s)) (i_pending s) (i_spot s) (i_out s) (i_log s)
    | HWorker a over => worker s a over
    end.
  Definition io_start : io := Io [] [] [] OnGet [] [].
  Definition io_run (s : io) (l : list happening) : io := fold_left happen l s.
End Io.

(** ** [receive] *)

(** The queue to the main process with the times at which its objects arrive,
    in microseconds; nothing takes time but waiting. *)
Definition arrivals := list (Z * rxobj).

(** 789-795: the argument [timeout]: [None]; zero; a number, which gives a
    deadline. *)
Inductive wait := Forever | Poll | Until (deadline : Z).
Definition wait_for (now : Z) (timeout : option Z) : wait :=
  match timeout with
  | None => Forever
  | Some t => if (t =? 0)%Z then Poll else Until (now + t)
  end.

(** How [receive] ends: it returns a frame, or nothing; it raises; it waits
    for ever. [c_when]: when it ends; [c_left]: what is left in the queue. *)
Inductive ended := Gave (f : cframe) | Nothing | Threw (x : exn) | Stuck.
Record call := Call {
  c_end : ended;
  c_when : Z;
  c_left : arrivals;
  c_requests : list (list N * nat);
  c_calls : list (nat * answer)
}.

Section Receive.
  (** What the callback of a command does. *)
  Variable callback : nat -> answer -> option exn.

  (** 844-852, with the callback. *)
  Definition answer_calls (requests : list (list N * nat)) (a : answer) : list (list N * nat) * list (nat * answer) * option exn :=
    let (rest, calls) := match_response requests a in
    (rest, calls, match calls with (t, a') :: _ => callback t a' | [] => None end).

  (** 797-862: the loop. The time that [get] waits is at least 1 ms (803, 806). *)
  Fixpoint receive_loop (q : arrivals) (now : Z) (w : wait) (requests : list (list N * nat)) (calls : list (nat * answer)) : call :=
    let patience := match w with
                    | Forever => None
                    | Poll => Some 1000%Z
                    | Until d => Some (Z.max 1000 (d - now))
                    end in
    match q with
    | [] => match patience with
            | None => Call Stuck now q requests calls
            | Some p => Call Nothing (now + p) q requests calls
            end
    | (t, o) :: r =>
        let late := match patience with None => false | Some p => (now + p <? t)%Z end in
        if late then Call Nothing (now + match patience with Some p => p | None => 0 end) q requests calls
        else
          let now := Z.max now t in
          match o with
          | XFrame f => Call (Gave f) now r requests calls
          | XError x => Call (Threw x) now r requests calls
          | XOther => Call (Threw DriverError) now r requests calls
          | XAnswer a =>
              let '(requests, new, raised) := answer_calls requests a in
              match raised with
              | Some x => Call (Threw x) now r requests (calls ++ new)
              | None =>
                  match w with
                  | Poll => Call Nothing now r requests (calls ++ new)
                  | Until d => if (d <=? now)%Z then Call Nothing now r requests (calls ++ new)
                               else receive_loop r now w requests (calls ++ new)
                  | Forever => receive_loop r now w requests (calls ++ new)
                  end
              end
          end
    end.

  (** 786-862: [receive]. [alive]: the IO process is. *)
  Definition receive (alive : bool) (q : arrivals) (now : Z) (timeout : option Z) (requests : list (list N * nat)) : call :=
    if alive then receive_loop q now (wait_for now timeout) requests []
    else Call (Threw DriverError) now q requests [].

  (** A program that calls [receive] again and again: [waits] gives the time
      between two calls and the timeout. *)
  Fixpoint receive_all (q : arrivals) (now : Z) (requests : list (list N * nat)) (waits : list (Z * option Z)) : list call :=
    match waits with
    | [] => []
    | (pause, timeout) :: ws =>
        let c := receive true q (now + pause) timeout requests in
        c :: receive_all (c_left c) (c_when c) (c_requests c) ws
    end.
End Receive.

(** The event scheduler: dronecan/node.py 33-110 on top of Python's [sched]
    module (CPython 3.10 and later, Lib/sched.py). *)
From Verif.Base Require Import Prelude.
Local Open Scope Z_scope.

(** Lib/sched.py: [Event(time, priority, sequence, action, argument)]; the
    arguments are part of the action. *)
Record event (A : Type) := Event {
  ev_time : Z;
  ev_prio : Z;
  ev_seq : nat;
  ev_act : A
}.
Arguments Event {A}.
Arguments ev_time {A}.
Arguments ev_prio {A}.
Arguments ev_seq {A}.
Arguments ev_act {A}.

(** Events compare as tuples; the sequence numbers differ, so that actions are
    never compared. *)
Definition ev_ltb {A} (a b : event A) : bool :=
  (ev_time a <? ev_time b) ||
  (ev_time a =? ev_time b) &&
    ((ev_prio a <? ev_prio b) ||
     (ev_prio a =? ev_prio b) && (ev_seq a <? ev_seq b)%nat).

(** The heap [scheduler._queue] as a sorted list: [heappush] inserts, and
    [queue[0]] is the smallest event. *)
Fixpoint heappush {A} (e : event A) (q : list (event A)) : list (event A) :=
  match q with
  | [] => [e]
  | x :: q' => if ev_ltb e x then e :: q else x :: heappush e q'
  end.

(** Lib/sched.py [cancel]: [None] stands for the [ValueError] of
    [list.remove]. Events are equal only to themselves, by their sequence
    numbers. *)
Fixpoint cancel {A} (seq : nat) (q : list (event A)) : option (list (event A)) :=
  match q with
  | [] => None
  | x :: q' =>
      if Nat.eqb (ev_seq x) seq then Some q'
      else match cancel seq q' with Some r => Some (x :: r) | None => None end
  end.

(** What a call of [scheduler.run(blocking=False)] ends with. *)
Inductive run_result :=
| Remaining (t : Z)        (* time until the next event *)
| Empty                    (* returns None: no events *)
| Raised (e : exn)         (* an action raised *)
| OutOfFuel.               (* not finished: more events than the fuel *)

(** Lib/sched.py [run(blocking=False)]: the clock is read once per iteration;
    an event that is due is removed and its action called. *)
Section Run.
  Context {A S : Type}.
  Variable queue_of : S -> list (event A).
  Variable pop : S -> S.
  Variable read_clock : S -> Z * S.
  Variable exec : event A -> Z -> S -> S * option exn.

  Fixpoint run (fuel : nat) (s : S) : S * run_result :=
    match fuel with
    | O => (s, OutOfFuel)
    | Datatypes.S fuel' =>
        match queue_of s with
        | [] => (s, Empty)
        | e :: _ =>
            let (now, s) := read_clock s in
            if now <? ev_time e then (s, Remaining (ev_time e - now))
            else
              let (s, r) := exec e now (pop s) in
              match r with
              | Some x => (s, Raised x)
              | None => run fuel' s
              end
        end
    end.
End Run.

(** ** [Scheduler] *)

(** Actions: the callback of [defer], or [caller] of [periodic] with its
    [period_seconds]; its argument [scheduled_deadline] is the event's time.
    Tasks are numbered in order of creation; the number also stands for the
    [EventHandle] returned. *)
Inductive action :=
| Once (h : nat)
| Every (h : nat) (period : Z).
Definition task (a : action) : nat := match a with Once h | Every h _ => h end.

(** What happens, in order: a task is created at clock reading [now]; it runs;
    it is cancelled. *)
Inductive obs :=
| ODefer (h : nat) (now delay : Z)
| OPeriodic (h : nat) (now period : Z)
| ORun (h : nat) (due prio : Z) (seq : nat) (now : Z)
| OCancel (h : nat).

(** The state of a [Scheduler]: the queue, the sequence counter, the event
    each handle's [get_event] returns (for [periodic] the cell
    [event_holder[0]]), the number of tasks, the number of clock readings so
    far, and the history. *)
Record sched := Sched {
  s_queue : list (event action);
  s_seq : nat;
  s_holders : list (nat * event action);
  s_tasks : nat;
  s_reads : nat;
  s_log : list obs
}.
Definition new_sched : sched := Sched [] 0 [] 0 0 [].

(** What user code (a callback, or code outside) does with a scheduler:
    node.py 65-107. *)
Inductive uop :=
| Defer (delay : Z)
| Periodic (period : Z)
| Remove (h : nat)
| TryRemove (h : nat).

Section Scheduler.
  (** The clock: [clk i] is what the i-th call of [timefunc()] returns. *)
  Variable clk : nat -> Z.
  (** The callbacks: given the history up to and including the [ORun] of the
      call, what the callback does and whether it raises in the end. *)
  Variable beh : list obs -> list uop * bool.

  Definition read (s : sched) : Z * sched :=
    (clk (s_reads s),
     Sched (s_queue s) (s_seq s) (s_holders s) (s_tasks s) (S (s_reads s)) (s_log s)).

  (** [enterabs] and storing the event for the handle. *)
  Definition enter (s : sched) (t prio : Z) (a : action) : sched :=
    let e := Event t prio (s_seq s) a in
    Sched (heappush e (s_queue s)) (S (s_seq s)) (dset Nat.eqb (s_holders s) (task a) e)
          (s_tasks s) (s_reads s) (s_log s).

  Definition observe (s : sched) (o : obs) : sched :=
    Sched (s_queue s) (s_seq s) (s_holders s) (s_tasks s) (s_reads s) (s_log s ++ [o]).

  Definition new_task (s : sched) : sched :=
    Sched (s_queue s) (s_seq s) (s_holders s) (S (s_tasks s)) (s_reads s) (s_log s).

  (** node.py 65-79: [remove] and [try_remove] of a handle; [false] for the
      [ValueError]. *)
  Definition cancel_handle (s : sched) (h : nat) : sched * bool :=
    match dget Nat.eqb (s_holders s) h with
    | None => (s, false)
    | Some e =>
        match cancel (ev_seq e) (s_queue s) with
        | None => (s, false)
        | Some q =>
            (observe (Sched q (s_seq s) (s_holders s) (s_tasks s) (s_reads s) (s_log s))
                     (OCancel h), true)
        end
    end.

  Definition apply_uop (s : sched) (op : uop) : sched * option exn :=
    match op with
    | Defer delay =>                           (* node.py 84-90 *)
        let (now, s) := read s in
        let h := s_tasks s in
        (observe (new_task (enter s (now + delay) 1 (Once h))) (ODefer h now delay), None)
    | Periodic period =>                       (* node.py 92-107 *)
        let (now, s) := read s in
        let h := s_tasks s in
        (observe (new_task (enter s (now + period) 0 (Every h period))) (OPeriodic h now period),
         None)
    | Remove h =>
        let (s, ok) := cancel_handle s h in
        (s, if ok then None else Some ValueError)
    | TryRemove h => (fst (cancel_handle s h), None)
    end.

  (** An exception ends the callback. *)
  Fixpoint apply_uops (s : sched) (ops : list uop) : sched * option exn :=
    match ops with
    | [] => (s, None)
    | op :: ops' =>
        match apply_uop s op with
        | (s, None) => apply_uops s ops'
        | (s, Some x) => (s, Some x)
        end
    end.

  Definition callback (s : sched) : sched * option exn :=
    let (ops, raises) := beh (s_log s) in
    match apply_uops s ops with
    | (s, None) => (s, if raises then Some UserException else None)
    | (s, Some x) => (s, Some x)
    end.

  (** Calling the action of event [e], which has been removed from the queue.
      node.py 99-103: a periodic task is registered again first. *)
  Definition exec (e : event action) (now : Z) (s : sched) : sched * option exn :=
    let s := match ev_act e with
             | Once _ => s
             | Every h p => enter s (ev_time e + p) 0 (Every h p)
             end in
    callback (observe s (ORun (task (ev_act e)) (ev_time e) (ev_prio e) (ev_seq e) now)).

  Definition pop (s : sched) : sched :=
    Sched (tl (s_queue s)) (s_seq s) (s_holders s) (s_tasks s) (s_reads s) (s_log s).

  Definition run_scheduler (fuel : nat) (s : sched) : sched * run_result :=
    run s_queue pop read exec fuel s.

  (** node.py 44, 81-82: [_poll_scheduler_and_get_next_deadline]:
      [run(blocking=False) + timefunc()]. [None + float] raises TypeError. *)
  Definition poll (fuel : nat) (s : sched) : sched * res Z :=
    match run_scheduler fuel s with
    | (s, Remaining t) => let (now, s) := read s in (s, Ok (t + now))
    | (s, Empty) => (snd (read s), Err TypeError)
    | (s, Raised x) => (s, Err x)
    | (s, OutOfFuel) => (s, Err RuntimeError)
    end.

  (** Any use of a scheduler from outside its callbacks. *)
  Inductive hop := HUser (op : uop) | HPoll (fuel : nat).
  Definition apply_hop (s : sched) (o : hop) : sched :=
    match o with
    | HUser op => fst (apply_uop s op)
    | HPoll fuel => fst (poll fuel s)
    end.
  Definition history (ops : list hop) : sched := fold_left apply_hop ops new_sched.
End Scheduler.

(** The update handlers of the node monitor (dronecan/app/node_monitor.py
    75-112) and the monitor (Model/Monitor) with them: handlers may raise, and
    register and remove handlers while they are called.
    Simplifications: a handler does nothing else to the monitor; no handler is
    registered twice (a registration stands for one callable); the log line of
    201-222 fails only for a name that is not UTF-8. *)
From Verif.Base Require Import Prelude.
From Verif.Model Require Import Monitor.
Local Open Scope Z_scope.

(** A call of a handler: its number and the event. *)
Definition notice : Type := nat * mobs.
Inductive watch_op := WHAdd | WHRemove (h : nat).

(** [wa_callbacks]: [_update_callbacks]; [wa_open]: [close] has not been
    called. *)
Record watched := Watched {
  wa_monitor : monitor;
  wa_callbacks : list nat;
  wa_next : nat;
  wa_calls : list notice;
  wa_open : bool
}.
Definition with_monitor (s : watched) (m : monitor) : watched :=
  Watched m (wa_callbacks s) (wa_next s) (wa_calls s) (wa_open s).
Definition with_callbacks (s : watched) (l : list nat) (n : nat) : watched :=
  Watched (wa_monitor s) l n (wa_calls s) (wa_open s).
Definition with_call (s : watched) (c : notice) : watched :=
  Watched (wa_monitor s) (wa_callbacks s) (wa_next s) (wa_calls s ++ [c]) (wa_open s).

(** 98-108: [add_update_handler]. *)
Definition add_handler (s : watched) : watched :=
  with_callbacks s (wa_callbacks s ++ [wa_next s]) (S (wa_next s)).

(** 79-80, 108: [remove]. *)
Fixpoint remove_one (h : nat) (l : list nat) : res (list nat) :=
  match l with
  | [] => Err ValueError
  | x :: r => if Nat.eqb x h then Ok r
              else match remove_one h r with Ok r' => Ok (x :: r') | Err e => Err e end
  end.
Definition remove_handler (s : watched) (h : nat) : watched * option exn :=
  match remove_one h (wa_callbacks s) with
  | Ok l => (with_callbacks s l (wa_next s), None)
  | Err x => (s, Some x)
  end.

(** 82-86: [try_remove]. *)
Definition try_remove (s : watched) (h : nat) : watched := fst (remove_handler s h).

(** What comes in: what comes to the monitor, and calls of the program. *)
Inductive wevent :=
| WIn (e : mevent)
| WAdd
| WRemove (h : nat)
| WTryRemove (h : nat)
| WClose.

Section Watchers.
  Variables timeout min_retry : Z.
  (** What a handler does, given the calls so far, the last one its own: the
      handlers it adds and removes, and the exception it raises then. *)
  Variable beh : list notice -> list watch_op * option exn.

  (** What a handler does; an operation that raises ends it. *)
  Fixpoint apply_ops (s : watched) (ops : list watch_op) : watched * option exn :=
    match ops with
    | [] => (s, None)
    | WHAdd :: r => apply_ops (add_handler s) r
    | WHRemove h :: r => match remove_handler s h with
                         | (s, None) => apply_ops s r
                         | (s, Some x) => (s, Some x)
                         end
    end.

  (** 110-112: [_call_event_handlers]: a loop by index over the list, which
      the handlers may change. [None]: out of fuel. *)
  Fixpoint call_handlers (fuel : nat) (s : watched) (i : nat) (o : mobs) : option (watched * option exn) :=
    match fuel with
    | O => None
    | S fuel' =>
        match nth_error (wa_callbacks s) i with
        | None => Some (s, None)
        | Some h =>
            let s := with_call s (h, o) in
            let (ops, x) := beh (wa_calls s) in
            match apply_ops s ops with
            | (s, Some x) => Some (s, Some x)
            | (s, None) => match x with
                           | Some x => Some (s, Some x)
                           | None => call_handlers fuel' s (S i) o
                           end
            end
        end
    end.

  Variable fuel : nat.
  Definition report (s : watched) (o : mobs) : option (watched * option exn) :=
    call_handlers fuel (with_monitor s (say (wa_monitor s) o)) 0 o.

  (** 121-131: [get]. *)
  Definition wget (s : watched) (n : N) (now : Z) : option (watched * res entry) :=
    match dget N.eqb (mo_registry (wa_monitor s)) n with
    | None => Some (s, Err KeyError)
    | Some e =>
        if stale timeout e now then
          match report s (MOffline n) with
          | None => None
          | Some (s, Some x) => Some (s, Err x)
          | Some (s, None) => Some (with_monitor s (drop (wa_monitor s) n), Err KeyError)
          end
        else Some (s, Ok e)
    end.

  (** 156-160: [_remove_stale]; [l] is what is left of the copy. *)
  Fixpoint sweep (l : list (N * entry)) (s : watched) (now : N -> Z) : option (watched * option exn) :=
    match l with
    | [] => Some (s, None)
    | (n, e) :: r =>
        if stale timeout e (now n) then
          match report (with_monitor s (drop (wa_monitor s) n)) (MOffline n) with
          | None => None
          | Some (s, Some x) => Some (s, Some x)
          | Some (s, None) => sweep r s now
          end
        else sweep r s now
    end.

  (** 165-171 and 191-195: the entry to be updated, new if [get] raises
      [KeyError]; other exceptions are not caught. *)
  Definition find_entry (s : watched) (n : N) (now : Z) : option (watched * res (entry * bool)) :=
    match wget s n now with
    | None => None
    | Some (s, Ok e) => Some (s, Ok (e, false))
    | Some (s, Err KeyError) => Some (with_monitor s (put (wa_monitor s) n new_entry), Ok (new_entry, true))
    | Some (s, Err x) => Some (s, Err x)
    end.

  (** 179-185: the request for info. *)
  Definition ask (s : watched) (n : N) (e : entry) (anonymous : bool) : watched * option exn :=
    if negb (discovered e) && negb anonymous && (min_retry <? en_ts e - en_asked e) then
      match en_retries e with
      | O => (with_monitor s (put (wa_monitor s) n (Entry (en_uptime e) (en_info e) (en_ts e) O (en_ts e))),
              Some AssertionError)
      | S r => (with_monitor s (say (put (wa_monitor s) n (Entry (en_uptime e) (en_info e) (en_ts e) r (en_ts e)))
                                    (MAsk n (en_ts e))), None)
      end
    else (s, None).

  (** 162-185: [_on_node_status]. *)
  Definition won_status (s : watched) (n uptime : N) (ts now : Z) (anonymous : bool) : option (watched * option exn) :=
    match find_entry s n now with
    | None => None
    | Some (s, Err x) => Some (s, Some x)
    | Some (s, Ok (e, fresh)) =>
        let e := update_from_status e uptime ts in
        let s := with_monitor s (put (wa_monitor s) n e) in
        if fresh : bool then
          match report s (MNew n) with
          | None => None
          | Some (s, Some x) => Some (s, Some x)
          | Some (s, None) => Some (ask s n e anonymous)
          end
        else Some (ask s n e anonymous)
    end.

  (** 187-224: [_on_info_response], on a response; and on a request, which has
      no [response]. *)
  Definition won_info (s : watched) (n uptime info : N) (ts now : Z) (text : bool) : option (watched * option exn) :=
    match find_entry s n now with
    | None => None
    | Some (s, Err x) => Some (s, Some x)
    | Some (s, Ok (e, _)) =>
        let s := with_monitor s (put (wa_monitor s) n (update_from_info e uptime info ts)) in
        if text then report s (MUpdate n) else Some (s, Some UnicodeError)
    end.
  Definition won_request (s : watched) (n : N) (ts now : Z) : option (watched * option exn) :=
    match find_entry s n now with
    | None => None
    | Some (s, Err x) => Some (s, Some x)
    | Some (s, Ok (e, _)) =>
        Some (with_monitor s (put (wa_monitor s) n (Entry (en_uptime e) (en_info e) ts max_retries (en_asked e))),
              Some AttributeError)
    end.

  (** 91-96, 151-154: after [close] the node calls the monitor no more for a
      NodeStatus, nor the timer; the handler for GetNodeInfo remains. A second
      [close] raises at 153. *)
  Definition wstep (s : watched) (e : wevent) : option (watched * option exn) :=
    match e with
    | WIn e =>
        let s' := with_monitor s (say (wa_monitor s) (MIn e)) in
        match e with
        | MStatus n up ts now anon => if wa_open s then won_status s' n up ts now anon else Some (s, None)
        | MInfo n up i ts now text => won_info s' n up i ts now text
        | MRequest n ts now => won_request s' n ts now
        | MTick now => if wa_open s then sweep (mo_registry (wa_monitor s)) s' now else Some (s, None)
        | MGet n now => match wget s' n now with
                        | None => None
                        | Some (s, Ok _) => Some (s, None)
                        | Some (s, Err x) => Some (s, Some x)
                        end
        end
    | WAdd => Some (add_handler s, None)
    | WRemove h => Some (remove_handler s h)
    | WTryRemove h => Some (try_remove s h, None)
    | WClose => if wa_open s
                then Some (Watched (wa_monitor s) (wa_callbacks s) (wa_next s) (wa_calls s) false, None)
                else Some (s, Some ValueError)
    end.

  (** A history; exceptions end only the call in which they are raised, and
      are logged by whoever called. *)
  Fixpoint wrun (s : watched) (es : list wevent) : option watched :=
    match es with
    | [] => Some s
    | e :: r => match wstep s e with Some (s', _) => wrun s' r | None => None end
    end.
End Watchers.

(** 91-96: a new monitor. *)
Definition new_watched : watched := Watched (Monitor [] []) [] 0 [] true.
(** 133-135: [get_all_node_id]. *)
Definition node_ids (s : watched) : list N := map fst (mo_registry (wa_monitor s)).

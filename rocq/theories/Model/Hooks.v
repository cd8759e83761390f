(** I/O hooks (dronecan/driver/common.py 95-131) and where the drivers call
    them. Hooks are opaque: what a hook does is any function [beh] of the calls
    of hooks so far, the last one being its own. It may register and remove
    hooks, and raise; it is taken not to call the driver and not to change
    the frame. *)
From Verif.Base Require Import Prelude.
From Verif.Model Require Import CanFrame.

(** common.py 96-97 *)
Inductive direction := RX | TX.
Definition hook_call : Type := nat * direction * cframe.
Inductive hook_op := HAdd | HRemove (h : nat).

(** The list of proxies, by number of registration, and the calls made. *)
Record hooks := { hk_list : list nat; hk_next : nat; hk_log : list hook_call }.

(** common.py 106-118: [add_io_hook]; every registration has its own proxy. *)
Definition add_hook (k : hooks) : hooks :=
  {| hk_list := hk_list k ++ [hk_next k]; hk_next := S (hk_next k); hk_log := hk_log k |}.
(** [list.remove]: the first one that is equal. *)
Fixpoint remove_first (h : nat) (l : list nat) : list nat :=
  match l with [] => [] | x :: r => if Nat.eqb x h then r else x :: remove_first h r end.
(** common.py 118: the remover. *)
Definition remove_hook (k : hooks) (h : nat) : res hooks :=
  if existsb (Nat.eqb h) (hk_list k)
  then Ok {| hk_list := remove_first h (hk_list k); hk_next := hk_next k; hk_log := hk_log k |}
  else Err ValueError.

Section Hooks.
  Variable beh : list hook_call -> list hook_op * bool.

  (** What a hook does; an operation that raises ends it. *)
  Fixpoint apply_ops (k : hooks) (ops : list hook_op) : hooks :=
    match ops with
    | [] => k
    | HAdd :: r => apply_ops (add_hook k) r
    | HRemove h :: r => match remove_hook k h with Ok k' => apply_ops k' r | Err _ => k end
    end.

  (** common.py 120-125: [_call_io_hooks], a loop by index over the list,
      which hooks may change. All exceptions are caught. [None]: out of fuel. *)
  Fixpoint call_io_hooks (fuel : nat) (k : hooks) (i : nat) (d : direction) (f : cframe) : option hooks :=
    match fuel with
    | O => None
    | S fuel' =>
        match nth_error (hk_list k) i with
        | None => Some k
        | Some h =>
            let k := {| hk_list := hk_list k; hk_next := hk_next k; hk_log := hk_log k ++ [(h, d, f)] |} in
            let (ops, raises) := beh (hk_log k) in
            call_io_hooks fuel' (apply_ops k ops) (S i) d f
        end
    end.

  (** Where hooks are called. *)
  Inductive driver_kind :=
  | HookFirst   (* mcast.py 187-207, mavcan.py 229-249 *)
  | QueueFirst  (* slcan.py 805-870 *)
  | Feedback    (* socketcan.py 223-320, python_can.py 79-173 *)
  | NoHooks.    (* file.py *)

  (** [dr_rx]: frames that arrived and were not received yet, [dr_tx]: the
      queue of the writer, [dr_fb]: its answers. For the record, [dr_got]: the
      frames that [receive] returned, [dr_accepted]: those that [send_frame]
      took, [dr_sent]: those that were transmitted. *)
  Record driver := {
    dr_hooks : hooks;
    dr_rx : list cframe; dr_tx : list cframe; dr_fb : list (cframe + exn);
    dr_got : list cframe; dr_accepted : list cframe; dr_sent : list cframe
  }.
  Definition with_hooks (s : driver) (k : hooks) : driver :=
    {| dr_hooks := k; dr_rx := dr_rx s; dr_tx := dr_tx s; dr_fb := dr_fb s;
       dr_got := dr_got s; dr_accepted := dr_accepted s; dr_sent := dr_sent s |}.

  Inductive driver_event :=
  | EArrive (f : cframe)      (* on the bus, or from the I/O process *)
  | EReceive                  (* receive(0) *)
  | ESend (f : cframe)        (* send_frame *)
  | ETransmit                 (* the writer transmits a frame *)
  | EFail (x : exn)           (* the writer fails to *)
  | EAddHook
  | ERemoveHook (h : nat).

  Variables (kind : driver_kind) (capacity fuel : nat).

  (** socketcan.py 255-267, python_can.py 117-129: [_check_write_feedback]. *)
  Definition check_feedback (s : driver) : option (driver * res unit) :=
    match dr_fb s with
    | [] => Some (s, Ok tt)
    | item :: r =>
        let s := {| dr_hooks := dr_hooks s; dr_rx := dr_rx s; dr_tx := dr_tx s; dr_fb := r;
                    dr_got := dr_got s; dr_accepted := dr_accepted s; dr_sent := dr_sent s |} in
        match item with
        | inr x => Some (s, Err x)
        | inl f => match call_io_hooks fuel (dr_hooks s) 0 TX f with
                   | None => None
                   | Some k => Some (with_hooks s k, Ok tt)
                   end
        end
    end.

  (** The part of [receive] that all drivers share. Exceptions from the I/O
      process and results of commands (slcan.py 842-857) are left out. *)
  Definition take_frame (s : driver) : option (driver * res unit) :=
    match dr_rx s with
    | [] => Some (s, Ok tt)
    | f :: r =>
        let s := {| dr_hooks := dr_hooks s; dr_rx := r; dr_tx := dr_tx s; dr_fb := dr_fb s;
                    dr_got := dr_got s ++ [f]; dr_accepted := dr_accepted s; dr_sent := dr_sent s |} in
        match kind with
        | NoHooks => Some (s, Ok tt)
        | _ => match call_io_hooks fuel (dr_hooks s) 0 RX f with
               | None => None
               | Some k => Some (with_hooks s k, Ok tt)
               end
        end
    end.

  (** [put_nowait] on the writer's queue. *)
  Definition put (s : driver) (f : cframe) (full : exn) : driver * res unit :=
    if (length (dr_tx s) <? capacity)%nat then
      ({| dr_hooks := dr_hooks s; dr_rx := dr_rx s; dr_tx := dr_tx s ++ [f]; dr_fb := dr_fb s;
          dr_got := dr_got s; dr_accepted := dr_accepted s ++ [f]; dr_sent := dr_sent s |}, Ok tt)
    else (s, Err full).

  (** [queue.Full] is not one of the library's exceptions. *)
  Definition step (s : driver) (e : driver_event) : option (driver * res unit) :=
    match e with
    | EArrive f => Some ({| dr_hooks := dr_hooks s; dr_rx := dr_rx s ++ [f]; dr_tx := dr_tx s; dr_fb := dr_fb s;
                            dr_got := dr_got s; dr_accepted := dr_accepted s; dr_sent := dr_sent s |}, Ok tt)
    | EReceive =>
        match kind with
        | Feedback => match check_feedback s with
                      | Some (s, Ok _) => take_frame s
                      | other => other
                      end
        | _ => take_frame s
        end
    | ESend f =>
        match kind with
        | HookFirst => match call_io_hooks fuel (dr_hooks s) 0 TX f with
                       | None => None
                       | Some k => Some (put (with_hooks s k) f RuntimeError)
                       end
        | QueueFirst => match put s f DriverError with
                        | (s, Err x) => Some (s, Err x)
                        | (s, Ok _) => match call_io_hooks fuel (dr_hooks s) 0 TX f with
                                       | None => None
                                       | Some k => Some (with_hooks s k, Ok tt)
                                       end
                        end
        | Feedback => match check_feedback s with
                      | Some (s, Ok _) => Some (put s f DriverError)
                      | other => other
                      end
        | NoHooks => Some (s, Ok tt)
        end
    | ETransmit =>
        match dr_tx s with
        | [] => Some (s, Ok tt)
        | f :: r => Some ({| dr_hooks := dr_hooks s; dr_rx := dr_rx s; dr_tx := r;
                             dr_fb := match kind with Feedback => dr_fb s ++ [inl f] | _ => dr_fb s end;
                             dr_got := dr_got s; dr_accepted := dr_accepted s; dr_sent := dr_sent s ++ [f] |}, Ok tt)
        end
    | EFail x =>
        match dr_tx s with
        | [] => Some (s, Ok tt)
        | f :: r => Some ({| dr_hooks := dr_hooks s; dr_rx := dr_rx s; dr_tx := r;
                             dr_fb := match kind with Feedback => dr_fb s ++ [inr x] | _ => dr_fb s end;
                             dr_got := dr_got s; dr_accepted := dr_accepted s; dr_sent := dr_sent s |}, Ok tt)
        end
    | EAddHook => Some (with_hooks s (add_hook (dr_hooks s)), Ok tt)
    | ERemoveHook h => match remove_hook (dr_hooks s) h with
                       | Ok k => Some (with_hooks s k, Ok tt)
                       | Err x => Some (s, Err x)
                       end
    end.

  Fixpoint run (s : driver) (es : list driver_event) : option driver :=
    match es with
    | [] => Some s
    | e :: r => match step s e with Some (s', _) => run s' r | None => None end
    end.

  (** common.py 103-104: a new driver. *)
  Definition new_driver : driver :=
    {| dr_hooks := {| hk_list := []; hk_next := 0; hk_log := [] |}; dr_rx := []; dr_tx := []; dr_fb := [];
       dr_got := []; dr_accepted := []; dr_sent := [] |}.
End Hooks.

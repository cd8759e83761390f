(** Transfer hooks (dronecan/node.py 216-236, 378-384) and where a node calls
    them: 327-332 for what it receives, 454-473, 507-521 and 532-543 for what it
    sends. Hooks are opaque: what a hook does is any function [beh] of what
    happened so far, the last event being its own call. It may register and
    remove hooks and raise; it is taken not to use the node otherwise and not
    to change the transfer. *)
From Verif.Base Require Import Prelude.
From Verif.Model Require Import Types Codec MsgId Frames TransferManager Hooks.
Local Open Scope Z_scope.

(** A transfer that is shown to a hook, with its [direction] (node.py 217-218,
    230). *)
Inductive shown := Outgoing (t : tx) | Incoming (t : rx).

(** What happens, in order. *)
Inductive tevent :=
| THook (h : nat) (x : shown)      (* hook [h] is called *)
| TSent (f : frame)                (* the driver takes a frame *)
| TDispatched (t : rx).            (* node.py 334-353 begins for a transfer *)

(** The proxies by number of registration, the transfer manager, the events. *)
Record monitored := {
  tm_hooks : list nat; tm_next : nat; tm_manager : manager; tm_log : list tevent
}.
Definition with_list (s : monitored) l n : monitored :=
  {| tm_hooks := l; tm_next := n; tm_manager := tm_manager s; tm_log := tm_log s |}.
Definition with_manager (s : monitored) m : monitored :=
  {| tm_hooks := tm_hooks s; tm_next := tm_next s; tm_manager := m; tm_log := tm_log s |}.
Definition note (s : monitored) e : monitored :=
  {| tm_hooks := tm_hooks s; tm_next := tm_next s; tm_manager := tm_manager s; tm_log := tm_log s ++ [e] |}.

(** node.py 223-227: [add_hook]; every registration has its own proxy. *)
Definition add_transfer_hook (s : monitored) : monitored :=
  with_list s (tm_hooks s ++ [tm_next s]) (S (tm_next s)).
(** The remover: node.py 227, 131-133. *)
Definition remove_transfer_hook (s : monitored) (h : nat) : res monitored :=
  if existsb (Nat.eqb h) (tm_hooks s) then Ok (with_list s (remove_first h (tm_hooks s)) (tm_next s))
  else Err ValueError.

Section TransferHooks.
  Variable beh : list tevent -> list hook_op * bool.
  Variable drv : list tevent -> option exn.
  Variable types : datatypes.

  (** What a hook does; an operation that raises ends it. *)
  Fixpoint hook_ops (s : monitored) (ops : list hook_op) : monitored :=
    match ops with
    | [] => s
    | HAdd :: r => hook_ops (add_transfer_hook s) r
    | HRemove h :: r => match remove_transfer_hook s h with Ok s' => hook_ops s' r | Err _ => s end
    end.

  (** node.py 229-236: [call_hooks], a loop by index over the list, which hooks
      may change. All exceptions are caught. [None]: out of fuel. *)
  Fixpoint call_hooks (fuel : nat) (s : monitored) (i : nat) (x : shown) : option monitored :=
    match fuel with
    | O => None
    | S fuel' =>
        match nth_error (tm_hooks s) i with
        | None => Some s
        | Some h =>
            let s := note s (THook h x) in
            let (ops, raises) := beh (tm_log s) in
            call_hooks fuel' (hook_ops s ops) (S i) x
        end
    end.

  (** node.py 472-473 and its copies. *)
  Fixpoint give (s : monitored) (fs : list frame) : monitored * res unit :=
    match fs with
    | [] => (s, Ok tt)
    | f :: fs' => match drv (tm_log s) with
                  | Some x => (s, Err x)
                  | None => give (note s (TSent f)) fs'
                  end
    end.

  Inductive taction :=
  | DoTransfer (h : header) (tid : N) (dt : datatype) (v : value) (canfd : bool)
      (* [request], [respond], [broadcast]: from making the transfer on *)
  | DoFrame (extended : bool) (f : frame) (now : Z)   (* [_recv_frame] *)
  | DoAdd
  | DoRemove (h : nat).

  Definition tstep (fuel : nat) (s : monitored) (a : taction) : option (monitored * res unit) :=
    match a with
    | DoTransfer h tid dt v canfd =>
        match make_tx h tid dt v canfd with
        | Err x => Some (s, Err x)
        | Ok t =>
            match call_hooks fuel s 0 (Outgoing t) with
            | None => None
            | Some s => match to_frames t with
                        | Err x => Some (s, Err x)
                        | Ok (fs, _) => Some (give s fs)
                        end
            end
        end
    | DoFrame extended f now =>
        if negb extended then Some (s, Ok tt)
        else
          let (m, done) := receive_frame (tm_manager s) f now in
          let s := with_manager s m in
          match done with
          | None | Some [] => Some (s, Ok tt)
          | Some fs =>
              match from_frames types fs with
              | Err x => Some (s, Err x)
              | Ok t => match call_hooks fuel s 0 (Incoming t) with
                        | None => None
                        | Some s => Some (note s (TDispatched t), Ok tt)
                        end
              end
          end
    | DoAdd => Some (add_transfer_hook s, Ok tt)
    | DoRemove h => match remove_transfer_hook s h with
                    | Ok s' => Some (s', Ok tt)
                    | Err x => Some (s, Err x)
                    end
    end.

  Fixpoint trun (fuel : nat) (s : monitored) (l : list taction) : option monitored :=
    match l with
    | [] => Some s
    | a :: r => match tstep fuel s a with Some (s', _) => trun fuel s' r | None => None end
    end.

  (** A new node has no hooks: node.py 220-221, 277. *)
  Definition new_monitored : monitored :=
    {| tm_hooks := []; tm_next := 0; tm_manager := new_manager; tm_log := [] |}.
End TransferHooks.

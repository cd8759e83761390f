(** examples/firmware_update.py, from line 71 on: the callbacks and the loop.
    What happens is a list of events in the order of their times; [target] is
    [target_node_id]. Only the printing at 90 is kept. *)
From Verif.Base Require Import Prelude.
Local Open Scope Z_scope.

(** [NodeStatus.MODE_SOFTWARE_UPDATE], [BeginFirmwareUpdate.Response.ERROR_IN_PROGRESS]:
    from the DSDL standard. Times in milliseconds. *)
Definition mode_software_update : N := 3.
Definition error_in_progress : N := 2.
Definition again_after : Z := 4000.

Inductive event :=
| EStatus (time : Z) (src : option N) (mode : N)   (* a node status is heard *)
| EAnswer (time : Z) (error : option N)            (* the callback of the request that waits: [None] at the timeout *)
| EDue (time : Z) (sent : res unit)                (* the deferred call is made, if it is time; whether [request] raises *)
| ETransferError.                                  (* [spin] raises [TransferError] for another reason *)

Inductive entry :=
| LRequest (time : Z)
| LAnswer (time : Z) (error : option N)
| LComplete (elapsed : Z).        (* what line 90 prints *)

Record updater := Updater {
  u_started : bool;
  u_complete : bool;
  u_start_time : option Z;
  u_waiting : nat;              (* requests without an answer *)
  u_deferred : list Z;          (* when [request_update] is to be called *)
  u_log : list entry;
  u_raised : option exn         (* the program has ended with this exception *)
}.

(** 103-111: [request_update]; 123: [TransferError] is caught by the loop. *)
Definition request_update (s : updater) (time : Z) (sent : res unit) : updater :=
  if u_started s then s
  else match sent with
       | Ok _ => Updater (u_started s) (u_complete s) (u_start_time s) (S (u_waiting s)) (u_deferred s)
                   (u_log s ++ [LRequest time]) (u_raised s)
       | Err TransferError => s
       | Err e => Updater (u_started s) (u_complete s) (u_start_time s) (u_waiting s) (u_deferred s) (u_log s) (Some e)
       end.

(** 75-91: [on_node_status]. *)
Definition on_node_status (target : N) (s : updater) (time : Z) (src : option N) (mode : N) : updater :=
  if match src with Some n => N.eqb n target | None => false end then
    if N.eqb mode mode_software_update then
      if u_started s then s
      else Updater true (u_complete s) (Some time) (u_waiting s) (u_deferred s) (u_log s) (u_raised s)
    else if u_started s then
      match u_start_time s with
      | Some t0 => Updater true true (u_start_time s) (u_waiting s) (u_deferred s) (u_log s ++ [LComplete (time - t0)]) (u_raised s)
      | None => Updater true (u_complete s) (u_start_time s) (u_waiting s) (u_deferred s) (u_log s) (Some TypeError)
      end
    else s
  else s.

(** 94-100: [on_response]. *)
Definition on_response (s : updater) (time : Z) (error : option N) : updater :=
  let s := Updater (u_started s) (u_complete s) (u_start_time s) (pred (u_waiting s)) (u_deferred s)
             (u_log s ++ [LAnswer time error]) (u_raised s) in
  match error with
  | None => s
  | Some e => if N.eqb e error_in_progress then s
              else Updater (u_started s) (u_complete s) (u_start_time s) (u_waiting s)
                     (u_deferred s ++ [time + again_after]) (u_log s) (u_raised s)
  end.

(** What cannot happen changes nothing: an answer when no request waits, a
    deferred call when there is none or before its time. A program that has
    ended does nothing. *)
Definition step (target : N) (s : updater) (e : event) : updater :=
  match u_raised s with
  | Some _ => s
  | None =>
      match e with
      | EStatus t src mode => on_node_status target s t src mode
      | EAnswer t error => match u_waiting s with O => s | S _ => on_response s t error end
      | EDue t sent =>
          match u_deferred s with
          | d :: l => if t <? d then s
                      else request_update (Updater (u_started s) (u_complete s) (u_start_time s) (u_waiting s) l (u_log s) (u_raised s)) t sent
          | [] => s
          end
      | ETransferError => s
      end
  end.

(** 116: the first call of [request_update] is outside the loop. *)
Definition begin (time : Z) (sent : res unit) : updater :=
  let s := Updater false false None 0 [] [] None in
  match sent with
  | Ok _ => request_update s time sent
  | Err e => Updater false false None 0 [] [] (Some e)
  end.
Definition run (target : N) (s : updater) (evs : list event) : updater := fold_left (step target) evs s.
(** 118: the loop's condition. *)
Definition finished (s : updater) : bool := u_started s && u_complete s.

(** C140: the handlers of a node; C141: exceptions of its tasks. *)
From Coq Require Import Sorted.
From Verif.Base Require Import Prelude Bits.
From Verif.Model Require Import Types Codec MsgId Frames TransferManager Sched Node.
From Verif.Spec Require Import NodeSpec CallSpec RegistrySpec.
From Verif.Proofs Require Import RegistryFacts TaskErrors.
From Verif.Properties Require Import NodeProps.
Local Open Scope Z_scope.

(** C140: when user code leaves the handlers alone, the handlers are exactly
    those that have been added and not removed, in the order of addition,
    whatever else happens to the node. *)
Theorem C140_registered : forall A ins, leaves_handlers (st_beh A) ->
  in_order (handlers_of (ran A ins)) /\
  forall hd, In hd (handlers_of (ran A ins)) <-> registered (Handler 0 (Some (st_info A)) false) (ops_of ins) hd.
Proof. exact all_registered. Qed.
Print Assumptions C140_registered.

(** With any user code: what one operation does to them. Removing a handler
    that is not there raises [ValueError]. *)
Theorem C140_operation : forall A ins op,
  let s := ran A ins in
  let s' := ran A (ins ++ [IOp op]) in
  in_order (handlers_of s') /\
  (exists n, (forall hd, In hd (handlers_of s) -> (hd_id hd < n)%nat) /\
    forall hd, In hd (handlers_of s') <-> In hd (handlers_of s) /\ ~ takes_away op hd \/ adds op n hd) /\
  (forall i, op = NRemoveHandler i ->
     snd (apply_nop (st_clk A) (st_drv A) (st_second A) s op) = None /\ (exists hd, In hd (handlers_of s) /\ hd_id hd = i) \/
     snd (apply_nop (st_clk A) (st_drv A) (st_second A) s op) = Some ValueError /\ (forall hd, In hd (handlers_of s) -> hd_id hd <> i)).
Proof. exact one_operation. Qed.
Print Assumptions C140_operation.

(** Five handlers are added; one is removed, twice; then those for a type. *)
Definition reg_station := Station ex_clk quiet good_driver (fun _ => ex_value) ex_message ex_types 1000
  (Some 5%N) false true 1000 (1%N, true) 20.
Definition reg_ins : list ninput :=
  [IOp (NAddHandler (Some (341%N, false)) true); IPoll; IOp (NAddHandler (Some (1%N, true)) true); ex_incoming 3;
   IOp (NAddHandler None false); IOp (NAddHandler (Some (341%N, false)) false); IOp (NAddHandler (Some (2%N, true)) false);
   IOp (NRemoveHandler 3); IRead; IOp (NRemoveHandler 3)].
Example C140_case :
  leaves_handlers quiet /\
  handlers_of (ran reg_station reg_ins) =
    [Handler 0 (Some (1%N, true)) false; Handler 1 (Some (341%N, false)) false; Handler 2 (Some (1%N, true)) true;
     Handler 4 (Some (341%N, false)) false; Handler 5 (Some (2%N, true)) false] /\
  handlers_of (ran reg_station (reg_ins ++ [IOp (NRemoveHandlers (Some (341%N, false)))])) =
    [Handler 0 (Some (1%N, true)) false; Handler 2 (Some (1%N, true)) true; Handler 5 (Some (2%N, true)) false] /\
  snd (apply_nop ex_clk good_driver 1000 (ran reg_station reg_ins) (NRemoveHandler 3)) = Some ValueError.
Proof. split; [intros l op c []|]. vm_compute. repeat split. Qed.

(** C141: an exception of a task, or of a callback for a timeout, ends the poll
    that calls it: the poll raises, and nothing is called after it. *)
Theorem C141_raise_ends_poll : forall A ins l1 o l2,
  n_log (ran A (ins ++ [IPoll])) = n_log (ran A ins) ++ l1 ++ o :: l2 -> is_user_call o = true ->
  snd (st_beh A (n_log (ran A ins) ++ l1 ++ [o])) = Raises ->
  (forall o', In o' l2 -> is_user_call o' = false) /\
  exists x, snd (npoll (st_clk A) (st_beh A) (st_drv A) (st_status A) (st_status_dt A) (st_second A) (st_fuel A) (ran A ins)) = Err x.
Proof. exact raise_ends. Qed.
Print Assumptions C141_raise_ends_poll.

(** What a poll has not called is still there for the next one, also when it
    raised, if user code removes no tasks. *)
Theorem C141_kept : forall A ins e, removes_no_task (st_beh A) ->
  In e (n_queue (ran A ins)) -> (forall p, ev_act e <> AStatus p) ->
  In e (n_queue (ran A (ins ++ [IPoll]))) \/
  exists l1 o l2, n_log (ran A (ins ++ [IPoll])) = n_log (ran A ins) ++ l1 ++ o :: l2 /\ call_for e o.
Proof. exact raise_keeps. Qed.
Print Assumptions C141_kept.

(** Of three tasks that are due the second raises; the next poll calls the
    third. *)
Definition task_beh (l : list nobs) : list (nop * bool) * outcome :=
  match last l (ONodeId 0) with OTask 1 _ => ([(NBroadcast ex_message ex_value None None, false)], Raises) | _ => ([], Returns None) end.
Definition task_station := Station ex_clk task_beh good_driver (fun _ => ex_value) ex_message ex_types 1000
  (Some 5%N) false true 100000 (1%N, true) 20.
Definition task_ins : list ninput := [IOp (NDefer 10); IOp (NDefer 20); IOp (NDefer 30)] ++ repeat IRead 4.
Example C141_case :
  removes_no_task task_beh /\
  n_log (ran task_station task_ins) = [] /\
  map (fun o => match o with OTask h _ => Some h | _ => None end) (n_log (ran task_station (task_ins ++ [IPoll]))) =
    [Some 0%nat; Some 1%nat; None] /\
  snd (npoll ex_clk task_beh good_driver (fun _ => ex_value) ex_message 1000 20 (ran task_station task_ins)) = Err UserException /\
  map ev_act (n_queue (ran task_station (task_ins ++ [IPoll]))) = [ATask 2; AStatus 100000] /\
  map (fun o => match o with OTask h _ => Some h | _ => None end) (n_log (ran task_station (task_ins ++ [IPoll; IPoll]))) =
    [Some 0%nat; Some 1%nat; None; Some 2%nat].
Proof.
  split; [|vm_compute; repeat split].
  intros l op c. unfold task_beh. destruct (last l (ONodeId 0)) as [| | | | |h now|]; try (intros []; fail).
  destruct h as [|[|h]]; try (intros []; fail). intros [E|[]]. injection E as <- <-. exact I.
Qed.

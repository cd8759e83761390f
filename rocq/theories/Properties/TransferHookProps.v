(** C149: transfer hooks. [beh] is what hooks do, any function of what happened
    so far; [trun] is a history of transfers made, frames read and hooks
    registered and removed ([None] if hooks add hooks for ever). *)
From Verif.Base Require Import Prelude.
From Verif.Model Require Import Types Codec MsgId Frames TransferManager Hooks TransferHooks.
From Verif.Spec Require Import CodecSpec FrameSpec MsgIdSpec ReassemblySpec SendingSpec TransferHookSpec.
From Verif.Proofs Require Import TransferHookFacts.
From Verif.Properties Require Import FrameProps.
Local Open Scope Z_scope.

(** If no hook removes a hook, one is called with every transfer that the node
    makes or that the frames it reads make up from its registration on, whoever
    they are for, once and in order. Whether hooks raise does not matter. *)
Theorem C149_sees_partial : forall beh drv types fuel es1 es2 s1 s2, leaves_hooks beh ->
  trun beh drv types fuel new_monitored es1 = Some s1 -> ~ In (DoRemove (tm_next s1)) es2 ->
  trun beh drv types fuel s1 (DoAdd :: es2) = Some s2 ->
  shown_to (tm_next s1) (tm_log s2) = flow types (tm_manager s1) es2.
Proof. exact hook_sees. Qed.
Print Assumptions C149_sees_partial.

(** Whatever hooks do: a transfer that could be made goes out after hooks saw
    it and nothing else, all of it unless the driver raises. *)
Theorem C149_goes_out : forall beh drv types fuel s h tid dt v c s' r,
  tstep beh drv types fuel s (DoTransfer h tid dt v c) = Some (s', r) ->
  match make_tx h tid dt v c with
  | Err x => s' = s /\ r = Err x
  | Ok t => exists calls sent, tm_log s' = tm_log s ++ calls ++ map TSent sent /\ Forall (is_hook (Outgoing t)) calls /\
      match to_frames t with
      | Err x => r = Err x /\ sent = []
      | Ok (fs, _) => (exists left, fs = sent ++ left) /\ (r = Ok tt -> sent = fs) /\
                      ((forall l, drv l = None) -> r = Ok tt)
      end
  end.
Proof. exact hooks_pass_out. Qed.
Print Assumptions C149_goes_out.

(** And a transfer that frames make up is handled after hooks saw it. *)
Theorem C149_is_handled : forall beh drv types fuel s f now s' r,
  tstep beh drv types fuel s (DoFrame true f now) = Some (s', r) ->
  tm_manager s' = fst (receive_frame (tm_manager s) f now) /\
  match snd (receive_frame (tm_manager s) f now) with
  | None | Some [] => tm_log s' = tm_log s /\ r = Ok tt
  | Some fs => match from_frames types fs with
               | Err x => tm_log s' = tm_log s /\ r = Err x
               | Ok t => r = Ok tt /\ exists calls, tm_log s' = tm_log s ++ calls ++ [TDispatched t] /\
                                                Forall (is_hook (Incoming t)) calls
               end
  end.
Proof. exact hooks_pass_in. Qed.
Print Assumptions C149_is_handled.

(** The calls end unless hooks add hooks. *)
Theorem C149_ends : forall beh fuel s x, adds_none beh -> (length (tm_hooks s) < fuel)%nat ->
  exists s', call_hooks beh fuel s 0 x = Some s'.
Proof. intros beh fuel s x A L. apply (calls_end beh A). rewrite Nat.sub_0_r. exact L. Qed.
Print Assumptions C149_ends.

(** What the monitor of one node reports as sent, the monitor of a node that
    reads its frames reports as received, with the same header, transfer id
    and content, if the frames come complete and in order, between any others. *)
Theorem C149_both_ends : forall behA drvA typesA fuelA es1 sA sA' hA behB drvB typesB fuelB es sB sd fs fs',
  proper typesB sd -> leaves_hooks behA -> leaves_hooks behB ->
  trun behA drvA typesA fuelA new_monitored es1 = Some sA -> In hA (tm_hooks sA) ->
  tstep behA drvA typesA fuelA sA (DoTransfer (s_header sd) (s_tid sd) (s_datatype sd) (s_value sd) (s_canfd sd)) = Some (sA', Ok tt) ->
  sent_out (tm_log sA') = sent_out (tm_log sA) ++ fs -> Forall2 same_frame fs fs' ->
  ~ In (DoRemove 0) es -> trun behB drvB typesB fuelB new_monitored (DoAdd :: es) = Some sB ->
  frames_with (sending_key sd) (frames_in es) = fs' ->
  exists t r, shown_to hA (tm_log sA') = shown_to hA (tm_log sA) ++ [Outgoing t] /\
    In (Incoming r) (shown_to 0 (tm_log sB)) /\ faithful sd r /\ tx_header t = rx_header r /\ (tx_tid t mod 32 = rx_tid r)%N.
Proof. exact both_hooks. Qed.
Print Assumptions C149_both_ends.

(** Hooks that raise, and one that removes itself. *)
Definition hooks_raise (l : list tevent) : list hook_op * bool := ([], true).
Definition first_once (l : list tevent) : list hook_op * bool :=
  match last l (TSent (Frame 0 [] false None None)) with THook 0%nat _ => ([HRemove 0], false) | _ => ([], false) end.
Definition no_fault (l : list tevent) : option exn := None.
Definition refusing (l : list tevent) : option exn := Some DriverError.

Definition hook_transfer := DoTransfer example_header 37 example_datatype (example_value 9) false.
Definition hook_frames : list frame := Eval vm_compute in frames_of (example_sending 9 false).
(** The frames of the message with the start of another between them. *)
Definition hook_arrivals : list taction := Eval vm_compute in
  DoFrame true (Frame 0x1001552B [1; 2; 3; 4; 5; 6; 7; 0x81]%N false None None) 5 ::
  DoFrame false (Frame 0x52A [1]%N false None None) 6 ::
  flat_map (fun f => [DoFrame true f 7; DoAdd]) hook_frames.

(** A hook that removes itself hides the transfer from the next one. *)
Theorem C149_sees_refuted : exists beh drv types fuel es s h x,
  trun beh drv types fuel new_monitored es = Some s /\ In h (tm_hooks s) /\ (h < 2)%nat /\
  In x (flow types new_manager es) /\ es = [DoAdd; DoAdd; hook_transfer] /\ shown_to h (tm_log s) = [].
Proof.
  exists first_once, no_fault, example_types, 9%nat, [DoAdd; DoAdd; hook_transfer].
  eexists. exists 1%nat. eexists. split; [vm_compute; reflexivity|]. split; [left; reflexivity|]. split; [lia|].
  split; [left; reflexivity|]. split; reflexivity.
Qed.
Print Assumptions C149_sees_refuted.

(** A transfer is shown although no frame of it was sent. *)
Theorem C149_sent_refuted : exists beh drv types fuel es s t,
  leaves_hooks beh /\ trun beh drv types fuel new_monitored es = Some s /\
  In (Outgoing t) (shown_to 0 (tm_log s)) /\ sent_out (tm_log s) = [].
Proof.
  exists hooks_raise, refusing, example_types, 9%nat, [DoAdd; hook_transfer]. do 2 eexists.
  split; [intros l h []|]. split; [vm_compute; reflexivity|]. split; [left; reflexivity|reflexivity].
Qed.
Print Assumptions C149_sent_refuted.

Example C149_case : leaves_hooks hooks_raise /\ adds_none hooks_raise /\ proper example_types (example_sending 9 false) /\
  (exists s1 s2, trun hooks_raise no_fault example_types 9 new_monitored [DoAdd] = Some s1 /\
    trun hooks_raise no_fault example_types 9 s1 (DoAdd :: hook_transfer :: hook_arrivals) = Some s2 /\
    length (flow example_types (tm_manager s1) (hook_transfer :: hook_arrivals)) = 2%nat /\
    length (tm_log s2) = 10%nat) /\
  (exists sA sA' sB, trun hooks_raise no_fault example_types 9 new_monitored [DoAdd] = Some sA /\
    tstep hooks_raise no_fault example_types 9 sA hook_transfer = Some (sA', Ok tt) /\
    sent_out (tm_log sA') = sent_out (tm_log sA) ++ hook_frames /\ length hook_frames = 3%nat /\
    trun hooks_raise no_fault example_types 9 new_monitored (DoAdd :: hook_arrivals) = Some sB /\
    frames_with (sending_key (example_sending 9 false)) (frames_in hook_arrivals) = hook_frames).
Proof.
  split; [intros l h []|]. split; [intros l []|]. split; [apply example_proper; lia|]. split.
  - do 2 eexists. split; [reflexivity|]. split; [vm_compute; reflexivity|]. split; [vm_compute; reflexivity|]. vm_compute. reflexivity.
  - do 3 eexists. split; [reflexivity|]. split; [vm_compute; reflexivity|]. split; [vm_compute; reflexivity|].
    split; [reflexivity|]. split; [vm_compute; reflexivity|]. vm_compute. reflexivity.
Qed.

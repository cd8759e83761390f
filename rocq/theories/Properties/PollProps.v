(** C159: the node info is asked for at the rate given. *)
From Verif.Base Require Import Prelude Bits.
From Verif.Model Require Import Types Codec MsgId Frames TransferManager Sched Node NodePoll.
From Verif.Spec Require Import NodeSpec.
From Verif.Proofs Require Import NodePollFacts.
From Verif.Properties Require Import NodeProps.
Local Open Scope Z_scope.

Definition ex_poll (wall : nat -> Z) := poll_loop ex_clk quiet good_driver (fun _ => ex_value) ex_message ex_types 1000 (fun _ _ _ _ => Ok None)
  wall 0 700 ex_service ex_value 42 false 20 20.
Definition ex_node := ex_after (Some 5%N) quiet good_driver [].

(** Not more often than given, whatever else the node does, whatever is raised
    and however the time of day is set: the clock as read next after a request
    and as read last before the one that follows are at least the period apart. *)
Theorem C159_gap : forall clk beh drv status status_dt types second receive wall last period dt v dest canfd turns fuel,
  0 < period -> (forall i j, (i <= j)%nat -> clk i <= clk j) ->
  forall n k s s' l a i j b,
  poll_loop clk beh drv status status_dt types second receive wall last period dt v dest canfd turns fuel n k s = (s', l) ->
  l = a ++ i :: j :: b -> clk i + period <= clk (pred j).
Proof. exact gap. Qed.
Print Assumptions C159_gap.
Example C159_gap_case : length (snd (ex_poll (fun k => 1000 * Z.of_nat k) 4 0 ex_node)) = 3%nat /\
  length (filter (fun o => match o with OSend (Some (1%N, Some 42%N)) _ _ _ _ => true | _ => false end) (n_log (fst (ex_poll (fun k => 1000 * Z.of_nat k) 4 0 ex_node)))) = 3%nat.
Proof. vm_compute. split; reflexivity. Qed.

(** Each time the period has passed: false if the time of day has been set
    back, no turn asks. *)
Theorem C159_every_refuted : exists clk beh drv status status_dt types second receive wall last period dt v dest canfd turns fuel s,
  let loop n := poll_loop clk beh drv status status_dt types second receive wall last period dt v dest canfd turns fuel n 0 s in
  (forall k, (k < 4)%nat -> anonymous (fst (loop k)) = false /\ wall (S k) = wall k + period /\
     is_ok (snd (spin clk beh drv status status_dt types second (receive k) turns fuel (fst (loop k)) (Some period))) = true) /\
  snd (loop 4%nat) = [].
Proof.
  exists ex_clk, quiet, good_driver, (fun _ => ex_value), ex_message, ex_types, 1000, (fun _ _ _ _ => Ok None),
    (fun k => 700 * Z.of_nat k - 3600000), 0, 700, ex_service, ex_value, 42%N, false, 20%nat, 20%nat, ex_node.
  split; [|vm_compute; reflexivity].
  intros k K. destruct k as [|[|[|[|k]]]]; [| | | |lia]; vm_compute; auto.
Qed.
Print Assumptions C159_every_refuted.
(** Nothing is asked until the time of day is the period after the start. *)
Theorem C159_silent : forall clk beh drv status status_dt types second receive wall last period dt v dest canfd turns fuel n k s,
  (forall j, (k <= j < k + n)%nat -> wall j - last <= period) ->
  snd (poll_loop clk beh drv status status_dt types second receive wall last period dt v dest canfd turns fuel n k s) = [].
Proof. exact silent. Qed.
Print Assumptions C159_silent.
Example C159_silent_case : (forall j, (0 <= j < 5)%nat -> (fun k => 100 * Z.of_nat k) j - 0 <= 700).
Proof. cbv beta. intros. lia. Qed.
(** From then on each turn in which [spin] returns asks the node once, and it
    is this node that is asked. *)
Theorem C159_every_partial : forall clk beh drv status status_dt types second receive wall last period dt v dest canfd turns fuel k s s1 got c,
  spin clk beh drv status status_dt types second (receive k) turns fuel s (Some period) = (s1, got, Ok c) ->
  period < wall k - last -> anonymous s1 = false ->
  exists s' h tid fs err more,
    poll_turn clk beh drv status status_dt types second receive wall last period dt v dest canfd turns fuel k s = (s', [n_reads s1]) /\
    n_log s' = n_log s1 ++ OSend (Some (dt_id dt, Some dest)) h tid fs err :: more /\
    h_service h = true /\ h_request h = true /\ h_source h = n_id s1 /\ h_dest h = Some dest /\
    match more with [] => True | [ORequest _ _ _ _] => True | _ => False end.
Proof. exact asks. Qed.
Print Assumptions C159_every_partial.
Example C159_every_case :
  let r := spin ex_clk quiet good_driver (fun _ => ex_value) ex_message ex_types 1000 (fun _ _ _ => Ok None) 20 20 ex_node (Some 700) in
  is_ok (snd r) = true /\ anonymous (fst (fst r)) = false.
Proof. vm_compute. auto. Qed.

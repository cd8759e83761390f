(** C118: a node announces itself once per interval. *)
From Verif.Base Require Import Prelude Bits.
From Verif.Model Require Import BitCodec Types Codec MsgId Frames TransferManager Node.
From Verif.Spec Require Import NodeSpec SchedSpec StatusSpec.
From Verif.Proofs Require Import NodeFacts NodeTop NodeStatus.
From Verif.Properties Require Import NodeProps.
Local Open Scope Z_scope.

(** Whatever happened to the node, whatever its callbacks, handlers and tasks do
    and whatever the driver raises: when a poll has returned, at least one
    status message was sent (or attempted to be sent) for every interval that
    had passed at its last look at the clock, *)
Theorem C118_every_interval : forall clk beh drv status status_dt types second own canfd catch interval info fuel ins s' dl,
  own <> 0%N -> monotone clk -> 0 < interval ->
  npoll clk beh drv status status_dt second fuel
    (started clk beh drv status status_dt types second (Some own) canfd catch interval info fuel ins) = (s', Ok dl) ->
  (clk (n_reads s' - 2)%nat - clk 0%nat) / interval <= Z.of_nat (length (announced status_dt (n_log s'))).
Proof. intros. eapply (status_counts _ _ _ _ _ _ _ false); eauto. discriminate. Qed.
Print Assumptions C118_every_interval.

(** and exactly one, if the user does not send such messages as well. *)
Theorem C118_exactly_one : forall clk beh drv status status_dt types second own canfd catch interval info fuel ins s' dl,
  own <> 0%N -> monotone clk -> 0 < interval -> only_own_status status_dt beh ins ->
  npoll clk beh drv status status_dt second fuel
    (started clk beh drv status status_dt types second (Some own) canfd catch interval info fuel ins) = (s', Ok dl) ->
  Z.of_nat (length (announced status_dt (n_log s'))) = (clk (n_reads s' - 2)%nat - clk 0%nat) / interval.
Proof.
  intros clk beh drv status status_dt types second own canfd catch interval info fuel ins s' dl O M P Only E.
  apply (proj2 (status_counts clk beh drv status status_dt types second true own interval canfd catch info fuel ins s' dl O M (fun _ => Only) P E) eq_refl).
Qed.
Print Assumptions C118_exactly_one.

(** None is early, at any time. *)
Theorem C118_not_early : forall clk beh drv status status_dt types second own canfd catch interval info fuel ins,
  own <> 0%N -> only_own_status status_dt beh ins ->
  let s := started clk beh drv status status_dt types second (Some own) canfd catch interval info fuel ins in
  exists i, (i < n_reads s)%nat /\ clk 0%nat + Z.of_nat (length (announced status_dt (n_log s))) * interval <= clk i.
Proof. intros. apply status_not_early; assumption. Qed.
Print Assumptions C118_not_early.

(** Requests, a failing driver and a task that removes another; the clock
    advances by 100 with every reading and the interval is 1000. *)
Definition sometimes (l : list nobs) (fs : list frame) : option exn := if Nat.eqb (length l) 11 then Some DriverError else None.
Definition status_ins := [ex_request None None; IOp (NDefer 300); IOp (NPeriodic 250)] ++ repeat IRead 8 ++ [IPoll; IOp (NRemoveTask 1); ex_response 0]
  ++ repeat IRead 30 ++ [IPoll; IPoll].
Definition is_failed o := match o with OSend (Some (341%N, None)) _ _ _ (Some DriverError) => true | _ => false end.
Example C118_case :
  let r := npoll ex_clk quiet sometimes (fun _ => ex_value) ex_message 1000 20 (ex_after (Some 5%N) quiet sometimes status_ins) in
  monotone ex_clk /\ only_own_status ex_message quiet status_ins /\ is_ok (snd r) = true /\
  announced ex_message (n_log (fst r)) = [0; 1; 2; 3; 4; 5]%N /\ length (filter is_failed (n_log (fst r))) = 1%nat /\
  (ex_clk (n_reads (fst r) - 2) - ex_clk 0) / 1000 = 6.
Proof.
  cbv zeta. split; [intros i j H; unfold ex_clk; lia|]. split.
  - split; [intros l op c []|]. intros op H. vm_compute in H.
    repeat (destruct H as [H|H]; [try discriminate; injection H as <-; exact I|]). destruct H.
  - vm_compute. auto 10.
Qed.

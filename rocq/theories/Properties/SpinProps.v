(** C148: a spinning node and the time. *)
From Verif.Base Require Import Prelude Bits.
From Verif.Model Require Import Types Codec MsgId Frames TransferManager Sched Node.
From Verif.Spec Require Import NodeSpec SpinSpec.
From Verif.Proofs Require Import NodeFacts RequestFacts NodeRequests NodeTop SpinFacts.
From Verif.Properties Require Import NodeProps.
Local Open Scope Z_scope.

(** In every state that a node can reach: what a turn of [spin] does after the
    poll is to receive a frame, with a timeout that ends no later than the next
    scheduled event, but for the time between two readings of the clock in the
    poll, and no later than spinning does; and that ends only then, or after a
    second. *)
Theorem C148_wait_partial : forall clk beh drv status status_dt types second receive id canfd catch interval info fuel ins deadline got n s1 next,
  0 <= second ->
  let s := started clk beh drv status status_dt types second id canfd catch interval info fuel ins in
  npoll clk beh drv status status_dt second fuel s = (s1, Ok next) ->
  let now := clk (n_reads s1) in
  let late := clk (n_reads s1 - 1)%nat - clk (n_reads s1 - 2)%nat in
  exists t, wakes_in_time second late deadline s1 now t /\ waits_for_something second late deadline s1 now t /\
    execute_once clk beh drv status status_dt types second receive fuel deadline s got n =
    (let s2 := set_reads s1 (S (n_reads s1)) in
     match receive (n_log s1) n t with
     | Err x => (s2, got, Err x)
     | Ok None => (s2, got, Ok 0%N)
     | Ok (Some (x, f)) =>
         match recv_frame clk beh drv types second fuel s2 x f with
         | (s3, Some e) => (s3, got ++ [(x, f)], Err e)
         | (s3, None) => (s3, got ++ [(x, f)], Ok 1%N)
         end
     end).
Proof.
  intros clk beh drv status status_dt types second receive id canfd catch interval info fuel ins deadline got n s1 next SE s H.
  apply (once clk beh drv status status_dt types second receive fuel deadline s got n s1 next SE); [|exact H].
  unfold s, started. apply GS_history, GS_new.
Qed.
Print Assumptions C148_wait_partial.

(** The clock moves by 100 between two readings; an event is due at 1000. *)
Definition says_timeout (l : list nobs) (n : nat) (t : Z) : res (option (bool * frame)) := if t =? 800 then Ok None else Err RuntimeError.
Definition once_idle : node := ex_after (Some 5%N) quiet good_driver [].
Definition once_polled : node := fst (npoll ex_clk quiet good_driver (fun _ => ex_value) ex_message 1000 20 once_idle).
(** The time between the readings is waited too long. *)
Theorem C148_wait_refuted : exists clk beh drv status status_dt types second receive fuel s s1 next t,
  npoll clk beh drv status status_dt second fuel s = (s1, Ok next) /\
  snd (execute_once clk beh drv status status_dt types second receive fuel None s [] 0) = Ok 0%N /\
  (forall t', receive (n_log s1) 0%nat t' = Ok None -> t' = t) /\
  exists e, In e (n_queue s1) /\ clk (n_reads s1) < ev_time e < clk (n_reads s1) + t.
Proof.
  exists ex_clk, quiet, good_driver, (fun _ => ex_value), ex_message, ex_types, 1000, says_timeout, 20%nat, once_idle, once_polled, 1100, 800.
  split; [vm_compute; reflexivity|]. split; [vm_compute; reflexivity|].
  split; [intros t'; unfold says_timeout; destruct (Z.eqb_spec t' 800); [auto|discriminate]|].
  exists (Event 1000 0 0 (AStatus 1000)). vm_compute. auto.
Qed.
Print Assumptions C148_wait_refuted.
Example C148_case : npoll ex_clk quiet good_driver (fun _ => ex_value) ex_message 1000 20 once_idle = (once_polled, Ok 1100) /\
  wakes_in_time 1000 100 (Some 500) once_polled 300 200 /\ waits_for_something 1000 100 (Some 500) once_polled 300 200.
Proof.
  split; [vm_compute; reflexivity|]. split.
  - split; [lia|]. split; [intros d E; injection E as <-; lia|]. intros e I. vm_compute in I. destruct I as [<-|[]]. vm_compute. intros E; discriminate E.
  - right. left. exists 500. split; reflexivity.
Qed.

(** Scheduler properties: C30, C31. The clock [clk] gives the successive
    readings; [beh] is what callbacks do, as any function of the history. *)
From Verif.Base Require Import Prelude.
From Verif.Model Require Import Sched.
From Verif.Spec Require Import SchedSpec.
From Verif.Proofs Require Import SchedTop SchedRaise.
Require Import Coq.Sorting.Sorted.
Local Open Scope Z_scope.

(** C30: a call deferred by [d] at time [t] is due at [t + d] and runs no
    earlier, at most once, and not at all if cancelled. *)
Theorem C30_never_early_at_most_once : forall clk beh ops h t d,
  let l := s_log (history clk beh ops) in
  In (ODefer h t d) l ->
  (forall due prio seq now, In (ORun h due prio seq now) l ->
     due = t + d /\ prio = 1 /\ t + d <= now) /\
  (length (runs h l) <= 1)%nat /\
  (In (OCancel h) l -> runs h l = []).
Proof. intros clk beh ops h t d l H. exact (deferred_once clk beh ops h t d H). Qed.
Print Assumptions C30_never_early_at_most_once.

(** A poll that starts at or after [t + d] and returns has run the call, unless
    it was cancelled. *)
Theorem C30_run_by_first_poll : forall clk beh ops fuel s' dl h t d,
  monotone clk ->
  let s := history clk beh ops in
  poll clk beh fuel s = (s', Ok dl) ->
  In (ODefer h t d) (s_log s) -> t + d <= clk (s_reads s) ->
  length (runs h (s_log s')) = 1%nat \/ In (OCancel h) (s_log s').
Proof. exact due_done. Qed.
Print Assumptions C30_run_by_first_poll.

(** Within one poll the runs follow due time, priority and order of entry into
    the queue; that order is the order of creation for deferred calls. *)
Theorem C30_order : forall clk beh ops fuel s' r,
  monotone clk -> (forall l, Forall sane_op (fst (beh l))) -> Forall sane_hop ops ->
  let s := history clk beh ops in
  poll clk beh fuel s = (s', r) ->
  exists new, run_keys (s_log s') = run_keys (s_log s) ++ new /\ StronglySorted before new.
Proof. exact poll_order. Qed.
Print Assumptions C30_order.

Theorem C30_creation_order : forall clk beh ops h h' t d t' d' due prio seq now due' prio' seq' now',
  (h < h')%nat ->
  let l := s_log (history clk beh ops) in
  In (ODefer h t d) l -> In (ODefer h' t' d') l ->
  In (ORun h due prio seq now) l -> In (ORun h' due' prio' seq' now') l -> (seq < seq')%nat.
Proof. exact deferred_seqs. Qed.
Print Assumptions C30_creation_order.

(** What a callback raises is not lost: no callback that ran in a poll that
    returned has raised. *)
Theorem C30_raise_seen : forall clk beh ops fuel s' dl l1 h due prio seq now l2,
  let s := history clk beh ops in
  poll clk beh fuel s = (s', Ok dl) -> s_log s' = l1 ++ ORun h due prio seq now :: l2 ->
  (length (s_log s) <= length l1)%nat ->
  snd (beh (l1 ++ [ORun h due prio seq now])) = false.
Proof. intros. eapply poll_no_raise; try eassumption. reflexivity. Qed.
Print Assumptions C30_raise_seen.

(** C31: the k-th run of a periodic task created at [t] is due at exactly
    [t + k * p] and is not early. *)
Theorem C31_no_drift : forall clk beh ops h t p,
  In (OPeriodic h t p) (s_log (history clk beh ops)) ->
  forall k due now, nth_error (runs h (s_log (history clk beh ops))) k = Some (due, now) ->
  due = t + Z.of_nat (S k) * p /\ due <= now.
Proof. exact periodic_times. Qed.
Print Assumptions C31_no_drift.

(** When a poll has returned, the number of runs is the number of periods that
    had passed at its last look at the clock: none is skipped or added. *)
Theorem C31_every_period_runs : forall clk beh ops fuel s' dl h t p,
  monotone clk ->
  let s := history clk beh ops in
  poll clk beh fuel s = (s', Ok dl) ->
  In (OPeriodic h t p) (s_log s) -> 0 < p -> ~ In (OCancel h) (s_log s') ->
  Z.of_nat (length (runs h (s_log s'))) = (clk (s_reads s' - 2)%nat - t) / p.
Proof. exact periodic_count. Qed.
Print Assumptions C31_every_period_runs.

(** A cancelled task never runs again. *)
Theorem C31_cancelled_never_runs : forall clk beh ops h l1 l2,
  s_log (history clk beh ops) = l1 ++ OCancel h :: l2 -> runs h l2 = [].
Proof. exact removed_stops. Qed.
Print Assumptions C31_cancelled_never_runs.

(** [remove] of a periodic task that was not yet removed succeeds. *)
Theorem C31_remove_succeeds : forall clk beh ops h t p,
  let s := history clk beh ops in
  In (OPeriodic h t p) (s_log s) -> ~ In (OCancel h) (s_log s) ->
  exists s', apply_uop clk s (Remove h) = (s', None) /\ s_log s' = s_log s ++ [OCancel h].
Proof.
  intros clk beh ops h t p s Hi Hn.
  destruct (removable clk s h t p (SchedFacts.inv_history clk beh ops) Hi Hn) as (s' & E & El).
  exists s'. cbn. rewrite E. auto.
Qed.
Print Assumptions C31_remove_succeeds.

(** A task whose callback starts by removing the task does not run again. *)
Theorem C31_remove_from_own_callback : forall clk beh ops h t p l1 due prio seq now l2,
  s_log (history clk beh ops) = (l1 ++ [ORun h due prio seq now]) ++ l2 ->
  In (OPeriodic h t p) l1 ->
  (exists rest, fst (beh (l1 ++ [ORun h due prio seq now])) = Remove h :: rest \/
                fst (beh (l1 ++ [ORun h due prio seq now])) = TryRemove h :: rest) ->
  runs h l2 = [].
Proof. exact self_removal. Qed.
Print Assumptions C31_remove_from_own_callback.

(** A clock that advances by 10 with every reading; task 0 runs every 15 and
    removes itself in its second run; tasks 1 and 2 are deferred to the same
    moment; task 1 raises. *)
Definition example_clk (i : nat) : Z := 10 * Z.of_nat i.
Definition example_beh (l : list obs) : list uop * bool :=
  match last l (OCancel 9) with
  | ORun 0 _ _ _ _ => (if Nat.eqb (length (runs 0 l)) 2 then [Remove 0; Defer 0] else [], false)
  | ORun 1 _ _ _ _ => ([], true)
  | _ => ([], false)
  end.
Definition example_ops : list hop :=
  [HUser (Periodic 15); HUser (Defer 20); HUser (Defer 10); HPoll 9; HPoll 9].
Definition example_log := s_log (history example_clk example_beh example_ops).

Example Sched_case :
  example_log =
    [OPeriodic 0 0 15; ODefer 1 10 20; ODefer 2 20 10;
     ORun 0 15 0 0 30; ORun 0 30 0 3 40; OCancel 0; ODefer 3 50 0;
     ORun 1 30 1 1 60; ORun 2 30 1 2 70; ORun 3 50 1 5 80] /\
  monotone example_clk /\ Forall sane_hop example_ops /\
  (forall l, Forall sane_op (fst (example_beh l))) /\
  let r := poll example_clk (fun _ => ([], false)) 9
    (history example_clk (fun _ => ([], false)) [HUser (Periodic 15); HUser (Defer 20)]) in
  is_ok (snd r) = true /\ length (runs 0 (s_log (fst r))) = 4%nat /\
  length (runs 1 (s_log (fst r))) = 1%nat.
Proof.
  split; [vm_compute; reflexivity|]. split; [intros i j; unfold example_clk; lia|].
  split; [repeat constructor; cbn; lia|]. split.
  - intros l. unfold example_beh. destruct (last l (OCancel 9)) as [| |h| ]; cbn; auto.
    destruct h as [|[|h]]; cbn; auto. destruct (Nat.eqb _ 2); cbn; repeat constructor; cbn; lia.
  - vm_compute. auto.
Qed.

(** The first poll of the example runs task 1, which raises; it does not return.
    The poll without callbacks that raise returns, with runs. *)
Example C30_raise_case :
  snd (poll example_clk example_beh 9 (history example_clk example_beh [HUser (Periodic 15); HUser (Defer 20); HUser (Defer 10)])) = Err UserException.
Proof. vm_compute. reflexivity. Qed.

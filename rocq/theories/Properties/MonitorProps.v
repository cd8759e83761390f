(** Properties of the node monitor. *)
From Coq Require Import Sorted.
From Verif.Base Require Import Prelude.
From Verif.Model Require Import Monitor.
From Verif.Spec Require Import MonitorSpec.
From Verif.Proofs Require Import MonitorFacts.
Local Open Scope Z_scope.

(** Cases: times in milliseconds. *)
Definition watch := monitored 3000 500.
Definition status (n up : N) (t : Z) : mevent := MStatus n up t t false.
Definition info (n up : N) (t : Z) : mevent := MInfo n up 7 t t true.
Definition tick (t : Z) : mevent := MTick (fun _ => t).

(** C37. After the removal of stale nodes a node is listed exactly if it was
    heard (by a status, an info response or an info request) within the
    timeout, on a clock that does not go back. *)
Theorem C37_listed_partial : forall timeout min_retry n evs now,
  (forall r, In r (readings n evs) -> r <= now n) ->
  listed (monitored timeout min_retry (evs ++ [MTick now])) n = true <->
  exists ts, last_opt (heard n evs) = Some ts /\ now n <= ts + timeout.
Proof. exact monitor_fresh. Qed.
Print Assumptions C37_listed_partial.

Example C37_case :
  let evs := [status 5 1 1000; status 6 1 1500; tick 2000; info 5 2 2500; status 6 2 2600; status 5 3 3000] in
  let s := watch (evs ++ [tick 5700]) in
  readings 5 evs = [1000; 2000; 2500; 3000] /\ last_opt (heard 5 evs) = Some 3000 /\
  listed s 5 = true /\ listed s 6 = false /\ listed s 7 = false.
Proof. vm_compute. repeat split. Qed.
Print Assumptions C37_case.

(** A node that sent neither a status nor an info response is listed because
    it asked this node for info. *)
Theorem C37_listed_refuted :
  exists evs now, (forall r, In r (readings 5 evs) -> r <= now 5%N) /\
    announced 5 evs = [] /\ listed (watch (evs ++ [MTick now])) 5 = true.
Proof.
  exists [MRequest 5 1000 1000], (fun _ => 2000). vm_compute. repeat split.
  intros r [<-|[]]. discriminate.
Qed.
Print Assumptions C37_listed_refuted.

(** C38. A node is reported new again only after it was reported offline. *)
Theorem C38_new_again : forall timeout min_retry n evs,
  new_once false (story n (mo_log (monitored timeout min_retry evs))) = true.
Proof. exact monitor_new_once. Qed.
Print Assumptions C38_new_again.

(** The whole story is coherent if info responses come from nodes heard within
    the timeout, and if no node asks this one for info. *)
Theorem C38_coherent_partial : forall timeout min_retry n evs,
  introduced timeout n evs ->
  coherent false (story n (mo_log (monitored timeout min_retry evs))) = true.
Proof. exact monitor_coherent. Qed.
Print Assumptions C38_coherent_partial.

Example C38_case :
  let evs := [status 5 1 1000; info 5 2 2500; tick 6000; status 5 1 7000; tick 20000] in
  introduced 3000 5 evs /\
  story 5 (mo_log (watch evs)) = [RNew; RUpdate; ROffline; RNew; ROffline].
Proof.
  split; [|vm_compute; reflexivity].
  intros a e b E.
  destruct a as [|x a]; injection E as <- E; [subst; exact I|].
  destruct a as [|x a]; injection E as <- E; [|].
  2: do 3 (destruct a as [|x a]; injection E as <- E; [subst; exact I|]).
  - intros _. split; [exists 1000; vm_compute; split; [reflexivity|discriminate]|].
    intros r [<-|[]]; vm_compute; discriminate.
  - apply app_cons_not_nil in E. destruct E.
Qed.
Print Assumptions C38_case.

(** An overheard info response of a node not heard before is reported as an
    update of a node that was not reported new; and such a node, or one that
    asked for info, is reported offline without having been reported new. *)
Theorem C38_coherent_refuted :
  (exists evs, story 5 (mo_log (watch evs)) = [RUpdate; ROffline]) /\
  (exists evs, story 5 (mo_log (watch evs)) = [ROffline]).
Proof.
  split.
  - exists [info 5 2 1000; tick 9000]. vm_compute. reflexivity.
  - exists [MRequest 5 1000 1000; status 5 1 2000; tick 9000]. vm_compute. reflexivity.
Qed.
Print Assumptions C38_coherent_refuted.

(** C39. At most ten requests for info without an answer, unless the node
    restarts or goes offline. *)
Theorem C39_bounded : forall timeout min_retry n a b l,
  mo_log (monitored timeout min_retry (a ++ b)) = mo_log (monitored timeout min_retry a) ++ l ->
  unanswered n b -> Sorted N.le (uptimes n b) -> ~ In ROffline (story n l) ->
  (length (asks n l) <= 10)%nat.
Proof. exact monitor_bounded. Qed.
Print Assumptions C39_bounded.

(** Never two within the minimum interval, over any history, restarts and
    absences included, if time stamps do not go back and lag behind the clock
    by no more than the difference of the two intervals (2.5 s). *)
Theorem C39_interval : forall timeout min_retry lag n evs,
  lag + min_retry <= timeout -> orderly lag n evs ->
  StronglySorted (fun a b => a + min_retry < b) (asks n (mo_log (monitored timeout min_retry evs))).
Proof. exact monitor_interval. Qed.
Print Assumptions C39_interval.

Theorem C39_assertion : forall timeout min_retry evs,
  ~ In (MRaise AssertionError) (mo_log (monitored timeout min_retry evs)).
Proof. exact monitor_no_assert. Qed.
Print Assumptions C39_assertion.

(** And a node heard for the first time is asked at once. *)
Theorem C39_asks : forall timeout min_retry n evs up ts now,
  heard n evs = [] -> min_retry < ts ->
  asks n (mo_log (monitored timeout min_retry (evs ++ [MStatus n up ts now false]))) =
  asks n (mo_log (monitored timeout min_retry evs)) ++ [ts].
Proof. exact monitor_asks. Qed.
Print Assumptions C39_asks.

(** A node that restarts is asked again, even if it had answered or had been
    asked ten times in vain. *)
Theorem C39_restarted : forall timeout min_retry n evs us u up ts now,
  told n evs = us ++ [u] -> (up < u)%N -> min_retry < ts ->
  (forall t, In t (asks n (mo_log (monitored timeout min_retry evs))) -> t + min_retry < ts) ->
  asks n (mo_log (monitored timeout min_retry (evs ++ [MStatus n up ts now false]))) =
  asks n (mo_log (monitored timeout min_retry evs)) ++ [ts].
Proof. exact monitor_restarted. Qed.
Print Assumptions C39_restarted.

(** A node that has answered is not asked again, until it restarts or is
    reported offline. *)
Theorem C39_answered : forall timeout min_retry n a b l u i ts now text,
  mo_log (monitored timeout min_retry (a ++ MInfo n u i ts now text :: b)) =
    mo_log (monitored timeout min_retry (a ++ [MInfo n u i ts now text])) ++ l ->
  Sorted N.le (u :: told n b) -> ~ In ROffline (story n l) -> asks n l = [].
Proof. exact monitor_answered. Qed.
Print Assumptions C39_answered.

Definition beats (n : N) (k : nat) : list mevent :=
  map (fun i => status n (N.of_nat i) (1000 + 400 * Z.of_nat i)) (seq 0 k).
Example C39_case :
  let evs := beats 5 40 in
  unanswered 5 evs /\ Sorted N.le (uptimes 5 evs) /\ orderly 0 5 (beats 5 3) /\
  story 5 (mo_log (watch evs)) = [RNew] /\
  asks 5 (mo_log (watch evs)) = [1000; 1800; 2600; 3400; 4200; 5000; 5800; 6600; 7400; 8200] /\
  asks 5 (mo_log (watch (evs ++ [status 5 0 17000; info 5 1 17001; status 5 2 17600]))) =
    [1000; 1800; 2600; 3400; 4200; 5000; 5800; 6600; 7400; 8200; 17000].
Proof.
  cbv zeta. split.
  { intros e H. unfold beats in H. apply in_map_iff in H as (i & <- & _). exact I. }
  split. { vm_compute. repeat constructor; discriminate. }
  split.
  { intros a e b ts E.
    destruct a as [|x [|x' [|x'' [|y a]]]]; try discriminate; injection E as;
      repeat match goal with H : _ = ?x |- _ => is_var x; subst x end; cbn;
      (intros [<-|[]]; split; intros r; cbn; lia) || (destruct a; discriminate). }
  vm_compute. repeat split.
Qed.
Print Assumptions C39_case.

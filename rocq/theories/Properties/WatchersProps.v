(** C135: the update handlers of the node monitor. [beh] is what handlers do,
    any function of their calls so far; [wrun] is a history of what comes to
    the monitor and of registrations ([None] if handlers add handlers for
    ever). *)
From Verif.Base Require Import Prelude.
From Verif.Model Require Import Monitor Watchers.
From Verif.Spec Require Import MonitorSpec WatchersSpec.
From Verif.Proofs Require Import WatchersFacts.
Local Open Scope Z_scope.

Definition calm (l : list notice) : list watch_op * option exn := ([], None).
(** Each handler adds one when it is first told that a node is new. *)
Definition breeding (l : list notice) : list watch_op * option exn :=
  match l with [(0%nat, MNew _)] => ([WHAdd], None) | _ => ([], None) end.
(** The first handler raises. *)
Definition upset (l : list notice) : list watch_op * option exn :=
  match last l (1%nat, MNew 0) with (0%nat, _) => ([], Some UserException) | _ => ([], None) end.
(** It raises when a node goes offline. *)
Definition upset_offline (l : list notice) : list watch_op * option exn :=
  match last l (0%nat, MNew 0) with (_, MOffline _) => ([], Some UserException) | _ => ([], None) end.
(** The first handler removes itself. *)
Definition shy (l : list notice) : list watch_op * option exn :=
  match last l (1%nat, MNew 0) with (0%nat, _) => ([WHRemove 0], None) | _ => ([], None) end.

Definition status (n up : N) (t : Z) : wevent := WIn (MStatus n up t t false).
Definition info (n up : N) (t : Z) : wevent := WIn (MInfo n up 7 t t true).
Definition tick (t : Z) : wevent := WIn (MTick (fun _ => t)).

(** A handler is told every event from its registration to its removal, once,
    in order, if handlers raise nothing and remove no handlers. *)
Theorem C135_told_partial : forall timeout min_retry beh fuel es1 es2 s1 s2, tame beh ->
  wrun timeout min_retry beh fuel new_watched es1 = Some s1 ->
  let h := wa_next s1 in
  ~ In (WRemove h) es2 -> ~ In (WTryRemove h) es2 ->
  wrun timeout min_retry beh fuel s1 (WAdd :: es2) = Some s2 ->
  exists l, mo_log (wa_monitor s2) = mo_log (wa_monitor s1) ++ l /\ notices h (wa_calls s2) = events l.
Proof. exact told. Qed.
Print Assumptions C135_told_partial.

(** Then the monitor is the one of C37-C39, *)
Theorem C135_monitor_partial : forall timeout min_retry beh fuel es s, tame beh -> ~ In WClose es ->
  wrun timeout min_retry beh fuel new_watched es = Some s ->
  let m := monitored timeout min_retry (inputs es) in
  mo_registry (wa_monitor s) = mo_registry m /\ mo_log (wa_monitor s) = unraised (mo_log m).
Proof. exact plain. Qed.
Print Assumptions C135_monitor_partial.

(** and a handler registered at the beginning is told the story of C38. *)
Theorem C135_story_partial : forall timeout min_retry beh fuel es s, tame beh ->
  ~ In WClose es -> ~ In (WRemove 0) es -> ~ In (WTryRemove 0) es ->
  wrun timeout min_retry beh fuel new_watched (WAdd :: es) = Some s ->
  notices 0 (wa_calls s) = events (mo_log (monitored timeout min_retry (inputs es))).
Proof. exact whole_story. Qed.
Print Assumptions C135_story_partial.

(** A handler that was removed is never called again, whatever handlers do. *)
Theorem C135_removed : forall timeout min_retry beh fuel es1 es2 s1 s2 s3 h,
  wrun timeout min_retry beh fuel new_watched es1 = Some s1 ->
  wstep timeout min_retry beh fuel s1 (WRemove h) = Some (s2, None) ->
  wrun timeout min_retry beh fuel s2 es2 = Some s3 ->
  notices h (wa_calls s3) = notices h (wa_calls s1) /\ ~ In h (wa_callbacks s3).
Proof. exact removed. Qed.
Print Assumptions C135_removed.

(** Everything comes to an end unless handlers add handlers. *)
Theorem C135_ends : forall timeout min_retry beh fuel es, adds_none beh ->
  (length (filter is_add es) < fuel)%nat ->
  exists s, wrun timeout min_retry beh fuel new_watched es = Some s.
Proof. exact run_ends. Qed.
Print Assumptions C135_ends.

(** After [close] the registry stays as it is and no handler is called, if no
    GetNodeInfo transfer comes and [get] is not called. *)
Theorem C135_closed_partial : forall timeout min_retry beh fuel es1 es2 s1 s2 x s3,
  wrun timeout min_retry beh fuel new_watched es1 = Some s1 ->
  wstep timeout min_retry beh fuel s1 WClose = Some (s2, x) ->
  undisturbed es2 -> wrun timeout min_retry beh fuel s2 es2 = Some s3 ->
  wa_monitor s3 = wa_monitor s1 /\ wa_calls s3 = wa_calls s1.
Proof. exact closed. Qed.
Print Assumptions C135_closed_partial.

Definition case_es : list wevent :=
  [status 5 1 1000; status 6 1 1100; WAdd; info 5 2 1200; WRemove 1; tick 4300; status 5 3 4400; tick 9000].
Example C135_case : tame calm /\ tame breeding /\ adds_none calm /\
  option_map (fun s => (notices 0 (wa_calls s), notices 1 (wa_calls s)))
    (wrun 3000 500 calm 9 new_watched (WAdd :: case_es)) =
    Some ([MNew 5; MNew 6; MUpdate 5; MOffline 5; MOffline 6; MNew 5; MOffline 5], [MUpdate 5]) /\
  option_map (fun s => (notices 0 (wa_calls s), notices 1 (wa_calls s)))
    (wrun 3000 500 breeding 9 new_watched [WAdd; status 5 1 1000; info 5 1 1100; WClose; WClose; status 5 0 1200; tick 9000]) =
    Some ([MNew 5; MUpdate 5], [MNew 5; MUpdate 5]).
Proof.
  split; [intros l; split; [reflexivity|intros h []]|]. split.
  { intros l. split; [|intros h I].
    - destruct l as [|[[|k] []] [|c l]]; reflexivity.
    - destruct l as [|[[|k] []] [|c l]]; cbn in I; clear - I; intuition discriminate. }
  split; [intros l []|]. vm_compute. split; reflexivity.
Qed.
Print Assumptions C135_case.

(** A handler that raises, or removes itself, hides the event from others. *)
Theorem C135_told_refuted :
  (exists s, wrun 3000 500 upset 9 new_watched [WAdd; WAdd; status 5 1 1000] = Some s /\
     events (mo_log (wa_monitor s)) = [MNew 5] /\ wa_callbacks s = [0; 1]%nat /\ notices 1 (wa_calls s) = []) /\
  (exists s, wrun 3000 500 shy 9 new_watched [WAdd; WAdd; status 5 1 1000] = Some s /\
     events (mo_log (wa_monitor s)) = [MNew 5] /\ wa_callbacks s = [1]%nat /\ notices 1 (wa_calls s) = []).
Proof. split; eexists; (split; [vm_compute; reflexivity|]); vm_compute; repeat split. Qed.
Print Assumptions C135_told_refuted.

(** If it raises when a node goes offline, the status by which the node comes
    back is lost: the node was heard a second ago and is not listed. *)
Theorem C135_monitor_refuted : exists es s,
  wrun 3000 500 upset_offline 9 new_watched es = Some s /\ ~ In WClose es /\
  listed (monitored 3000 500 (inputs es)) 5 = true /\ listed (wa_monitor s) 5 = false.
Proof.
  exists [WAdd; status 5 1 1000; status 5 9 9000; tick 10000]. eexists. split; [vm_compute; reflexivity|].
  split; [intros I; cbn in I; clear - I; intuition discriminate|]. vm_compute. split; reflexivity.
Qed.
Print Assumptions C135_monitor_refuted.

(** A closed monitor goes on with the info responses it overhears. *)
Theorem C135_closed_refuted : exists s1 s2 s3,
  wrun 3000 500 calm 9 new_watched [WAdd] = Some s1 /\
  wstep 3000 500 calm 9 s1 WClose = Some (s2, None) /\
  wrun 3000 500 calm 9 s2 [info 5 1 1000; status 5 1 2000; tick 90000] = Some s3 /\
  notices 0 (wa_calls s3) = [MUpdate 5] /\ node_ids s1 = [] /\ node_ids s3 = [5]%N.
Proof.
  do 3 eexists. split; [vm_compute; reflexivity|]. split; [vm_compute; reflexivity|]. split; [vm_compute; reflexivity|].
  vm_compute. repeat split.
Qed.
Print Assumptions C135_closed_refuted.

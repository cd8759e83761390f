(** Properties of the allocation server on the node monitor. *)
From Verif.Base Require Import Prelude.
From Verif.Model Require Import Monitor Allocator AllocSystem.
From Verif.Spec Require Import MonitorSpec AllocatorSpec AllocSystemSpec.
From Verif.Proofs Require Import AllocSystemFacts.
Local Open Scope N_scope.

(** Cases. Device [b] has a unique id that starts with [b]; the info response
    [i] is that of device [i]. Times are in milliseconds. *)
Definition device (b : N) : uid := [b; 1; 2; 3; 4; 5; 6; 7; 8; 9; 10; 11; 12; 13; 14; 15].
Definition part (first : bool) (u : uid) (ts : Z) : sevent :=
  SMessage (Amsg 0 false first 0 u ts (ts + 1) ts true).
Definition asks_first (b : N) (ts : Z) : list sevent :=
  [part true [b; 1; 2; 3; 4; 5] ts; part false [6; 7; 8; 9; 10; 11] (ts + 10)].
Definition asks_last (ts : Z) : amsg := Amsg 0 false false 0 [12; 13; 14; 15] ts (ts + 1) ts true.
Definition session0 := sys_start device 3000 500 [] 127 (device 200) 0.
Definition session := sys_run device 3000 500 (fun _ => 0%nat) 500 1 125.
Definition after s m := sys_step device 3000 500 (fun _ => 0%nat) 500 1 125 s (SMessage m).
Definition status (n : N) (up : N) (ts : Z) : sevent := SMonitor (MStatus n up ts ts false) ts.

(** C136. The id of a node that has introduced itself on the bus is given to
    no device but the one that has it. *)
Theorem C136_in_use_partial : forall uid_of timeout min_retry tie query_timeout lo hi db own ou w evs0 evs m n u,
  hi <= 127 -> good_table db -> own <= 127 -> seven_bits (evs0 ++ for_monitor evs) ->
  seven_bits_asked evs -> am_node m <= 127 ->
  let s := sys_run uid_of timeout min_retry tie query_timeout lo hi
             (sys_start uid_of timeout min_retry db own ou w evs0) evs in
  sv_log (sy_srv (sys_step uid_of timeout min_retry tie query_timeout lo hi s (SMessage m)))
    = sv_log (sy_srv s) ++ [OAlloc n u] ->
  n = own \/ listed (monitored timeout min_retry evs0) n = true \/ came_introduced n (for_monitor evs) ->
  was_at uid_of db own ou (evs0 ++ for_monitor evs) (sv_log (sy_srv s)) n u.
Proof. exact in_use_kept. Qed.
Print Assumptions C136_in_use_partial.

(** Node 125 is there from the start, 124 comes and tells its unique id; then
    device 124 asks and is told its own id, and device 9 gets 123. *)
Definition events0 : list mevent := [MStatus 125 1 1000 1000 false; MInfo 125 1 125 1010 1010 true].
Definition events1 : list sevent :=
  [status 124 1 1100; SMonitor (MInfo 124 1 124 1110 1110 true) 1110] ++ asks_first 124 1200.
Definition events2 : list sevent := events1 ++ SMessage (asks_last 1220) :: asks_first 9 1300.
Example C136_in_use_case :
  let s := session (session0 events0) events1 in
  sv_log (sy_srv (after s (asks_last 1220))) = sv_log (sy_srv s) ++ [OAlloc 124 (device 124)] /\
  listed (monitored 3000 500 events0) 125 = true /\ came_introduced 124 (for_monitor events1) /\
  let s2 := session (session0 events0) events2 in
  sv_log (sy_srv (after s2 (asks_last 1320))) = sv_log (sy_srv s2) ++ [OAlloc 123 (device 9)].
Proof.
  cbn zeta. split; [vm_compute; reflexivity|]. split; [vm_compute; reflexivity|]. split.
  - exists [], (MStatus 124 1 1100 1100 false), [MInfo 124 1 124 1110 1110 true]. vm_compute. auto.
  - vm_compute. reflexivity.
Qed.

(** Nothing is allocated as long as a node on the bus has neither told who it
    is nor been asked ten times. *)
Theorem C136_waits : forall uid_of timeout min_retry tie query_timeout lo hi db own ou w evs0 evs m n u k,
  let s := sys_run uid_of timeout min_retry tie query_timeout lo hi
             (sys_start uid_of timeout min_retry db own ou w evs0) evs in
  sv_log (sy_srv (sys_step uid_of timeout min_retry tie query_timeout lo hi s (SMessage m)))
    = sv_log (sy_srv s) ++ [OAlloc n u] ->
  listed (sy_mon s) k = true ->
  (exists up i ts now text, In (MInfo k up i ts now text) (evs0 ++ for_monitor evs)) \/
  (10 <= length (asks k (mo_log (sy_mon s))))%nat.
Proof. exact allocation_waits. Qed.
Print Assumptions C136_waits.

(** Both ways of waiting: 125 has told who it is, 60 was asked ten times. *)
Definition silent60 : list sevent :=
  map (fun i => status 60 (N.of_nat i) (1000 + 600 * Z.of_nat i)) (seq 1 10).
Definition events3 : list sevent :=
  silent60 ++ SMonitor (MInfo 125 1 125 7010 7010 true) 7010 :: asks_first 9 7100.
Example C136_waits_case :
  let s := session (session0 []) events3 in
  sv_log (sy_srv (after s (asks_last 7120))) = sv_log (sy_srv s) ++ [OAlloc 124 (device 9)] /\
  listed (sy_mon s) 125 = true /\ listed (sy_mon s) 60 = true /\
  length (asks 60 (mo_log (sy_mon s))) = 10%nat /\
  let s1 := session (session0 []) (skipn 1 silent60 ++ asks_first 9 7100) in
  sv_log (sy_srv (after s1 (asks_last 7120))) = sv_log (sy_srv s1).
Proof. vm_compute. repeat split. Qed.

(** Without the introduction it fails: node 125 first asks this node for its
    info. The request is entered into the registry, but the handler raises
    before it reports the node, and the statuses that follow are not new. When
    it does not answer ten requests, its id is given to device 9, although its
    status comes every 600 ms. *)
Definition quiet125 : list sevent :=
  SMonitor (MRequest 125 1000 1000) 1000 ::
  map (fun i => status 125 (N.of_nat i) (1000 + 600 * Z.of_nat i)) (seq 1 10) ++ asks_first 9 7100.
Definition quiet_heard : list mevent := Eval vm_compute in for_monitor quiet125.
Theorem C136_in_use_refuted : exists evs m n u,
  let s := session (session0 []) evs in
  sv_log (sy_srv (after s m)) = sv_log (sy_srv s) ++ [OAlloc n u] /\
  listed (sy_mon s) n = true /\ length (uptimes n (for_monitor evs)) = 10%nat /\
  (forall up i ts now text, ~ In (MInfo n up i ts now text) (for_monitor evs)) /\
  ~ was_at device [] 127 (device 200) (for_monitor evs) (sv_log (sy_srv s)) n u.
Proof.
  exists quiet125, (asks_last 7120), 125, (device 9). cbn zeta.
  assert (E : for_monitor quiet125 = quiet_heard) by (vm_compute; reflexivity).
  assert (H : forall up i ts now text, ~ In (MInfo 125 up i ts now text) (for_monitor quiet125)).
  { intros up i ts now text I. rewrite E in I. unfold quiet_heard in I. clear - I. cbn in I. intuition discriminate. }
  assert (L : sv_log (sy_srv (session (session0 []) quiet125)) = [OQuery (firstn 6 (device 9)); OQuery (firstn 12 (device 9))])
    by (vm_compute; reflexivity).
  split; [vm_compute; reflexivity|]. split; [vm_compute; reflexivity|]. split; [vm_compute; reflexivity|].
  split; [exact H|]. intros [(w & [])|[(I & _)|[(up & i & ts & now & text & I & _)|I]]].
  - discriminate.
  - exact (H _ _ _ _ _ I).
  - rewrite L in I. clear - I. cbn in I. intuition discriminate.
Qed.
Print Assumptions C136_in_use_refuted.

(** The same with an info response whose name is not UTF-8 that is overheard
    first: node 125 tells that it is device 7, and its id is given to 9. *)
Definition named125 : list sevent :=
  SMonitor (MInfo 125 1 7 1000 1000 false) 1000 :: status 125 2 1600 :: asks_first 9 1700.
Theorem C136_name_refuted : exists evs m n u,
  let s := session (session0 []) evs in
  sv_log (sy_srv (after s m)) = sv_log (sy_srv s) ++ [OAlloc n u] /\
  listed (sy_mon s) n = true /\
  (exists up i ts now, In (MInfo n up i ts now false) (for_monitor evs) /\ identifies (device i) = true) /\
  ~ was_at device [] 127 (device 200) (for_monitor evs) (sv_log (sy_srv s)) n u.
Proof.
  exists named125, (asks_last 1720), 125, (device 9). cbn zeta.
  assert (E : for_monitor named125 = [MInfo 125 1 7 1000 1000 false; MStatus 125 2 1600 1600 false])
    by (vm_compute; reflexivity).
  assert (L : sv_log (sy_srv (session (session0 []) named125)) = [OQuery (firstn 6 (device 9)); OQuery (firstn 12 (device 9))])
    by (vm_compute; reflexivity).
  split; [vm_compute; reflexivity|]. split; [vm_compute; reflexivity|]. rewrite E, L. split.
  - exists 1, 7, 1000%Z, 1000%Z. split; [left; reflexivity|reflexivity].
  - intros [(w & [])|[(I & _)|[(up & i & ts & now & text & [I|[I|[]]] & U)|I]]]; try discriminate.
    + injection I as _ <- _ _ _. discriminate U.
    + clear - I. cbn in I. intuition discriminate.
Qed.
Print Assumptions C136_name_refuted.

(** Properties of the dynamic node id allocator. *)
From Verif.Base Require Import Prelude.
From Verif.Model Require Import Allocator.
From Verif.Spec Require Import AllocatorSpec.
From Verif.Proofs Require Import AllocatorFacts.
Local Open Scope N_scope.

(** Cases: device [A] asks for an id in three messages; then [B]. *)
Definition part (first : bool) (req : N) (u : uid) (ts : Z) : aevent :=
  AMessage (Amsg 0 true first req u ts (ts + 1) (ts / 10) true).
Definition ask (req : N) (b : N) (ts : Z) : list aevent :=
  [part true req [b; 1; 2; 3; 4; 5] ts; part false req [6; 7; 8; 9; 10; 11] (ts + 10);
   part false req [12; 13; 14; 15] (ts + 20)].
Definition device (b : N) : uid := [b; 1; 2; 3; 4; 5; 6; 7; 8; 9; 10; 11; 12; 13; 14; 15].
Definition tie0 (_ : list N) : nat := 0.
Definition session := served tie0 500 1 125.
Definition fresh : server := Server [] [] 0 [].

(** C34. An id is allocated only if nothing was said about it before, or if
    it belongs to the device already; so no two devices get the same id. *)
Theorem C34_owner : forall tie timeout lo hi t q ts evs n u l1 l2,
  hi <= 127 -> good_table t -> Forall good_event evs ->
  sv_log (served tie timeout lo hi (Server t q ts []) evs) = l1 ++ OAlloc n u :: l2 ->
  said t l1 n = [] \/ belongs t l1 n = Some u.
Proof. exact alloc_owner. Qed.
Print Assumptions C34_owner.

Theorem C34_unique : forall tie timeout lo hi t q ts evs n u1 u2,
  hi <= 127 -> good_table t -> Forall good_event evs ->
  let l := sv_log (served tie timeout lo hi (Server t q ts []) evs) in
  In (OAlloc n u1) l -> In (OAlloc n u2) l ->
  identifies u1 = true -> identifies u2 = true -> u1 = u2.
Proof. exact alloc_unique. Qed.
Print Assumptions C34_unique.

(** The allocator's own id and the ids of the nodes it has seen are given to
    no one else. *)
Theorem C34_spares : forall tie timeout lo hi db own ou w known evs n u,
  hi <= 127 -> good_table db -> own <= 127 ->
  Forall (fun e : N * option uid * Z => fst (fst e) <= 127) known ->
  NoDup (own :: map (fun e => fst (fst e)) known) -> Forall good_event evs ->
  identifies u = true ->
  In (OAlloc n u) (sv_log (served tie timeout lo hi (start db own ou w known) evs)) ->
  (n = own -> identifies ou = true -> u = ou) /\
  (forall v w', In (n, Some v, w') known -> identifies v = true -> u = v).
Proof. exact alloc_spares. Qed.
Print Assumptions C34_spares.

Example C34_case :
  let evs := ask 0 100 1000 ++ [AMonitor false 124 (Some (device 9)) 150] ++ ask 125 101 2000
             ++ ask 0 102 3000 ++ ask 20 100 4000 in
  let s := session fresh evs in
  good_table [] /\ Forall good_event evs /\
  In (OAlloc 125 (device 100)) (sv_log s) /\
  given_to (device 100) (sv_log s) = [125; 125] /\
  given_to (device 101) (sv_log s) = [123] /\ given_to (device 102) (sv_log s) = [122] /\
  identifies (device 100) = true.
Proof.
  cbv zeta. split; [split; [constructor|intros ? ? ? []]|]. split; [repeat constructor; cbn; lia|].
  vm_compute. tauto.
Qed.
Print Assumptions C34_case.

(** C35. A device that is seen at no other id gets the id it was given first. *)
Theorem C35_stable_partial : forall tie timeout lo hi t q ts evs u n r,
  hi <= 127 -> good_table t -> Forall good_event evs ->
  identifies u = true -> only_at t evs u n ->
  given_to u (sv_log (served tie timeout lo hi (Server t q ts []) evs)) = n :: r ->
  forall n', In n' r -> n' = n.
Proof. exact alloc_stable. Qed.
Print Assumptions C35_stable_partial.

Example C35_case :
  let evs := ask 0 100 1000 ++ [AMonitor false 125 (Some (device 100)) 150] ++ ask 0 101 2000 ++ ask 20 100 4000 in
  only_at [] evs (device 100) 125 /\
  given_to (device 100) (sv_log (session fresh evs)) = [125; 125].
Proof.
  cbv zeta. split; [|vm_compute; reflexivity].
  split; [intros ? ? []|]. intros n' w H. cbn in H.
  repeat (destruct H as [H|H]; [try discriminate H; injection H; intros; subst; reflexivity|]). destruct H.
Qed.
Print Assumptions C35_case.

(** Without that, a device that was once seen at a different id gets that id. *)
Theorem C35_stable_refuted :
  exists evs n r, Forall good_event evs /\
    given_to (device 100) (sv_log (session fresh evs)) = n :: r /\ exists n', In n' r /\ n' <> n.
Proof.
  exists (ask 0 100 1000 ++ [AMonitor false 30 (Some (device 100)) 150] ++ ask 0 100 2000), 125, [30].
  split; [repeat constructor; cbn; lia|]. split; [vm_compute; reflexivity|].
  exists 30. split; [left; reflexivity|discriminate].
Qed.
Print Assumptions C35_stable_refuted.

(** C36. If nothing below the range is asked for, new ids are in the range;
    and a complete request is granted unless all ids of the range but the
    lowest are taken. *)
Theorem C36_range_partial : forall tie timeout lo hi t q ts evs n u l1 l2,
  hi <= 127 -> good_table t -> Forall good_event evs ->
  (forall m, In (AMessage m) evs -> am_node m = 0 \/ lo <= am_node m) ->
  sv_log (served tie timeout lo hi (Server t q ts []) evs) = l1 ++ OAlloc n u :: l2 ->
  (lo <= n <= hi /\ n <> 0) \/ belongs t l1 n = Some u.
Proof. exact alloc_range. Qed.
Print Assumptions C36_range_partial.

Theorem C36_granted_partial : forall tie timeout lo hi t q ts evs m1 m2 m3,
  hi <= 127 -> good_table t -> Forall good_event evs ->
  heeded m1 -> heeded m2 -> heeded m3 ->
  am_first m1 = true -> am_first m2 = false -> am_first m3 = false ->
  length (am_uid m1) = 6%nat -> length (am_uid m2) = 6%nat -> length (am_uid m3) = 4%nat ->
  (am_now m2 - am_ts m1 <= timeout)%Z -> (am_now m3 - am_ts m2 <= timeout)%Z ->
  let l := sv_log (served tie timeout lo hi (Server t q ts []) evs) in
  let l' := sv_log (served tie timeout lo hi (Server t q ts [])
                           (evs ++ [AMessage m1; AMessage m2; AMessage m3])) in
  let u := am_uid m1 ++ am_uid m2 ++ am_uid m3 in
  let asked := l ++ [OQuery (am_uid m1); OQuery (am_uid m1 ++ am_uid m2)] in
  (exists n, l' = asked ++ [OAlloc n u]) \/
  (l' = asked /\ forall n, lo < n <= hi -> said t l n <> []).
Proof. exact handshake. Qed.
Print Assumptions C36_granted_partial.

Example C36_case :
  let l := sv_log (served tie0 500 10 12 fresh (ask 11 100 1000 ++ ask 11 101 2000 ++ ask 0 102 3000)) in
  given_to (device 100) l = [11] /\ given_to (device 101) l = [12] /\ given_to (device 102) l = [] /\
  said [] l 11 <> [] /\ said [] l 12 <> [].
Proof. vm_compute. repeat split; discriminate. Qed.
Print Assumptions C36_case.

(** An id below the range is given if it is asked for; and the lowest id of
    the range is not given though it is free. *)
Theorem C36_range_refuted :
  (exists evs, In (OAlloc 5 (device 100)) (sv_log (served tie0 500 10 12 fresh evs))) /\
  (exists evs, let l := sv_log (served tie0 500 10 12 fresh evs) in
     let l' := sv_log (served tie0 500 10 12 fresh (evs ++ ask 0 102 3000)) in
     said [] l 10 = [] /\ given_to (device 102) l' = []).
Proof.
  split.
  - exists (ask 5 100 1000). vm_compute. tauto.
  - exists (ask 0 100 1000 ++ ask 0 101 2000). vm_compute. split; reflexivity.
Qed.
Print Assumptions C36_range_refuted.

(** C75. The unique id of an allocation was received in parts, from anonymous
    nodes, in order, each in time and none used twice. *)
Theorem C75_assembled : forall tie timeout lo hi t evs n u,
  In (OAlloc n u) (sv_log (served tie timeout lo hi (Server t [] 0 []) evs)) ->
  exists a m b q ts, evs = a ++ AMessage m :: b /\ collected timeout a q ts /\ heeded m /\
    am_first m = false /\ length q = 12%nat /\ length (am_uid m) = 4%nat /\
    (am_now m - ts <= timeout)%Z /\ u = q ++ am_uid m.
Proof. exact alloc_assembled. Qed.
Print Assumptions C75_assembled.

(** A late, a foreign and a repeated last part get nothing. *)
Example C75_case :
  let p := ask 0 100 1000 in
  let last ts := part false 0 [12; 13; 14; 15] ts in
  let count evs := length (given_to (device 100) (sv_log (session fresh evs))) in
  count p = 1%nat /\
  count (p ++ [last 1030%Z]) = 1%nat /\
  count (firstn 2 p ++ [last 1600%Z]) = 0%nat /\
  count (firstn 2 p ++ firstn 1 (ask 0 101 1015) ++ [last 1020%Z]) = 0%nat /\
  count (skipn 1 p) = 0%nat.
Proof. vm_compute. repeat split. Qed.
Print Assumptions C75_case.

(** C76. After a restart on the same database a device on record gets its id
    again, and no other device gets it, if the monitor and the own node do not
    say otherwise. *)
Theorem C76_stable_partial : forall tie timeout lo hi db own ou w known evs n u wr,
  hi <= 127 -> good_table db -> own <= 127 ->
  Forall (fun e : N * option uid * Z => fst (fst e) <= 127) known -> Forall good_event evs ->
  identifies u = true -> n <> 0 -> In (n, (Some u, wr)) db -> only_at db evs u n ->
  n <> own -> ou <> u ->
  (forall v w', In (n, v, w') known -> v = Some u) ->
  (forall n' w', In (n', Some u, w') known -> n' = n) ->
  forall n', In n' (given_to u (sv_log (served tie timeout lo hi (start db own ou w known) evs))) -> n' = n.
Proof. exact alloc_restart. Qed.
Print Assumptions C76_stable_partial.

Theorem C76_owner_partial : forall tie timeout lo hi db own ou w known evs n u v wr,
  hi <= 127 -> good_table db -> own <= 127 ->
  Forall (fun e : N * option uid * Z => fst (fst e) <= 127) known -> Forall good_event evs ->
  In (n, (Some v, wr)) db -> n <> own ->
  ~ In n (map (fun e => fst (fst e)) known) ->
  In (OAlloc n u) (sv_log (served tie timeout lo hi (start db own ou w known) evs)) -> u = v.
Proof. exact restart_owner. Qed.
Print Assumptions C76_owner_partial.

Example C76_case :
  let db := sv_table (session fresh (ask 0 100 1000)) in
  let l := sv_log (session (start db 126 (device 50) 500 [(30, None, 501%Z)]) (ask 30 100 6000 ++ ask 125 101 7000)) in
  In (125, (Some (device 100), 102%Z)) db /\
  given_to (device 100) l = [125] /\ given_to (device 101) l = [124].
Proof. vm_compute. tauto. Qed.
Print Assumptions C76_case.

(** Over a restart: the table at the end of a session is the database of the
    next, but the constructor replaces rows by what the monitor says; so a
    second device may get the id of the first. *)
Theorem C76_restart_refuted :
  exists evs1 known evs2,
    let s1 := session fresh evs1 in
    let s2 := session (start (sv_table s1) 126 (device 50) 160 known) evs2 in
    Forall good_event (evs1 ++ evs2) /\
    In (OAlloc 125 (device 100)) (sv_log s1) /\ In (OAlloc 125 (device 101)) (sv_log s2).
Proof.
  exists (ask 0 100 1000), [(125, Some (device 101), 170%Z)], (ask 0 101 2000).
  cbv zeta. split; [repeat constructor; cbn; lia|]. vm_compute. tauto.
Qed.
Print Assumptions C76_restart_refuted.

(** And a monitor that has no information yet at the restart erases the device
    from the table, so that it is given a new id. *)
Theorem C76_erased_refuted :
  exists evs1 evs2,
    let s1 := session fresh evs1 in
    let s2 := session (start (sv_table s1) 126 (device 50) 160 [(125, None, 170%Z)]) evs2 in
    Forall good_event (evs1 ++ evs2) /\
    given_to (device 100) (sv_log s1) = [125] /\ given_to (device 100) (sv_log s2) = [124].
Proof.
  exists (ask 0 100 1000), (ask 0 100 2000).
  cbv zeta. split; [repeat constructor; cbn; lia|]. vm_compute. split; reflexivity.
Qed.
Print Assumptions C76_erased_refuted.

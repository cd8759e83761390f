(** C161: what [find_all] of the node monitor finds. *)
From Verif.Base Require Import Prelude.
From Verif.Model Require Import Monitor FindAll.
From Verif.Spec Require Import ReassemblySpec.
From Verif.Proofs Require Import FindAllFacts.
Local Open Scope Z_scope.

(** Two nodes, one of them with its info. *)
Definition found_evs := [MStatus 5 10 0 0 false; MStatus 6 20 0 0 false; MInfo 6 21 77 100 100 true; MStatus 7 30 150 150 false].
Definition found_state := monitored 3000 500 found_evs.
Definition unknown (n : N) (e : entry) : bool := match en_info e with None => true | Some _ => false end.

(** Taken at once, as [list] does: the entries that satisfy the predicate, all
    of them, in order, and the monitor is as before. *)
Theorem C161_at_once : forall timeout min_retry p evs, let s := monitored timeout min_retry evs in
  find_all timeout min_retry p s [] = (s, filter (fun r => p (fst r) (snd r)) (mo_registry s), Finished).
Proof. exact all_found. Qed.
Print Assumptions C161_at_once.
Example C161_at_once_case : map fst (snd (fst (find_all 3000 500 unknown found_state []))) = [5; 7]%N /\ map fst (mo_registry found_state) = [5; 6; 7]%N.
Proof. vm_compute. split; reflexivity. Qed.

(** So "all nodes are discovered" means that of each the info is known or no
    attempt to get it is left. *)
Theorem C161_discovered : forall timeout min_retry evs, let s := monitored timeout min_retry evs in
  are_all_discovered timeout min_retry s = true <-> forall n e, In (n, e) (mo_registry s) -> en_info e <> None \/ en_retries e = O.
Proof. exact discovered_all. Qed.
Print Assumptions C161_discovered.
Example C161_discovered_case : are_all_discovered 3000 500 found_state = false /\
  are_all_discovered 3000 500 (monitored 3000 500 (found_evs ++ [MInfo 5 11 78 200 200 true; MInfo 7 31 79 200 200 true])) = true.
Proof. vm_compute. split; reflexivity. Qed.

(** Taken one by one while the monitor goes on: entries that satisfied the
    predicate throughout are missing if a node appears in between. *)
Theorem C161_one_by_one_refuted : exists timeout min_retry p evs between s' l n,
  let s := monitored timeout min_retry evs in
  find_all timeout min_retry p s between = (s', l, Raised RuntimeError) /\
  (forall k, exists e, dget N.eqb (mo_registry (fold_left (mstep timeout min_retry) (concat (firstn k between)) s)) n = Some e /\ p n e = true) /\
  ~ In n (map fst l).
Proof.
  exists 3000, 500, (fun _ _ => true), found_evs, [[MStatus 8 1 200 200 false]].
  eexists. eexists. exists 6%N. cbv zeta. split; [vm_compute; reflexivity|]. split.
  - intros [|[|k]]; eexists; (split; [vm_compute; reflexivity|reflexivity]).
  - cbn. intros [H|[]]. discriminate.
Qed.
Print Assumptions C161_one_by_one_refuted.

(** What holds then: each node comes once and in order, with an entry that
    satisfied the predicate when it was reached. *)
Theorem C161_right_partial : forall timeout min_retry p s between s' l r, find_all timeout min_retry p s between = (s', l, r) ->
  subsequence (map fst l) (map fst (mo_registry s)) /\
  forall n e, In (n, e) l -> p n e = true /\
    exists k, (k < length l)%nat /\ dget N.eqb (mo_registry (fold_left (mstep timeout min_retry) (concat (firstn k between)) s)) n = Some e.
Proof. intros timeout min_retry p s between s' l r. apply from_yields. Qed.
Print Assumptions C161_right_partial.
(** And if it comes to the end without an exception, no node that satisfied it
    throughout is missing. *)
Theorem C161_done_partial : forall timeout min_retry p s between s' l, find_all timeout min_retry p s between = (s', l, Finished) ->
  forall n, In n (map fst (mo_registry s)) ->
  (forall k e, dget N.eqb (mo_registry (fold_left (mstep timeout min_retry) (concat (firstn k between)) s)) n = Some e -> p n e = true) -> In n (map fst l).
Proof. intros timeout min_retry p s between s' l. apply from_done. Qed.
Print Assumptions C161_done_partial.
(** The info of node 7 comes while the caller has the entry of node 5. *)
Example C161_done_case : let r := find_all 3000 500 unknown found_state [[MInfo 7 31 79 200 200 true]] in
  snd r = Finished /\ map fst (snd (fst r)) = [5%N] /\ map fst (mo_registry (fst (fst r))) = [5; 6; 7]%N.
Proof. vm_compute. repeat split. Qed.

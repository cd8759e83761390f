(** C158: the examples go on when another node is online. *)
From Verif.Base Require Import Prelude.
From Verif.Model Require Import Monitor Waiting.
From Verif.Spec Require Import WaitSpec.
From Verif.Proofs Require Import WaitFacts.

Definition ex_status (n : N) (t : Z) : mevent := MStatus n 5 t t false.

(** The loop ends after the first call of [spin] that leaves enough nodes
    listed, and does nothing more. *)
Theorem C158_first : forall timeout min_retry least spins s s' rest, wait timeout min_retry least s spins = Some (s', rest) <->
  exists pre, spins = pre ++ rest /\ s' = fold_left (mstep timeout min_retry) (concat pre) s /\ least <= length (map fst (mo_registry s')) /\
    forall p q, pre = p ++ q -> q <> [] -> length (map fst (mo_registry (fold_left (mstep timeout min_retry) (concat p) s))) < least.
Proof. exact wait_first. Qed.
Print Assumptions C158_first.
Example C158_first_ex :
  match wait 1000 5 1 (Monitor [] []) [[MTick (fun _ => 3%Z)]; [ex_status 9 4]; [ex_status 10 5]] with
  | Some (s, rest) => all_node_id s = [9%N] /\ rest = [[ex_status 10 5]]
  | None => False
  end.
Proof. vm_compute. split; reflexivity. Qed.

(** The ESC examples wait for at least one other node, as their comments say:
    false, one is not enough, however often it is heard. *)
Theorem C158_esc_refuted : exists n : N, forall timeout min_retry k t, k <> 0 ->
  (forall evs, In evs (repeat [ex_status n t] k) -> exists e, In e evs /\ came_from n e) /\
  esc_wait timeout min_retry (repeat [ex_status n t] k) = None.
Proof.
  exists 9%N. intros timeout min_retry k t _. split.
  - intros evs H. apply repeat_spec in H as ->. exists (ex_status 9 t). split; [left; reflexivity|reflexivity].
  - apply (esc_alone timeout min_retry 9%N). apply Forall_forall. intros evs H. apply repeat_spec in H as ->.
    constructor; [|constructor]. intros m H. symmetry. exact H.
Qed.
Print Assumptions C158_esc_refuted.
Theorem C158_alone : forall timeout min_retry n spins, Forall (Forall (only n)) spins -> esc_wait timeout min_retry spins = None.
Proof. exact esc_alone. Qed.
Print Assumptions C158_alone.
Example C158_alone_ex : Forall (Forall (only 9)) [[ex_status 9 4; MInfo 9 1 1 5 5 true]; [MTick (fun _ => 6%Z); ex_status 9 7]].
Proof. repeat (constructor; [repeat (constructor; [intros m H; cbn in H; congruence || contradiction|]); constructor|]). constructor. Qed.

(** Two are, if the second is heard right after the first at the end of a
    call. *)
Theorem C158_two_partial : forall timeout min_retry pre evs n up ts now an n' up' ts' now' an' post, n <> n' ->
  exists r, esc_wait timeout min_retry (pre ++ (evs ++ [MStatus n up ts now an; MStatus n' up' ts' now' an']) :: post) = Some r.
Proof. exact esc_returns. Qed.
Print Assumptions C158_two_partial.
Example C158_two_ex : match esc_wait 1000 5 [[ex_status 9 4]; [ex_status 9 8; ex_status 10 9]; []] with
  | Some (s, rest) => all_node_id s = [9%N; 10%N] /\ rest = [[]] | None => False end.
Proof. vm_compute. split; reflexivity. Qed.

(** For the two other examples one is enough. *)
Theorem C158_other_partial : forall timeout min_retry pre evs n up ts now an post,
  exists r, other_wait timeout min_retry (pre ++ (evs ++ [MStatus n up ts now an]) :: post) = Some r.
Proof. exact other_returns. Qed.
Print Assumptions C158_other_partial.
Example C158_other_ex : match other_wait 1000 5 [[]; [ex_status 9 8]; []] with
  | Some (s, rest) => all_node_id s = [9%N] /\ rest = [[]] | None => False end.
Proof. vm_compute. split; reflexivity. Qed.

(** Each of the nodes counted is another one, and has been heard. *)
Theorem C158_listed : forall timeout min_retry least spins s' rest, wait timeout min_retry least (Monitor [] []) spins = Some (s', rest) ->
  NoDup (map fst (mo_registry s')) /\
  forall m, In m (map fst (mo_registry s')) -> exists evs e, In evs spins /\ In e evs /\ came_from m e.
Proof. exact wait_listed. Qed.
Print Assumptions C158_listed.
Example C158_listed_ex : exists r, wait 1000 5 2 (Monitor [] []) [[ex_status 9 4; ex_status 9 5; ex_status 10 6]] = Some r.
Proof. eexists. vm_compute. reflexivity. Qed.

(** The firmware example updates the node given, or else one that was heard. *)
Theorem C158_target : forall timeout min_retry spins s' rest, other_wait timeout min_retry spins = Some (s', rest) ->
  (exists n evs e, target (-1) s' = Some (Z.of_N n) /\ In evs spins /\ In e evs /\ came_from n e) /\
  forall given, given <> (-1)%Z -> target given s' = Some given.
Proof. exact updated. Qed.
Print Assumptions C158_target.
Example C158_target_ex : match other_wait 1000 5 [[]; [ex_status 9 8; ex_status 4 8]] with
  | Some (s, _) => target (-1) s = Some 9%Z /\ target 77 s = Some 77%Z | None => False end.
Proof. vm_compute. split; reflexivity. Qed.

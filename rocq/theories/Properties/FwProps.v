(** The firmware update program: C129. *)
From Verif.Base Require Import Prelude.
From Verif.Model Require Import FwUpdate.
From Verif.Spec Require Import FwSpec.
From Verif.Proofs Require Import FwFacts.
Local Open Scope Z_scope.

(** C129: the loop is left just when the target has been in update mode and
    then in another. *)
Theorem C129_ends : forall target t sent evs, let s := run target (begin t sent) evs in u_raised s = None ->
  finished s = true <-> exists t1 t2, updated target evs t1 t2.
Proof. exact ends. Qed.
Print Assumptions C129_ends.

(** The time printed first is the time from the first status in update mode to
    the first one after it in another. *)
Theorem C129_elapsed : forall target t sent evs d l, let s := run target (begin t sent) evs in u_raised s = None ->
  printed (u_log s) = d :: l -> exists t1 t2, updated target evs t1 t2 /\ d = t2 - t1.
Proof. exact elapsed. Qed.
Print Assumptions C129_elapsed.

(** Every request but the first follows, by four seconds or more, an answer
    other than "in progress" to the request before; an answer follows its
    request. So at most one request waits at any time. *)
Theorem C129_paced : forall target t sent evs, let l := talk (u_log (run target (begin t sent) evs)) in
  (forall l1 t l2, l = l1 ++ LRequest t :: l2 ->
     l1 = [] \/ exists l0 t0 e, l1 = l0 ++ [LAnswer t0 (Some e)] /\ e <> 2%N /\ t0 + 4000 <= t) /\
  (forall l1 t e l2, l = l1 ++ LAnswer t e :: l2 -> exists l0 t0, l1 = l0 ++ [LRequest t0]).
Proof. intros target t sent evs. exact (proj2 (run_good target t sent evs)). Qed.
Print Assumptions C129_paced.

(** No request is sent once the target has been seen in update mode. *)
Theorem C129_stops : forall target t sent evs more, seen_updating target evs ->
  requests (u_log (run target (begin t sent) (evs ++ more))) = requests (u_log (run target (begin t sent) evs)).
Proof. exact asks_until. Qed.
Print Assumptions C129_stops.

(** Only an exception of a request, and not [TransferError], ends the program
    otherwise. *)
Theorem C129_survives : forall target t evs, (forall t x, In (EDue t (Err x)) evs -> x = TransferError) ->
  u_raised (run target (begin t (Ok tt)) evs) = None.
Proof. exact survives. Qed.
Print Assumptions C129_survives.

(** The first request is made outside the loop: any exception of it, also
    [TransferError], ends the program, with nothing sent. *)
Theorem C129_first : forall target t x evs, let s := run target (begin t (Err x)) evs in
  u_raised s = Some x /\ u_log s = [] /\ finished s = false.
Proof. exact first_raises. Qed.
Print Assumptions C129_first.
Example C129_first_case : u_raised (begin 5 (Err TransferError)) = Some TransferError /\
  u_raised (run 42 (begin 0 (Ok tt)) [EAnswer 600 (Some 255%N); EDue 4650 (Err TransferError)]) = None.
Proof. split; reflexivity. Qed.

(** After an answer other than "in progress" the next request is sent, at the
    first opportunity after four seconds, unless the update has begun. *)
Theorem C129_asks_again_partial : forall target t sent evs l tr t0 e mid t1,
  let s := run target (begin t sent) evs in
  let s' := run target (begin t sent) (evs ++ EAnswer t0 (Some e) :: mid) in
  u_raised s = None -> talk (u_log s) = l ++ [LRequest tr] -> e <> 2%N -> ~ seen_updating target (evs ++ mid) ->
  (forall t r, In (EDue t r) mid -> t < t0 + 4000) -> t0 + 4000 <= t1 ->
  u_log (run target (begin t sent) ((evs ++ EAnswer t0 (Some e) :: mid) ++ [EDue t1 (Ok tt)])) = u_log s' ++ [LRequest t1].
Proof. exact asks_again. Qed.
Print Assumptions C129_asks_again_partial.

(** But after a request without an answer, or one that is "in progress", none
    is ever sent again. *)
Theorem C129_gives_up : forall target t sent evs l ta er more, let s := run target (begin t sent) evs in
  talk (u_log s) = l ++ [LAnswer ta er] -> er = None \/ er = Some 2%N ->
  requests (u_log (run target (begin t sent) (evs ++ more))) = requests (u_log s).
Proof. exact gives_up. Qed.
Print Assumptions C129_gives_up.
(** So the program does not go on asking until the update begins: one lost
    frame, and it waits for ever for a target that does nothing. *)
Theorem C129_asks_again_refuted : exists target t evs, ~ seen_updating target evs /\
  u_raised (run target (begin t (Ok tt)) evs) = None /\
  forall more, requests (u_log (run target (begin t (Ok tt)) (evs ++ more))) = [LRequest t] /\
    (~ seen_updating target more -> u_raised (run target (begin t (Ok tt)) (evs ++ more)) = None ->
     finished (run target (begin t (Ok tt)) (evs ++ more)) = false).
Proof.
  exists 42%N, 0, [EAnswer 1000 None]. split; [intros (t & [])|]. split; [reflexivity|]. intros more. split.
  - rewrite (C129_gives_up 42 0 (Ok tt) [EAnswer 1000 None] [LRequest 0] 1000 None more); [reflexivity|reflexivity|left; reflexivity].
  - intros Hs R. pose proof (C129_ends 42 0 (Ok tt) ([EAnswer 1000 None] ++ more) R) as H.
    destruct (finished (run 42 (begin 0 (Ok tt)) ([EAnswer 1000 None] ++ more))); [|reflexivity].
    destruct (proj1 H eq_refl) as (t1 & t2 & p & q & r & m & E & _). exfalso. apply Hs. exists t1.
    cbn [app statuses flat_map] in E. unfold statuses. rewrite E. apply in_or_app. right. left. reflexivity.
Qed.
Print Assumptions C129_asks_again_refuted.

(** The target refuses at first, is asked again, and updates; statuses of
    another node come in between. *)
Definition fw_events :=
  [EStatus 500 (Some 42%N) 0; EAnswer 600 (Some 255%N); EStatus 700 (Some 7%N) 3; EDue 3000 (Ok tt); ETransferError;
   EDue 4650 (Ok tt); EAnswer 4700 (Some 0%N); EStatus 5000 (Some 42%N) 3; EDue 8800 (Ok tt); EStatus 9000 (Some 42%N) 3;
   EStatus 20000 (Some 7%N) 0; EStatus 21000 (Some 42%N) 0].
Example C129_case : let s := run 42 (begin 0 (Ok tt)) fw_events in
  u_raised s = None /\ finished s = true /\
  u_log s = [LRequest 0; LAnswer 600 (Some 255%N); LRequest 4650; LAnswer 4700 (Some 0%N); LComplete 16000] /\
  finished (run 42 (begin 0 (Ok tt)) (removelast fw_events)) = false /\
  updated 42 fw_events 5000 21000.
Proof.
  repeat (split; [vm_compute; reflexivity|]). exists [(500, 0%N)], [(9000, 3%N)], [], 0%N.
  split; [vm_compute; reflexivity|]. repeat split; repeat constructor; discriminate.
Qed.
Print Assumptions C129_case.
Example C129_again_case :
  let evs := [EStatus 500 (Some 42%N) 0] in let mid := [EStatus 700 (Some 7%N) 3; EDue 3000 (Ok tt); ETransferError] in
  talk (u_log (run 42 (begin 0 (Ok tt)) evs)) = [] ++ [LRequest 0] /\ ~ seen_updating 42 (evs ++ mid).
Proof. split; [vm_compute; reflexivity|]. intros (t & [H|[]]). discriminate. Qed.
Print Assumptions C129_again_case.

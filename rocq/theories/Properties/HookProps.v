(** C66: I/O hooks. [beh] is what hooks do, any function of the calls of hooks
    so far; [run] is a history of arrivals, receptions, transmissions and
    registrations ([None] if hooks add hooks for ever). *)
From Verif.Base Require Import Prelude.
From Verif.Model Require Import CanFrame Hooks.
From Verif.Spec Require Import HookSpec.
From Verif.Proofs Require Import HookFacts.

Definition frame_a := CFrame 1%N [1]%N true false 0.
Definition frame_b := CFrame 2%N [2]%N true false 0.
Definition all_raise (log : list hook_call) : list hook_op * bool := ([], true).
(** The first hook removes itself. *)
Definition once (log : list hook_call) : list hook_op * bool :=
  match last log (0%nat, RX, frame_a) with (h, _, _) => if Nat.eqb h 0 then ([HRemove 0], false) else ([], false) end.

(** One call: if no hook removes a hook, all registered ones are called, in
    the order of registration, then those that were added meanwhile; whether
    they raise does not matter. *)
Theorem C66_every_hook_partial : forall beh fuel k d f k', never_removes beh ->
  call_io_hooks beh fuel k 0 d f = Some k' ->
  exists added, hk_log k' = hk_log k ++ map (fun h => (h, d, f)) (hk_list k ++ added) /\
    Forall (fun h => (hk_next k <= h)%nat) added.
Proof.
  intros beh fuel k d f k' NR E. destruct (call_sees beh fuel NR k 0 d f k' E) as (A & _ & added & C & D).
  exists added. split; [|exact D]. rewrite A. cbn [skipn]. rewrite C. reflexivity.
Qed.
Print Assumptions C66_every_hook_partial.

(** It ends unless hooks add hooks. *)
Theorem C66_ends : forall beh fuel k d f, never_adds beh -> (length (hk_list k) < fuel)%nat ->
  exists k', call_io_hooks beh fuel k 0 d f = Some k'.
Proof. intros beh fuel k d f NA L. apply (call_ends beh NA). lia. Qed.
Print Assumptions C66_ends.

(** A hook that removes itself hides the frame from the next one. *)
Theorem C66_every_hook_refuted : exists beh fuel k d f k' h,
  call_io_hooks beh fuel k 0 d f = Some k' /\ hk_log k = [] /\ In h (hk_list k) /\ In h (hk_list k') /\
  ~ In (h, d, f) (hk_log k').
Proof.
  exists once, 9%nat, {| hk_list := [0; 1]%nat; hk_next := 2; hk_log := [] |}, RX, frame_a.
  eexists. exists 1%nat. split; [vm_compute; reflexivity|]. split; [reflexivity|]. split; [cbn; auto|]. split; [cbn; auto|].
  cbn. intros [E|[]]. discriminate.
Qed.
Print Assumptions C66_every_hook_refuted.

(** Over a history: a hook sees every frame that is received after its
    registration, once, in order, with every driver except that for files;
    and what is received is what arrived, in order. *)
Theorem C66_received_partial : forall beh kind capacity fuel es1 es2 s1 s2, never_removes beh -> kind <> NoHooks ->
  run beh kind capacity fuel new_driver es1 = Some s1 ->
  let h := hk_next (dr_hooks s1) in
  ~ In (ERemoveHook h) es2 ->
  run beh kind capacity fuel s1 (EAddHook :: es2) = Some s2 ->
  dr_got s2 = dr_got s1 ++ seen h RX (hk_log (dr_hooks s2)) /\
  dr_got s2 ++ dr_rx s2 = arrivals (es1 ++ EAddHook :: es2).
Proof.
  intros beh kind capacity fuel es1 es2 s1 s2 NR K R1 h NI R2. split.
  - exact (proj1 (registered beh kind capacity fuel es1 es2 s1 s2 NR R1 NI R2) K).
  - apply run_rx in R1. apply run_rx in R2. rewrite R2, app_assoc, R1. cbn [app dr_got dr_rx new_driver].
    unfold arrivals. rewrite flat_map_app. reflexivity.
Qed.
Print Assumptions C66_received_partial.

(** With SLCAN it sees every frame taken for transmission. *)
Theorem C66_slcan_sent : forall beh capacity fuel es1 es2 s1 s2, never_removes beh ->
  run beh QueueFirst capacity fuel new_driver es1 = Some s1 ->
  let h := hk_next (dr_hooks s1) in
  ~ In (ERemoveHook h) es2 ->
  run beh QueueFirst capacity fuel s1 (EAddHook :: es2) = Some s2 ->
  dr_accepted s2 = dr_accepted s1 ++ seen h TX (hk_log (dr_hooks s2)).
Proof.
  intros beh capacity fuel es1 es2 s1 s2 NR R1 h NI R2.
  exact (proj1 (proj2 (registered beh QueueFirst capacity fuel es1 es2 s1 s2 NR R1 NI R2)) eq_refl).
Qed.
Print Assumptions C66_slcan_sent.

(** With SocketCAN and python-can it sees every frame that was transmitted,
    except those that the writer reported since (told about at later calls). *)
Theorem C66_feedback_sent : forall beh capacity fuel es1 es2 s1 s2, never_removes beh ->
  run beh Feedback capacity fuel new_driver es1 = Some s1 ->
  let h := hk_next (dr_hooks s1) in
  ~ In (ERemoveHook h) es2 ->
  run beh Feedback capacity fuel s1 (EAddHook :: es2) = Some s2 ->
  exists told, dr_sent s1 = told ++ frames_of (dr_fb s1) /\
    dr_sent s2 = told ++ seen h TX (hk_log (dr_hooks s2)) ++ frames_of (dr_fb s2).
Proof.
  intros beh capacity fuel es1 es2 s1 s2 NR R1 h NI R2.
  exact (proj2 (proj2 (registered beh Feedback capacity fuel es1 es2 s1 s2 NR R1 NI R2)) eq_refl).
Qed.
Print Assumptions C66_feedback_sent.

(** With multicast and MAVLink it sees every frame given to [send_frame], *)
Theorem C66_queued_sent_partial : forall beh capacity fuel es1 es2 s1 s2, never_removes beh ->
  run beh HookFirst capacity fuel new_driver es1 = Some s1 ->
  let h := hk_next (dr_hooks s1) in
  ~ In (ERemoveHook h) es2 ->
  run beh HookFirst capacity fuel s1 (EAddHook :: es2) = Some s2 ->
  seen h TX (hk_log (dr_hooks s2)) = sends es2.
Proof. exact shown. Qed.
Print Assumptions C66_queued_sent_partial.

(** also those that are refused because the queue is full. *)
Theorem C66_queued_sent_refuted : exists beh capacity fuel es f s,
  run beh HookFirst capacity fuel new_driver (EAddHook :: es) = Some s /\
  In f (seen 0 TX (hk_log (dr_hooks s))) /\ ~ In f (dr_accepted s).
Proof.
  exists all_raise, 1%nat, 9%nat, [ESend frame_a; ESend frame_b], frame_b. eexists. split; [vm_compute; reflexivity|].
  split; [cbn; auto|]. cbn. intros [E|[]]. discriminate.
Qed.
Print Assumptions C66_queued_sent_refuted.

(** Frames that were taken are transmitted in order unless the writer fails. *)
Theorem C66_transmitted : forall beh kind capacity fuel es s, (forall x, ~ In (EFail x) es) ->
  run beh kind capacity fuel new_driver es = Some s -> dr_accepted s = dr_sent s ++ dr_tx s.
Proof. intros beh kind capacity fuel es s NF R. eapply run_queue; [exact NF| |exact R]. reflexivity. Qed.
Print Assumptions C66_transmitted.

(** The file driver calls no hooks. *)
Theorem C66_file_refuted : exists beh capacity fuel es f s,
  run beh NoHooks capacity fuel new_driver (EAddHook :: es) = Some s /\ In f (dr_got s) /\ hk_log (dr_hooks s) = [].
Proof.
  exists all_raise, 1%nat, 9%nat, [EArrive frame_a; EReceive], frame_a. eexists. split; [vm_compute; reflexivity|].
  split; [cbn; auto|reflexivity].
Qed.
Print Assumptions C66_file_refuted.

Example C66_case : never_removes all_raise /\ never_adds all_raise /\
  let es := [ESend frame_a; EAddHook; ETransmit; EArrive frame_b; EReceive; ESend frame_b; ETransmit; EReceive; ERemoveHook 1] in
  option_map (fun s => (seen 0 RX (hk_log (dr_hooks s)), seen 0 TX (hk_log (dr_hooks s)), length (hk_log (dr_hooks s))))
    (run all_raise Feedback 5 9 new_driver (EAddHook :: es)) = Some ([frame_b], [frame_a; frame_b], 6%nat).
Proof. split; [intros log h []|]. split; [intros log []|]. vm_compute. reflexivity. Qed.

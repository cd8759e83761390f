From Verif.Base Require Import Prelude.
From Verif.Model Require Import CanFrame Bridge.
From Verif.Spec Require Import BridgeSpec.
From Verif.Proofs Require Import BridgeFacts.

(** ** C64: the bridge *)

(** However the threads run: each frame of interface [i] that is to be
    forwarded was handed to interface [j] once, in order and as it was; the
    last one may still be on its way. Nothing goes back to interface [i]. This
    covers every execution, but a thread that an exception ended no longer
    receives: see the refutations. *)
Theorem C64_forwarded_partial ids n i j steps : i < n -> j < n -> i <> j ->
  exists all rest,
    selects (wanted ids) (received i (b_log (run ids n (start n) steps))) all /\
    all = forwarded i j (b_log (run ids n (start n) steps)) ++ rest /\ length rest <= 1.
Proof. exact (forwarded_prefix ids n i j steps). Qed.
Print Assumptions C64_forwarded_partial.

Theorem C64_complete_partial ids n i j steps : j < n -> i <> j ->
  idle i (run ids n (start n) steps) ->
  selects (wanted ids) (received i (b_log (run ids n (start n) steps)))
                       (forwarded i j (b_log (run ids n (start n) steps))).
Proof. exact (forwarded_idle ids n i j steps). Qed.
Print Assumptions C64_complete_partial.

(** Without exceptions the thread always gets there. *)
Theorem C64_finishes_partial ids n i steps : i < n -> undisturbed i steps ->
  exists k, idle i (run ids n (start n) (steps ++ repeat (i, RNone, Taken) k)).
Proof. exact (finishes_always ids n i steps). Qed.
Print Assumptions C64_finishes_partial.

Theorem C64_never_back ids n i steps :
  forwarded i i (b_log (run ids n (start n) steps)) = [].
Proof. exact (no_echo_run ids n steps i). Qed.
Print Assumptions C64_never_back.

(** The number shown is the number of frames that were to be forwarded. *)
Theorem C64_counts ids n i steps t all :
  nth_error (b_threads (run ids n (start n) steps)) i = Some t ->
  selects (wanted ids) (received i (b_log (run ids n (start n) steps))) all ->
  th_count t = N.of_nat (length all).
Proof. exact (counts_selected ids n i steps t all). Qed.
Print Assumptions C64_counts.

Definition frame_a := CFrame 0x1E01558A [1; 2; 0xC0]%N true false 5.
Definition frame_b := CFrame 0x1E01550A [7; 0xC1]%N true false 6.
(** Three interfaces, only node 10 is forwarded; the threads of the first and
    the third take turns. *)
Definition demo : list (nat * receipt * delivery) :=
  [ (0, RFrame frame_a, Taken); (2, RFrame frame_b, Taken); (0, RNone, Taken); (2, RNone, QueueFull);
    (0, RNone, Taken); (2, RNone, Taken); (0, RNone, Taken); (2, RNone, Taken);
    (0, RNone, Taken); (2, RNone, Taken) ].
Example C64_example :
  b_log (run (Some [10]%N) 3 (start 3) demo) =
    [Received 0 frame_a; Received 2 frame_b; Sent 2 0 frame_b QueueFull; Sent 0 1 frame_a Taken;
     Sent 2 1 frame_b Taken; Sent 0 2 frame_a Taken].
Proof. vm_compute. reflexivity. Qed.
Example C64_undisturbed : undisturbed 0 demo /\ idle 0 (run (Some [10]%N) 3 (start 3) demo).
Proof.
  split.
  - intros r d H. cbn in H.
    repeat (destruct H as [H|H]; [injection H as <- <- || discriminate H; split; discriminate|]). destruct H.
  - eexists. vm_compute. split; reflexivity.
Qed.

(** A driver that fails other than by a full queue ends the thread in the
    middle of a frame: the interfaces after it never get that frame. *)
Theorem C64_failed_send_refuted :
  exists ids n steps i j f, i < n /\ j < n /\ i <> j /\ wanted ids f /\
    In (Received i f) (b_log (run ids n (start n) steps)) /\
    forall more, ~ In f (forwarded i j (b_log (run ids n (start n) (steps ++ more)))).
Proof.
  exists None, 3, [(0, RFrame frame_a, Taken); (0, RNone, Taken); (0, RNone, Failed DriverError)], 0, 2, frame_a.
  split; [lia|]. split; [lia|]. split; [lia|]. split; [exact I|].
  split; [vm_compute; left; reflexivity|]. intros more. rewrite run_app, ended_run.
  - vm_compute. tauto.
  - eexists. vm_compute. split; reflexivity.
Qed.
Print Assumptions C64_failed_send_refuted.

(** Any exception from [receive] ends the thread, since the class named in the
    handler does not exist; whatever arrives later is not forwarded. *)
Theorem C64_receive_error_refuted :
  exists ids n steps i j f, i < n /\ j < n /\ i <> j /\ wanted ids f /\
    In (i, RFrame f, Taken) steps /\
    forall more, forwarded i j (b_log (run ids n (start n) (steps ++ more))) = [].
Proof.
  exists None, 2, [(0, RError DriverError, Taken); (0, RFrame frame_a, Taken)], 0, 1, frame_a.
  split; [lia|]. split; [lia|]. split; [lia|]. split; [exact I|].
  split; [right; left; reflexivity|]. intros more. rewrite run_app, ended_run.
  - vm_compute. reflexivity.
  - eexists. vm_compute. split; reflexivity.
Qed.
Print Assumptions C64_receive_error_refuted.

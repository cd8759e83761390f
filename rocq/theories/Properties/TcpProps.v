(** Properties of the link between a socket and a serial port. *)
From Verif.Base Require Import Prelude.
From Verif.Model Require Import Serial TcpLink.
From Verif.Spec Require Import SerialSpec TcpSpec.
From Verif.Proofs Require Import TcpFacts.
Local Open Scope Z_scope.

(** C126. While the program runs, what was sent to the device is exactly what
    came from the socket. *)
Theorem C126_inward : forall i target dev lock logging baud rs,
  l_end (run_link (Some i) target dev lock logging baud rs) = None ->
  payload (sent_in (p_log (l_port (run_link (Some i) target dev lock logging baud rs)))) = from_socket rs.
Proof. exact link_inward. Qed.
Print Assumptions C126_inward.

(** However it ends, it is the beginning of that. *)
Theorem C126_prefix : forall i target dev lock logging baud rs,
  exists k, payload (sent_in (p_log (l_port (run_link (Some i) target dev lock logging baud rs)))) = firstn k (from_socket rs).
Proof. exact link_prefix. Qed.
Print Assumptions C126_prefix.

(** All messages are for the device, with the options asked for. *)
Theorem C126_addressed : forall i target dev lock logging baud rs,
  Forall (for_device (Some i) target dev lock baud)
    (sent_in (p_log (l_port (run_link (Some i) target dev lock logging baud rs)))).
Proof. exact link_told. Qed.
Print Assumptions C126_addressed.

(** Full claim: what the socket was given, followed by what waits in the port,
    is what came from the device. It is so if [send] always takes all it is
    given and the other devices of the node are silent. *)
Theorem C126_outward_partial : forall i target dev lock logging baud rs,
  let l := run_link (Some i) target dev lock logging baud rs in
  Forall takes_all rs ->
  one_device i target dev (p_log (l_port l)) ->
  l_out l ++ p_buf (l_port l) = device_bytes (Some i) target dev (p_log (l_port l)).
Proof.
  intros i target dev lock logging baud rs l F O. unfold l. rewrite (link_outward _ _ _ _ _ _ _ F).
  exact (one_device_bytes _ _ _ _ O).
Qed.
Print Assumptions C126_outward_partial.

(** Without the latter condition it is what came from the node, which is what
    is wanted if no device is named (-1). *)
Theorem C126_any_device : forall i target dev lock logging baud rs,
  let l := run_link (Some i) target dev lock logging baud rs in
  Forall takes_all rs ->
  l_out l ++ p_buf (l_port l) = received_in (Some i) target (p_log (l_port l)).
Proof. exact link_outward. Qed.
Print Assumptions C126_any_device.

(** Each turn gives the socket all that waits, up to 1024 bytes. *)
Theorem C126_drains : forall i target dev lock logging baud rs r,
  let l := run_link (Some i) target dev lock logging baud rs in
  let l' := run_link (Some i) target dev lock logging baud (rs ++ [r]) in
  takes_all r -> l_end l' = None ->
  exists b, l_out l' = l_out l ++ b /\ (length b <= 1024)%nat /\ (p_buf (l_port l') = [] \/ length b = 1024%nat).
Proof. exact link_drains. Qed.
Print Assumptions C126_drains.

(** The log file has the bytes of both directions, each in order. *)
Theorem C126_logged : forall i target dev lock baud rs,
  let l := run_link (Some i) target dev lock true baud rs in
  l_end l = None -> mixed (from_socket rs) (read_in (p_log (l_port l))) (l_file l).
Proof. exact (fun i target dev lock baud rs E => link_logged i target dev lock true baud rs E eq_refl). Qed.
Print Assumptions C126_logged.

(** The program goes on while [send] takes what it is given and the node takes
    the messages. *)
Theorem C126_lives_partial : forall i target dev lock logging baud rs,
  Forall (fun r => takes_all r /\ spin_fine (r_spin r) /\ Forall no_failure (r_write r) /\ Forall no_failure (r_alive r) /\
    existsb goes_out (r_alive r) = true /\
    (length (match r_recv r with Got b => b | _ => [] end) <= 120 * length (filter goes_out (r_write r)))%nat) rs ->
  l_end (run_link (Some i) target dev lock logging baud rs) = None.
Proof. exact link_lives. Qed.
Print Assumptions C126_lives_partial.

Definition went (t : Z) : turn := {| t_arrive := []; t_spin := Done; t_cast := Done; t_time := t |}.
Definition from_dev (b : list N) : tmsg :=
  {| m_source := 42; m_target := 100; m_serial := 0; m_protocol := 2; m_options := 0; m_baud := 0; m_buffer := b |}.
Definition a_round (g : got) (ms : list tmsg) (now : Z) (t : took) : round :=
  {| r_recv := g; r_write := [went now]; r_arrive := ms; r_spin := Done; r_now := now; r_alive := [went now]; r_send := t |}.

(** A socket that takes part of the bytes: the others are lost, and the program
    goes on. *)
Theorem C126_short_send_refuted : exists rs, let l := run_link (Some 100%N) 42 0 0 true 0 rs in
  l_end l = None /\ p_buf (l_port l) = [] /\
  device_bytes (Some 100%N) 42 0 (p_log (l_port l)) = [1; 2; 3; 4]%N /\ l_out l = [1; 4]%N.
Proof.
  exists [a_round Nothing [from_dev [1; 2; 3]%N] 0 (Took 1); a_round Nothing [from_dev [4]%N] 10 (Took 1)].
  vm_compute. repeat split; reflexivity.
Qed.
Print Assumptions C126_short_send_refuted.

(** A socket that can take none raises: the program ends. *)
Theorem C126_full_socket_refuted : exists rs, let l := run_link (Some 100%N) 42 0 0 true 0 rs in
  Forall (fun r => spin_fine (r_spin r) /\ Forall no_failure (r_alive r)) rs /\
  l_end l = Some (Stopped OSError) /\ l_out l = [] /\ read_in (p_log (l_port l)) = [1; 2; 3]%N.
Proof.
  exists [a_round Nothing [from_dev [1; 2; 3]%N] 0 (Refuses OSError)]. split; [|vm_compute; repeat split; reflexivity].
  constructor; [|constructor]. split; [left; reflexivity|]. constructor; [|constructor]. split; [left|]; left; reflexivity.
Qed.
Print Assumptions C126_full_socket_refuted.

(** A peer that has closed the connection is not noticed: the program goes on
    for ever, and accepts no other. *)
Theorem C126_closed_refuted : exists r, r_recv r = Closed /\
  forall n, l_end (run_link (Some 100%N) 42 0 0 true 0 (repeat r n)) = None.
Proof.
  exists (a_round Closed [] 0 (Took 2000)). split; [reflexivity|]. intros n. apply C126_lives_partial. apply Forall_forall. intros r I.
  apply repeat_spec in I as ->.
  assert (NF : Forall no_failure [went 0]).
  { constructor; [|constructor]. split; [left|]; left; reflexivity. }
  split; [exists 2000%nat; split; [reflexivity|lia]|]. split; [left; reflexivity|]. split; [exact NF|]. split; [exact NF|].
  split; [reflexivity|]. cbn. lia.
Qed.
Print Assumptions C126_closed_refuted.

(** A session: bytes both ways, in two turns, all taken. *)
Definition session : list round :=
  [a_round (Got [10; 11]%N) [from_dev [1; 2; 3]%N] 600 (Took 1024); a_round (Got [12]%N) [from_dev [4]%N] 610 (Took 1024)].
Example C126_session : let l := run_link (Some 100%N) 42 0 0 true 57600 session in
  l_end l = None /\ from_socket session = [10; 11; 12]%N /\ l_out l = [1; 2; 3; 4]%N /\
  l_file l = [10; 11; 1; 2; 3; 12; 4]%N /\ map m_buffer (sent_in (p_log (l_port l))) = [[10; 11]; [12]]%N.
Proof. vm_compute. repeat split; reflexivity. Qed.
Example C126_session_takes : Forall takes_all session.
Proof. repeat constructor; exists 1024%nat; split; (reflexivity || lia). Qed.
Example C126_session_one : one_device 100 42 0 (p_log (l_port (run_link (Some 100%N) 42 0 0 true 57600 session))).
Proof. intros m I _ _. vm_compute in I. intuition (discriminate || (match goal with H : ERecv _ = ERecv _ |- _ => injection H as <-; reflexivity end)). Qed.
Example C126_session_lives : Forall (fun r => takes_all r /\ spin_fine (r_spin r) /\ Forall no_failure (r_write r) /\ Forall no_failure (r_alive r) /\
    existsb goes_out (r_alive r) = true /\
    (length (match r_recv r with Got b => b | _ => [] end) <= 120 * length (filter goes_out (r_write r)))%nat) session.
Proof.
  assert (NF : forall t, Forall no_failure [went t]).
  { intros t. constructor; [|constructor]. split; [left|]; left; reflexivity. }
  constructor; [|constructor; [|constructor]]; (split; [exists 1024%nat; split; [reflexivity|lia]|]; split; [left; reflexivity|]; split; [apply NF|];
    split; [apply NF|]; split; [reflexivity|cbn; lia]).
Qed.

(** Properties of the serial port. *)
From Verif.Base Require Import Prelude.
From Verif.Model Require Import Serial.
From Verif.Spec Require Import SerialSpec.
From Verif.Proofs Require Import SerialFacts.
Local Open Scope Z_scope.

(** C43. A write sends what was written in messages for the device of at most
    120 bytes; if it ends otherwise than by returning, the beginning of it. *)
Theorem C43_write : forall i target dev lock s b ts,
  exists d, p_log (fst (write (Some i) target dev lock s b ts)) = p_log s ++ d /\
    Forall (for_device (Some i) target dev lock (p_baud s)) (sent_in d) /\
    (exists k, payload (sent_in d) = firstn k b) /\
    (forall n, snd (write (Some i) target dev lock s b ts) = Returns n ->
       n = Z.of_nat (length b) /\ payload (sent_in d) = b).
Proof. exact (fun i target dev lock => write_sends (Some i) target dev lock i eq_refl). Qed.
Print Assumptions C43_write.

(** Over a whole history in which every write returned, nothing is lost,
    reordered, repeated or added. *)
Theorem C43_sent : forall i target dev lock baud ops,
  writes_return (Some i) target dev lock (fresh baud) ops ->
  payload (sent_in (p_log (run_port (Some i) target dev lock baud ops))) = written ops.
Proof. exact (fun i target dev lock baud ops => port_sent (Some i) target dev lock i eq_refl ops (fresh baud)). Qed.
Print Assumptions C43_sent.

(** A write waits for room in the transmit queue and returns once there was
    room often enough. *)
Theorem C43_write_returns : forall own target dev lock s b ts,
  Forall no_failure ts -> (length b <= 120 * length (filter goes_out ts))%nat ->
  snd (write own target dev lock s b ts) = Returns (Z.of_nat (length b)).
Proof. exact write_completes. Qed.
Print Assumptions C43_write_returns.

(** Full claim for reading: since the last flush, the bytes read, followed by
    those in the buffer, are the bytes received from the device in order,
    [device_bytes]. This is so if all messages that the target node sends here
    are from the device. *)
Theorem C43_read_partial : forall i target dev lock baud ops,
  let s := run_port (Some i) target dev lock baud ops in
  Forall (fun e => match e with
    | ERecv m => m_source m = target -> Some i = Some (m_target m) -> m_serial m = dev | _ => True end) (p_log s) ->
  read_in (since_flush (p_log s)) ++ p_buf s = device_bytes (Some i) target dev (since_flush (p_log s)).
Proof. exact (fun i target dev lock => port_device (Some i) target dev lock i eq_refl). Qed.
Print Assumptions C43_read_partial.

(** Without that condition they are the bytes received from the node. *)
Theorem C43_read_node : forall i target dev lock baud ops,
  let s := run_port (Some i) target dev lock baud ops in
  read_in (since_flush (p_log s)) ++ p_buf s = received_in (Some i) target (since_flush (p_log s)).
Proof. exact (fun i target dev lock => port_since (Some i) target dev lock i eq_refl). Qed.
Print Assumptions C43_read_node.

(** A read that returns gives as much as was asked for and is there. *)
Theorem C43_read_amount : forall own target dev lock s n ms o now ts bs,
  0 <= n -> snd (read own target dev lock s n ms o now ts) = Returns bs ->
  exists d, p_log (fst (read own target dev lock s n ms o now ts)) = p_log s ++ d ++ [ERead bs] /\
    length bs = Nat.min (Z.to_nat n) (length (p_buf s ++ received_in own target d)).
Proof. exact read_amount. Qed.
Print Assumptions C43_read_amount.

(** Every message, of a write or to keep the connection alive, is for the device
    and has the speed last asked for. *)
Theorem C43_told : forall i target dev lock baud ops op, exists d,
  p_log (run_port (Some i) target dev lock baud (ops ++ [op])) = p_log (run_port (Some i) target dev lock baud ops) ++ d /\
  Forall (for_device (Some i) target dev lock (speed baud ops)) (sent_in d).
Proof. exact (fun i target dev lock => port_told (Some i) target dev lock i eq_refl). Qed.
Print Assumptions C43_told.

(** A read more than half a second after the last message sends an empty one. *)
Theorem C43_alive : forall own target dev lock s n ms o now ts,
  spin_fine o -> 500 < now - p_last s -> Forall no_failure ts -> existsb goes_out ts = true ->
  exists bs d, snd (read own target dev lock s n ms o now ts) = Returns bs /\
    p_log (fst (read own target dev lock s n ms o now ts)) = p_log s ++ d /\ map m_buffer (sent_in d) = [[]].
Proof. exact read_alive. Qed.
Print Assumptions C43_alive.

(** The messages of the examples: [b] from device [dev] of node 7 to node 100. *)
Definition from_dev (dev : Z) (b : list N) : tmsg :=
  {| m_source := 7; m_target := 100; m_serial := dev; m_protocol := 2; m_options := 0; m_baud := 57600; m_buffer := b |}.
Definition turn_of (ms : list tmsg) (o : outcome) : turn := {| t_arrive := ms; t_spin := Done; t_cast := o; t_time := 1000 |}.

(** Another device of the same node is heard as well. *)
Theorem C43_read_refuted : exists ops,
  let s := run_port (Some 100%N) 7 2 0 57600 ops in
  read_in (since_flush (p_log s)) ++ p_buf s <> device_bytes (Some 100%N) 7 2 (since_flush (p_log s)).
Proof. exists [OSpin [from_dev 2 [1; 2]%N; from_dev 3 [9]%N; from_dev 2 [3]%N] Done]. vm_compute. discriminate. Qed.
Print Assumptions C43_read_refuted.

Example C43_case :
  let w := map N.of_nat (seq 0 130) in
  let ops := [OWrite w [turn_of [from_dev 2 [1; 2]%N] Full; turn_of [] Done; turn_of [from_dev 2 [3]%N] Done];
              ORead 2 [] Done 1100 []; ORead 5 [from_dev 2 [4]%N] (Fails TransferError) 1600 [turn_of [from_dev 2 [5]%N] Done];
              OSetBaud 9600; OWrite [7]%N [turn_of [from_dev 2 [6; 7]%N] Done]; ORead 1 [] Done 1100 []] in
  let s := run_port (Some 100%N) 7 2 0 57600 ops in
  writes_return (Some 100%N) 7 2 0 (fresh 57600) ops /\
  map (fun m => (length (m_buffer m), m_baud m)) (sent_in (p_log s)) = [(120%nat, 57600); (10%nat, 57600); (0%nat, 57600); (1%nat, 9600)] /\
  read_in (p_log s) = [1; 2; 3; 4; 5; 6]%N /\ p_buf s = [7]%N /\
  snd (write (Some 100%N) 7 2 0 (fresh 57600) w [turn_of [] Full; turn_of [] Done]) = Waits /\
  snd (write (Some 100%N) 7 2 0 (fresh 57600) w [turn_of [] Full; turn_of [] Done; turn_of [] (Fails UAVCANException)]) = Raises UAVCANException.
Proof.
  split; [|vm_compute; repeat split]. cbn [writes_return]. repeat split; eexists; vm_compute; reflexivity.
Qed.
Print Assumptions C43_case.

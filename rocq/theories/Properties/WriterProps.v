(** C112-C116: the SocketCAN and python-can drivers. A run is any interleaving
    of the caller and the writer thread; [attempt]s are what the operating
    system does, any sequence. *)
From Verif.Base Require Import Prelude Bits Pack.
From Verif.Model Require Import BitCodec Types Codec Frames TransferManager Node CanFrame Packets Writer.
From Verif.Spec Require Import NodeSpec PacketSpec WriterSpec.
From Verif.Proofs Require Import WriterFacts.
From Verif.Properties Require Import NodeProps.

Definition sock_run := run sock_packet false (fun _ => false) 1000 start.
Definition pycan_run := run pycan_message true c_fd 1000 start.
Definition wf (n : N) : cframe := CFrame (0x18EEFF00 + n) [1; 2; n]%N true false 5.
(** A frame that cannot be packed. *)
Definition bad_frame : cframe := CFrame (2 ^ 32) [1; 2]%N true false 5.
Definition turn := AWriter Fine 77.
Definition busy := AWriter NoBuffers 77.

(** ** C112: SocketCAN puts every accepted frame on the bus once and in order *)

(** In every interleaving, when all accepted frames have been treated and the
    driver was not closed: each was written as the packet made of it and is
    reported, or was not written and an exception is reported, in order. *)
Theorem C112_treated : forall capacity acts, never_stopped acts ->
  let s := run sock_packet false (fun _ => false) capacity start acts in
  finished s -> treated sock_packet (accepted (w_log s)) (wrote (w_log s)) (learned (w_log s) ++ w_back s).
Proof. intros capacity acts N s F. apply when_finished; auto. apply gentle_no_flush. reflexivity. Qed.
Print Assumptions C112_treated.

(** At all times this holds of a first part of the accepted frames; the last
    report may be missing yet. *)
Theorem C112_always : forall capacity acts,
  let s := run sock_packet false (fun _ => false) capacity start acts in
  exists fs rest extra, accepted (w_log s) = fs ++ rest /\ (length extra <= 1)%nat /\
    treated sock_packet fs (wrote (w_log s)) (learned (w_log s) ++ w_back s ++ extra).
Proof. intros. apply always. apply gentle_no_flush. reflexivity. Qed.
Print Assumptions C112_always.

(** Without errors other than full buffers, each accepted frame is read at the
    other end, and the hooks are shown the same frames. *)
Theorem C112_written : forall capacity acts now, never_stopped acts -> never_wrong acts -> Forall on_bus (handed acts) ->
  let s := run sock_packet false (fun _ => false) capacity start acts in finished s ->
  Forall2 (fun f w => exists g, sock_parse now w = Ok g /\ received_at now f g) (accepted (w_log s)) (wrote (w_log s)) /\
  exists gs, learned (w_log s) ++ w_back s = map inl gs /\ Forall2 same (accepted (w_log s)) gs.
Proof. exact socketcan_writes. Qed.
Print Assumptions C112_written.

(** All accepted frames get treated, if the writer makes six steps for each of
    them while the system has buffers. *)
Theorem C112_finishes : forall capacity acts times, never_stopped acts ->
  let s := run sock_packet false (fun _ => false) capacity start acts in
  (6 * length (w_queue s) + 6 <= length times)%nat ->
  finished (run sock_packet false (fun _ => false) capacity s (map (AWriter Fine) times)).
Proof. intros. apply finishes; assumption. Qed.
Print Assumptions C112_finishes.

Definition sock_acts := [ASend (wf 1); turn; ASend (wf 2); turn; AReceive; turn; busy; turn; busy; turn; ASend bad_frame;
  turn; turn; turn; turn; turn; AReceive; turn; AWriter Fine 99; turn; AReceive; turn; turn; turn].
Example C112_case : let s := sock_run sock_acts in
  accepted (w_log s) = [wf 1; wf 2; bad_frame] /\ length (wrote (w_log s)) = 2%nat /\
  map Ok (wrote (w_log s)) = [sock_packet (wf 1); sock_packet (wf 2)] /\ never_stopped sock_acts /\ never_wrong sock_acts /\
  finished (sock_run (sock_acts ++ repeat turn 30)) /\
  (let s := sock_run (sock_acts ++ repeat turn 30) in
   learned (w_log s) ++ w_back s = [inl (stamped (wf 1) 77); inl (stamped (wf 2) 99); inr StructError]).
Proof.
  vm_compute. repeat split; try auto 10; intuition discriminate.
Qed.

(** ** C113: python-can does so *)

(** Yes if flushing the bus never fails; *)
Theorem C113_written_partial : forall capacity acts,
  gentle pycan_message true c_fd capacity start acts -> never_stopped acts -> never_wrong acts ->
  let s := run pycan_message true c_fd capacity start acts in finished s ->
  Forall2 (fun f m => m = CanMsg (c_id f) (c_ext f) false false false (c_data f)) (accepted (w_log s)) (wrote (w_log s)) /\
  exists gs, learned (w_log s) ++ w_back s = map inl gs /\ Forall2 same (accepted (w_log s)) gs.
Proof. exact pycan_writes. Qed.
Print Assumptions C113_written_partial.

(** but a frame is sent twice if the buffers are full at the flush, and a
    frame that was sent is reported as failed if the flush raises. *)
Theorem C113_twice_refuted : exists acts m, never_stopped acts /\ never_wrong acts /\
  let s := run pycan_message true c_fd 1000 start acts in
  finished s /\ length (accepted (w_log s)) = 1%nat /\ wrote (w_log s) = [m; m].
Proof.
  exists ([ASend (wf 1)] ++ repeat turn 4 ++ [busy] ++ repeat turn 5), (CanMsg (0x18EEFF01) true false false false [1; 2; 1]%N).
  split; [vm_compute; intuition discriminate|]. split; [intros x now; vm_compute; intuition discriminate|].
  vm_compute. auto.
Qed.
Print Assumptions C113_twice_refuted.
Theorem C113_blamed_refuted : exists acts m x, never_stopped acts /\
  let s := run pycan_message true c_fd 1000 start acts in
  finished s /\ length (accepted (w_log s)) = 1%nat /\ wrote (w_log s) = [m] /\ learned (w_log s) ++ w_back s = [inr x].
Proof.
  exists ([ASend (wf 1)] ++ repeat turn 4 ++ [AWriter (Wrong RuntimeError) 5] ++ [turn]), (CanMsg (0x18EEFF01) true false false false [1; 2; 1]%N), RuntimeError.
  split; [vm_compute; intuition discriminate|]. vm_compute. auto.
Qed.
Print Assumptions C113_blamed_refuted.
Example C113_case : let acts := [ASend (wf 1); ASend (wf 2)] ++ repeat turn 3 ++ [busy] ++ repeat turn 20 in
  let s := pycan_run acts in
  gentle pycan_message true c_fd 1000 start acts /\
  finished s /\ map m_data (wrote (w_log s)) = [[1; 2; 1]; [1; 2; 2]]%N /\ length (w_back s) = 2%nat.
Proof. cbv zeta. split; [apply gentleb_ok; vm_compute; reflexivity|]. vm_compute. auto. Qed.

(** ** C114: what becomes of a frame is reported *)

(** Once per frame and in order, at the latest by as many calls of the driver
    as frames were accepted. *)
Theorem C114_reported : forall capacity acts more, never_stopped acts ->
  let s := run sock_packet false (fun _ => false) capacity start acts in finished s ->
  (length (accepted (w_log s)) <= looks (fun _ => false) more)%nat ->
  exists rs rest, treated sock_packet (accepted (w_log s)) (wrote (w_log s)) rs /\
    learned (w_log (run sock_packet false (fun _ => false) capacity s more)) = rs ++ rest.
Proof. intros capacity acts more N s F L. apply reported; auto. apply gentle_no_flush. reflexivity. Qed.
Print Assumptions C114_reported.

(** But an exception of [send_frame] need not be about its frame: the second
    frame is not taken, though there is room for it, because the first one
    failed. *)
Theorem C114_blame_refuted : exists acts f x,
  let s := sock_run acts in let s' := step sock_packet false (fun _ => false) 1000 s (ASend f) in
  (length (w_queue s) < 1000)%nat /\ on_bus f /\ ~ In f (accepted (w_log s)) /\
  w_log s' = w_log s ++ [Raised x; Refused f].
Proof.
  exists ([ASend bad_frame] ++ repeat turn 4), (wf 2), StructError. vm_compute. repeat split; try lia.
  - repeat constructor; lia.
  - intuition discriminate.
Qed.
Print Assumptions C114_blame_refuted.
Example C114_case : let acts := sock_acts ++ repeat turn 30 in let s := sock_run acts in
  looks (fun _ => false) [AReceive; ASend (wf 4); turn; AReceive] = 3%nat /\ length (accepted (w_log s)) = 3%nat /\
  learned (w_log (run sock_packet false (fun _ => false) 1000 s [AReceive; ASend (wf 4); turn; AReceive])) =
    [inl (stamped (wf 1) 77); inl (stamped (wf 2) 99); inr StructError].
Proof. vm_compute. auto. Qed.

(** ** C115: closing the driver *)

(** The writer ends at most four steps after [close] sets the flag (so that
    [join] returns), whatever the system does, *)
Theorem C115_ends : forall W encode flushes refuses capacity acts more,
  let s := run encode flushes refuses capacity (@start W) (acts ++ [AStop]) in
  (4 <= turns more)%nat -> w_place (run encode flushes refuses capacity s more) = AtEnd.
Proof. exact closing. Qed.
Print Assumptions C115_ends.
(** and puts at most one more frame on the bus. *)
Theorem C115_at_most_one : forall W encode flushes refuses capacity acts more,
  let s := run encode flushes refuses capacity (@start W) (acts ++ [AStop]) in
  (length (wrote (w_log (run encode flushes refuses capacity s more))) <= length (wrote (w_log s)) + 1)%nat.
Proof. exact closing_writes. Qed.
Print Assumptions C115_at_most_one.

(** Frames that were accepted before are lost, without any report. *)
Theorem C115_lost_refuted : exists acts more, ~ In AStop acts /\ never_wrong (acts ++ [AStop] ++ more) /\
  let s := sock_run (acts ++ [AStop] ++ more) in
  w_place s = AtEnd /\ accepted (w_log s) = [wf 1; wf 2; wf 3] /\ length (wrote (w_log s)) = 1%nat /\
  learned (w_log s) ++ w_back s = [inl (stamped (wf 1) 77)].
Proof.
  exists ([ASend (wf 1); ASend (wf 2); ASend (wf 3)] ++ repeat turn 4), (repeat turn 20).
  split; [vm_compute; intuition discriminate|]. split; [intros x now; vm_compute; intuition discriminate|].
  vm_compute. auto.
Qed.
Print Assumptions C115_lost_refuted.
(** Only the last ones: those before were treated ([C112_always] without the
    report that may be missing). *)
Theorem C115_lost_partial : forall capacity acts, let s := run sock_packet false (fun _ => false) capacity start acts in
  w_place s = AtEnd ->
  exists fs lost, accepted (w_log s) = fs ++ lost /\
    treated sock_packet fs (wrote (w_log s)) (learned (w_log s) ++ w_back s).
Proof.
  intros capacity acts s E.
  destruct (inv_run _ sock_packet false (fun _ => false) capacity acts start (inv_start _ _) (gentle_no_flush _ _ _ _ _ acts eq_refl))
    as (fs & ws & hf & hw & lost & T & H & A & Wr & L). fold s in T, H, A, Wr, L. rewrite E in H. destruct H; subst hf hw.
  rewrite app_nil_r in Wr. rewrite <- Wr in T. exists fs, (lost ++ w_queue s). split; [exact A|exact T].
Qed.
Print Assumptions C115_lost_partial.
Example C115_case : let acts := [ASend (wf 1); ASend (wf 2)] ++ repeat turn 3 in
  let s := sock_run (acts ++ [AStop]) in turns [turn; busy; AReceive; turn; turn] = 4%nat /\
  length (wrote (w_log s)) = 0%nat /\
  (let s' := run sock_packet false (fun _ => false) 1000 s [turn; busy; AReceive; turn; turn] in
   w_place s' = AtEnd /\ length (wrote (w_log s')) = 1%nat /\ learned (w_log s') ++ w_back s' = [inl (stamped (wf 1) 77)]).
Proof. vm_compute. auto 10. Qed.

(** ** C116: only extended data frames reach the node *)

(** They do with python-can, *)
Theorem C116_extended_partial : forall now m, m_ext m = true -> m_remote m = false -> m_error m = false -> m_fd m = false ->
  received_at now (CFrame (m_id m) (m_data m) (m_ext m) (m_fd m) 0) (pycan_receive now m).
Proof. intros now [id e r x fd d] E _ _ F. cbn in *. subst. repeat split. Qed.
Print Assumptions C116_extended_partial.

(** and standard frames do as well: a frame with an identifier of 11 bits, which
    a node ignores, is reported as an extended one, and spinning the node
    raises an exception. *)
Theorem C116_standard_refuted : exists m, m_ext m = false /\ m_remote m = false /\ (m_id m < 2 ^ 11)%N /\
  let f := pycan_receive 0 m in
  let node := ex_after (Some 5%N) quiet good_driver [] in
  c_ext f = true /\
  snd (recv_frame ex_clk quiet good_driver ex_types 1000 20 node false (Frame (m_id m) (m_data m) false None None)) = None /\
  snd (recv_frame ex_clk quiet good_driver ex_types 1000 20 node (c_ext f) (Frame (c_id f) (c_data f) (c_fd f) None None)) = Some TransferError.
Proof. exists (CanMsg 0x201 false false false false [7; 0xC0]%N). vm_compute. auto 10. Qed.
Print Assumptions C116_standard_refuted.

(** So do remote frames, with both drivers: the kernel marks them by bit 30 of
    the identifier, which is not looked at. *)
Theorem C116_remote_refuted : exists raw now f g,
  le_value (firstn 4 raw) = (2 ^ 31 + 2 ^ 30 + c_id f)%N /\ (c_id f < 2 ^ 29)%N /\
  sock_parse now raw = Ok f /\ c_ext f = true /\ c_data f = [0; 0; 0]%N /\
  pycan_receive now (CanMsg (c_id f) true true false false [0; 0; 0]%N) = g /\ received_at now f g.
Proof.
  exists [0x21; 0xFF; 0xEE; 0xD8; 3; 0; 0; 0; 0; 0; 0; 0; 0; 0; 0; 0]%N, 9%Z.
  eexists. eexists. split; [|split; [|split; [vm_compute; reflexivity|]]]; [vm_compute; reflexivity|vm_compute; reflexivity|].
  split; [reflexivity|]. split; [reflexivity|]. split; [reflexivity|]. repeat split.
Qed.
Print Assumptions C116_remote_refuted.
Example C116_case : pycan_receive 3 (CanMsg 0x18EEFF21 true false false false [1; 2]%N) = CFrame 0x18EEFF21 [1; 2]%N true false 3.
Proof. reflexivity. Qed.

(** C125: the multicast driver. A run is any interleaving of the program and
    the I/O process; the answers of the operating system are any sequence. *)
From Verif.Base Require Import Prelude Pack.
From Verif.Model Require Import Crc CanFrame Packets McastIo.
From Verif.Spec Require Import PacketSpec McastSpec.
From Verif.Proofs Require Import PacketFacts McastFacts.

Definition mframe (n : N) : cframe := CFrame (0x18EEFF00 + n) [1; 2; n]%N true false 5.
Definition my_ports (i : nat) : N := (40000 + N.of_nat i)%N.
Definition your_ports (i : nat) : N := (50000 + N.of_nat i)%N.
Definition fine := AProcess Fine.
Definition bytes_of (f : cframe) : list N := match mcast_packet f with Ok p => p | Err _ => [] end.
Lemma mframe1_ok : on_bus (mframe 1).
Proof. split; [reflexivity|]. split; [repeat constructor|cbn; lia]. Qed.
Lemma mframe2_ok : on_bus (mframe 2).
Proof. split; [reflexivity|]. split; [repeat constructor|cbn; lia]. Qed.

(** ** C125: multicast sends every accepted frame once and in order

    The full statement is: each frame that [send_frame] takes goes out as the
    packet made of it, once and in order, and others get it. *)

(** At all times, whatever the operating system does: the packets of a first
    part of the accepted frames were each tried once, in order; the rest waits.
    One frame may be missing in between if the process has ended. *)
Theorem C125_order : forall tx_size rx_size ports acts,
  let s := run tx_size rx_size ports start acts in
  exists handled lost,
    accepted (mc_log s) = handled ++ lost ++ in_hand s ++ mc_tx s /\
    Forall2 (fun f t => mcast_packet f = Ok (fst t)) handled (tried (mc_log s)) /\
    (length lost <= 1)%nat /\ (~ ended s -> lost = []).
Proof. exact in_order. Qed.
Print Assumptions C125_order.

(** If nothing raises and the program takes the frames received in time, all
    the tries are successes and the process goes on. *)
Theorem C125_sent_partial : forall tx_size rx_size ports acts,
  calm acts -> keeps_up tx_size rx_size ports acts -> Forall on_bus (handed acts) ->
  let s := run tx_size rx_size ports start acts in
  ~ ended s /\ exists out, accepted (mc_log s) = out ++ in_hand s ++ mc_tx s /\
    Forall2 (fun f p => mcast_packet f = Ok p) out (sent (mc_log s)).
Proof. exact all_sent. Qed.
Print Assumptions C125_sent_partial.

(** From every state of a process that has not ended, whatever went wrong
    before, nothing waits any more after two steps for each frame and five. *)
Theorem C125_progress : forall tx_size rx_size ports acts n, Forall on_bus (handed acts) ->
  let s := run tx_size rx_size ports start acts in
  ~ ended s -> (2 * length (mc_tx s) + 5 <= n)%nat ->
  idle (run tx_size rx_size ports s (repeat (AProcess Fine) n)).
Proof. exact progress. Qed.
Print Assumptions C125_progress.

(** If a call of the socket raises, a new connection is made, one and no more,
    before long; if none raises, the first one is kept. *)
Theorem C125_reconnects : forall tx_size rx_size ports acts,
  let s := run tx_size rx_size ports start acts in
  (calm acts -> (mc_conns s <= 1)%nat) /\
  (Forall on_bus (handed acts) -> calling s -> forall n, (2 * length (mc_tx s) + 5 <= n)%nat ->
   mc_conns (run tx_size rx_size ports s (AProcess Raises :: repeat (AProcess Fine) n)) = S (mc_conns s)).
Proof. intros. split; [apply one_connection|]. intros B C n. exact (reconnects tx_size rx_size ports acts n B C). Qed.
Print Assumptions C125_reconnects.
Example C125_reconnects_case :
  let s := run 1000 50 my_ports start (repeat (AProcess Fine) 3 ++ [ASend (mframe 1); AProcess Fine; ASend (mframe 2)]) in
  calling s /\ mc_conns s = 1%nat /\ length (mc_tx s) = 1%nat /\
  mc_conns (run 1000 50 my_ports s (AProcess Raises :: repeat (AProcess Fine) 6)) = 1%nat /\
  mc_conns (run 1000 50 my_ports s (AProcess Raises :: repeat (AProcess Fine) 7)) = 2%nat.
Proof. vm_compute. auto. Qed.

(** The program gets the frames of others, in order, and nothing for damaged
    datagrams and, if the driver has connected once, for its own. *)
Theorem C125_received : forall tx_size rx_size ports acts,
  let s := run tx_size rx_size ports start acts in
  ~ ended s ->
  Forall (fun h => (exists f, foreign ports f h) \/ junk h \/
                   (own ports h /\ (mc_conns s <= 1)%nat /\ all_named acts)) (heard (mc_log s)) ->
  reports ports (heard (mc_log s)) (delivered (mc_log s) ++ mc_rx s).
Proof. exact reception. Qed.
Print Assumptions C125_received.

(** Two drivers on a network that delivers: what the program on one side sends
    is what the program on the other side gets. *)
Theorem C125_through_partial : forall tx rx pa pb acts_a acts_b,
  calm acts_a -> keeps_up tx rx pa acts_a -> Forall on_bus (handed acts_a) ->
  let a := run tx rx pa start acts_a in let b := run tx rx pb start acts_b in
  idle a -> ~ ended b -> (mc_conns b <= 1)%nat -> all_named acts_b ->
  (forall h, In h (heard (mc_log b)) -> snd (fst h) = pb 0%nat \/ forall i, pb i <> snd (fst h)) ->
  map snd (filter (fun h => negb (snd (fst h) =? pb 0%nat)%N) (heard (mc_log b))) = sent (mc_log a) ->
  Forall2 (fun f g => exists now, received_at now f g) (accepted (mc_log a)) (delivered (mc_log b) ++ mc_rx b).
Proof. exact two_drivers. Qed.
Print Assumptions C125_through_partial.

(** A frame is lost, without an exception, if sending raises once: the next
    one is sent as if nothing had happened. *)
Theorem C125_lost_refuted : forall rx_size, exists acts f g,
  let s := run 1000 rx_size my_ports start acts in
  on_bus f /\ on_bus g /\ idle s /\ accepted (mc_log s) = [f; g] /\ sent (mc_log s) = [bytes_of g] /\
  (forall h, ~ In (Refused h) (mc_log s)).
Proof.
  intros rx_size.
  exists (repeat fine 4 ++ [ASend (mframe 1); ASend (mframe 2)] ++ repeat fine 4 ++ [AProcess Raises] ++ repeat fine 5),
    (mframe 1), (mframe 2). cbv zeta.
  split; [exact mframe1_ok|]. split; [exact mframe2_ok|].
  split; [split; [vm_compute; discriminate|split; vm_compute; reflexivity]|].
  split; [vm_compute; reflexivity|]. split; [vm_compute; reflexivity|].
  intros h. vm_compute. intuition discriminate.
Qed.
Print Assumptions C125_lost_refuted.

(** If connecting again fails (the network is down for more than a tenth of a
    second), the process has ended: frames are accepted and never sent. *)
Definition dead_acts := repeat fine 5 ++ [AProcess Raises] ++ repeat fine 1 ++ [AProcess Raises].
Lemma dead_state rx_size : ended (step 1000 rx_size my_ports (run 1000 rx_size my_ports start dead_acts) (ASend (mframe 1))).
Proof. vm_compute. reflexivity. Qed.
Theorem C125_dead_refuted : forall rx_size, exists acts f, on_bus f /\
  let s := run 1000 rx_size my_ports start acts in
  accepted (mc_log (step 1000 rx_size my_ports s (ASend f))) = accepted (mc_log s) ++ [f] /\
  forall more, sent (mc_log (run 1000 rx_size my_ports (step 1000 rx_size my_ports s (ASend f)) more)) = sent (mc_log s).
Proof.
  intros rx_size.
  exists dead_acts, (mframe 1).
  split; [exact mframe1_ok|]. cbv zeta. split; [vm_compute; reflexivity|]. intros more.
  rewrite (proj2 (ended_run 1000 rx_size my_ports more _ (dead_state rx_size))). vm_compute. reflexivity.
Qed.
Print Assumptions C125_dead_refuted.

(** So it has if the program does not take the frames that come: the queue for
    received frames gets full, whatever its size. *)
Theorem C125_flood_refuted : forall tx_size rx_size ports, (0 < tx_size)%nat -> (forall i, ports i <> 41000%N) ->
  exists acts f, calm acts /\ on_bus f /\ handed acts = [f] /\
  let s := run tx_size rx_size ports start acts in
  accepted (mc_log s) = [f] /\ forall more, sent (mc_log (run tx_size rx_size ports s more)) = [].
Proof. exact flood_stops. Qed.
Print Assumptions C125_flood_refuted.

Definition send_acts := repeat fine 3 ++ [ASend (mframe 1); fine; ASend (mframe 2); fine; fine;
  fine; AProcess Nothing; fine; fine; AProcess (Datagram 3 9 40000 (bytes_of (mframe 1)) true); ASend (mframe 3)].
Definition hear_acts := repeat fine 5 ++ [AProcess (Datagram 10 9 40000 (bytes_of (mframe 1)) true)] ++ repeat fine 3 ++
  [AProcess (Datagram 11 9 50000 (bytes_of (mframe 7)) true); APoll] ++ repeat fine 3 ++
  [AProcess (Datagram 12 9 40000 (bytes_of (mframe 2)) true)] ++ repeat fine 3 ++
  [AProcess (Datagram 13 9 40000 (bytes_of (mframe 3)) true); APoll].
Example C125_case :
  let a := run 1000 50 my_ports start send_acts in let b := run 1000 50 your_ports start hear_acts in
  accepted (mc_log a) = [mframe 1; mframe 2; mframe 3] /\
  sent (mc_log a) = map bytes_of [mframe 1; mframe 2] /\ in_hand a = [] /\ mc_tx a = [mframe 3] /\
  (let a := run 1000 50 my_ports a (repeat fine 7) in
   idle a /\ sent (mc_log a) = map bytes_of [mframe 1; mframe 2; mframe 3] /\
   map snd (filter (fun h => negb (snd (fst h) =? your_ports 0%nat)%N) (heard (mc_log b))) = sent (mc_log a)) /\
  calm send_acts /\ mc_conns b = 1%nat /\ all_named hear_acts /\
  map c_ts (delivered (mc_log b)) = [10; 12]%Z /\ map c_data (mc_rx b) = [[1; 2; 3]%N] /\
  forallb (fun n => (length (mc_rx (run 1000 50 my_ports start (firstn n send_acts))) <? 50)%nat) (seq 0 30) = true.
Proof.
  cbv zeta. split; [vm_compute; reflexivity|]. split; [vm_compute; reflexivity|]. split; [vm_compute; reflexivity|].
  split; [vm_compute; reflexivity|]. split.
  { split; [split; [vm_compute; discriminate|split; vm_compute; reflexivity]|]. split; vm_compute; reflexivity. }
  split; [vm_compute; intuition discriminate|]. split; [vm_compute; reflexivity|].
  split; [intros now ad po b; vm_compute; intuition discriminate|].
  vm_compute. auto.
Qed.

(** The serial tunnel on the wire, and the MAVLink tunnel: C132, C133. *)
From Verif.Base Require Import Prelude Bits.
From Verif.Model Require Import Types Codec MsgId Frames TransferManager Node Serial MavTunnel.
From Verif.Spec Require Import CodecSpec PrimSpec FrameSpec NodeSpec SendingSpec CallSpec StreamSpec SerialSpec TunnelSpec.
From Verif.Proofs Require Import PrimFacts NodeTop TunnelFacts.
From Verif.Properties Require Import NodeProps CallProps StreamProps.
Local Open Scope Z_scope.

(** C132: what [recv] returns is broadcast in messages of 1 to 120 bytes that
    hold it in order, and no fewer would do. *)
Theorem C132_chunks : forall own data,
  Forall (fun m => (1 <= length (m_buffer m) <= 120)%nat) (publish own data) /\ payload (publish own data) = data /\
  forall ms, Forall (fun m => (length (m_buffer m) <= 120)%nat) ms -> payload ms = data ->
    (length (publish own data) <= length ms)%nat.
Proof. exact publish_best. Qed.
Print Assumptions C132_chunks.

(** C132: while a client is connected and nothing raises, all its bytes are
    broadcast, in order, and it gets the bytes of all messages for the node,
    in order. *)
Theorem C132_session : forall own pre mid,
  Forall (fun e => e <> Connects) pre -> Forall smooth mid ->
  let s := tunnel_run own (pre ++ Connects :: mid) in
  gave (tn_log s) = bytes_for own (came mid) /\ payload (put_out (tn_log s)) = typed mid /\ clients (tn_log s) = 1%nat.
Proof. exact session. Qed.
Print Assumptions C132_session.

(** C132: the messages are heard as they were sent, field for field. *)
Theorem C132_wire : forall A insA insA1 a d B ins0 ins1 w crc hd ms,
  linked A insA insA1 a d B ins0 ins1 -> listens B ins0 w d crc hd ->
  Forall (fits w) ms -> puts_out A insA insA1 w d crc ms ->
  heard_from w hd a d (n_log (ran B ins0)) (n_log (ran B (ins0 ++ ins1))) (map (from_source a) ms).
Proof. exact link. Qed.
Print Assumptions C132_wire.

(** C132: from the client to a port of node 10, across the bus. *)
Theorem C132_to_port : forall A insA insA1 a d B ins0 ins1 w crc hd pre mid dev' lock' baud' ops',
  linked A insA insA1 a d B ins0 ins1 -> listens B ins0 w d crc hd -> tunnel_fits w ->
  Forall (fun e => e <> Connects) pre -> Forall smooth mid -> Forall is_byte (typed mid) ->
  puts_out A insA insA1 w d crc (put_out (tn_log (tunnel_run a (pre ++ Connects :: mid)))) ->
  let s := run_port (Some 10%N) a dev' lock' baud' ops' in
  heard_from w hd a d (n_log (ran B ins0)) (n_log (ran B (ins0 ++ ins1))) (coming_from a (recv_in (p_log s))) ->
  ~ In EFlush (p_log s) ->
  read_in (p_log s) ++ p_buf s = typed mid.
Proof. exact tunnel_to_port. Qed.
Print Assumptions C132_to_port.

(** C132: and back. Full claim: the client gets what the port of node [a]
    writes. This is so if no other node sends messages to the tunnel. *)
Theorem C132_to_client_partial : forall A insA insA1 a d B ins0 ins1 w crc hd own dev lock baud ops pre mid,
  linked A insA insA1 a d B ins0 ins1 -> listens B ins0 w d crc hd ->
  port_fits w own dev lock baud ops -> writes_return (Some a) own dev lock (fresh baud) ops -> Forall is_byte (written ops) ->
  puts_out A insA insA1 w d crc (sent_in (p_log (run_port (Some a) own dev lock baud ops))) ->
  Forall (fun e => e <> Connects) pre -> Forall smooth mid ->
  heard_from w hd a d (n_log (ran B ins0)) (n_log (ran B (ins0 ++ ins1))) (coming_from a (came mid)) ->
  Forall (fun m => m_target m = own -> m_source m = a) (came mid) ->
  gave (tn_log (tunnel_run own (pre ++ Connects :: mid))) = written ops.
Proof. exact port_to_tunnel. Qed.
Print Assumptions C132_to_client_partial.

(** The tunnel does not look at the source: the bytes of other nodes are mixed
    in, though it sends to node 10 only. *)
Definition tun_msg (src dst : N) (b : list N) : tmsg :=
  {| m_source := src; m_target := dst; m_serial := 1; m_protocol := 1; m_options := 1; m_baud := 115200; m_buffer := b |}.
Theorem C132_to_client_refuted : exists mid,
  Forall smooth mid /\ Forall (fun m => m_target m = 42%N) (came mid) /\
  gave (tn_log (tunnel_run 42 (Connects :: mid))) <> payload (coming_from 10 (came mid)).
Proof.
  exists [Hears (tun_msg 10 42 [1; 2]%N) true; Hears (tun_msg 11 42 [9]%N) true; Hears (tun_msg 10 42 [3]%N) true].
  split; [repeat constructor|]. split; [repeat constructor|]. vm_compute. discriminate.
Qed.
Print Assumptions C132_to_client_refuted.

(** C132: at most one client is ever served. *)
Theorem C132_one_client : forall own es, (clients (tn_log (tunnel_run own es)) <= 1)%nat.
Proof. exact one_client. Qed.
Print Assumptions C132_one_client.
(** Full claim, false: after a client has gone, the next one is served. The
    thread has ended, or still reads from the first connection. *)
Theorem C132_next_client_refuted :
  (exists gone, forall m more,
     m_target m = 42%N -> m_buffer m <> [] ->
     clients (tn_log (tunnel_run 42 (gone ++ Connects :: Hears m true :: more))) = 1%nat /\
     gave (tn_log (tunnel_run 42 (gone ++ Connects :: Hears m true :: more))) = []) /\
  (forall n es, tunnel_run 42 (Connects :: repeat (Receives [] None) n ++ Connects :: es) = tunnel_run 42 (Connects :: es)).
Proof.
  split.
  - exists [Connects; Breaks]. intros m more Hm Hb.
    change (tunnel_run 42 ([Connects; Breaks] ++ Connects :: Hears m true :: more))
      with (fold_left (tunnel_step 42) (Connects :: Hears m true :: more) (Tunnel Ended [Accepted; Raised])).
    destruct (over 42 (Tunnel Ended [Accepted; Raised]) (Connects :: Hears m true :: more) eq_refl) as (-> & ->). split; reflexivity.
  - intros n es. unfold tunnel_run. cbn [fold_left]. rewrite fold_left_app. cbn [fold_left].
    replace (fold_left (tunnel_step 42) (repeat (Receives [] None) n) (tunnel_step 42 new_tunnel Connects))
      with (tunnel_step 42 new_tunnel Connects); [reflexivity|].
    induction n as [|n IH]; [reflexivity|]. exact IH.
Qed.
Print Assumptions C132_next_client_refuted.

(** C133: what one port writes, the other reads, across the bus. *)
Theorem C133_serial : forall A insA insA1 a d B ins0 ins1 w crc hd b dev lock baud ops dev' lock' baud' ops',
  linked A insA insA1 a d B ins0 ins1 -> listens B ins0 w d crc hd ->
  port_fits w b dev lock baud ops -> writes_return (Some a) b dev lock (fresh baud) ops -> Forall is_byte (written ops) ->
  puts_out A insA insA1 w d crc (sent_in (p_log (run_port (Some a) b dev lock baud ops))) ->
  let s := run_port (Some b) a dev' lock' baud' ops' in
  heard_from w hd a d (n_log (ran B ins0)) (n_log (ran B (ins0 ++ ins1))) (coming_from a (recv_in (p_log s))) ->
  ~ In EFlush (p_log s) ->
  read_in (p_log s) ++ p_buf s = written ops.
Proof. exact serial. Qed.
Print Assumptions C133_serial.

(** Nodes 42 and 10; other nodes send as well. *)
Definition tun_w := Widths 8 7 5 5 24.
Definition tun_dt := targetted_datatype 3001 0xBEEF tun_w.
Definition tun_types : datatypes := fun id svc => if negb svc && (id =? 3001)%N then Some tun_dt else None.
Definition tun_with (drv : list nobs -> list frame -> option exn) (id : N) := Station ex_clk quiet drv (fun _ => ex_value) ex_message tun_types 1000
  (Some id) false true 300 (2%N, true) 20.
Definition tun_station := tun_with good_driver.
Definition tun_casts (ms : list tmsg) : list bcast :=
  map (fun m => Bcast tun_dt (match targetted tun_w m with Ok v => v | Err _ => VVoid end) None None) ms.
Definition tun_inputs (ms : list tmsg) : list ninput := flat_map (fun b => [IPoll; IOp (broadcasting b)]) (tun_casts ms) ++ [IPoll].
Definition tun_ins0 := [IPoll; IOp (NAddHandler (Some (3001%N, false)) false)].
Definition tun_hd := Handler 1 (Some (3001%N, false)) false.
Definition tun_heard_with drv (id : N) (ms : list tmsg) : list ninput :=
  flat_map (fun f => [IFrame true f; other_frame; IPoll]) (new_frames (tun_with drv id) [IPoll] (tun_inputs ms)).
Definition tun_heard := tun_heard_with good_driver.

Example C132_link : forall drv a b ms, (1 <= a < 128)%N -> n_id (ran (tun_with drv a) [IPoll]) = Some a ->
  (length (handlers_of (ran (tun_station b) tun_ins0)) < 20)%nat ->
  bus (n_log (ran (tun_with drv a) ([IPoll] ++ tun_inputs ms))) =
    bus (n_log (ran (tun_with drv a) [IPoll])) ++ new_frames (tun_with drv a) [IPoll] (tun_inputs ms) ->
  filter (of_type a 3001) (heard (tun_heard_with drv a ms)) = filter (of_type a 3001) (new_frames (tun_with drv a) [IPoll] (tun_inputs ms)) ->
  linked (tun_with drv a) [IPoll] (tun_inputs ms) a 3001 (tun_station b) tun_ins0 (tun_heard_with drv a ms).
Proof.
  intros drv a b ms Ha Hn Hl Hb Hh.
  assert (R : forall fs, Forall2 same_frame fs fs) by (induction fs; constructor; [repeat split|assumption]).
  split; [exact Hn|]. split; [exact Ha|]. split; [intros l dt v p c x []|]. split; [discriminate|].
  split; [reflexivity|]. split.
  { split; [intros l op c []|]. intros i Hi. unfold tun_heard_with in Hi. apply in_flat_map in Hi as (f & _ & Hi).
    destruct Hi as [<-|[<-|[<-|[]]]]; exact I. }
  split; [exact Hl|]. split.
  { intros id svc dt. cbn. unfold tun_types. destruct svc; [discriminate|]. cbn [negb andb].
    destruct (N.eqb_spec id 3001); [|discriminate]. intros E. injection E as <-. subst. reflexivity. }
  exists (new_frames (tun_with drv a) [IPoll] (tun_inputs ms)). split; [exact Hb|]. rewrite Hh. apply R.
Qed.
Example C132_listens : forall b, registered tun_hd (handlers_of (ran (tun_station b) tun_ins0)) ->
  listens (tun_station b) tun_ins0 tun_w 3001 0xBEEF tun_hd.
Proof.
  intros b H. split; [lia|]. split; [lia|]. split; [unfold sound; cbn; lia|]. split; [reflexivity|]. split; [exact H|reflexivity].
Qed.

(** A client of node 42 sends 2 and 5 bytes, another connects in vain. *)
Definition tun_pre := [Hears (tun_msg 10 42 [99]%N) true].
Definition tun_mid := [Receives [1; 2]%N None; Hears (tun_msg 10 42 [20; 21]%N) true; Connects; Hears (tun_msg 10 43 [88]%N) true;
  Receives [3; 4; 5; 6; 7]%N None; Hears (tun_msg 10 42 []) true; Receives [] None; Hears (tun_msg 10 42 [22]%N) true].
Definition tun_out := Eval vm_compute in put_out (tn_log (tunnel_run 42 (tun_pre ++ Connects :: tun_mid))).
Definition tun_got := Eval vm_compute in map (from_source 42) tun_out.
(** Node 10 hears node 6 as well. *)
Definition tun_ops := [OSpin (firstn 1 tun_got ++ [tun_msg 6 10 [77]%N]) Done; ORead 1 [] Done 100 []; OSpin (skipn 1 tun_got) Done].
Definition tun_port := run_port (Some 10%N) 42 1 0 115200 tun_ops.
Example C132_case :
  gave (tn_log (tunnel_run 42 (tun_pre ++ Connects :: tun_mid))) = [20; 21; 22]%N /\ map m_buffer tun_out = [[1; 2]; [3; 4; 5; 6; 7]]%N /\
  length (publish 42 (repeat 1%N 130)) = 2%nat /\
  tun_casts tun_out = casts 3001 (tun_inputs tun_out) /\
  Forall (fun m => exists v, targetted tun_w m = Ok v) tun_out /\
  n_id (ran (tun_station 42) [IPoll]) = Some 42%N /\ registered tun_hd (handlers_of (ran (tun_station 10) tun_ins0)) /\
  filter (of_type 42 3001) (heard (tun_heard 42 tun_out)) = filter (of_type 42 3001) (new_frames (tun_station 42) [IPoll] (tun_inputs tun_out)) /\
  map (fun f => (f_id f / 256) mod 2 ^ 16)%N (new_frames (tun_station 42) [IPoll] (tun_inputs tun_out)) = [341; 3001; 3001; 341; 3001; 3001; 341]%N /\
  map (message_in tun_w) (TunnelSpec.calls tun_hd (filter (said_of 42 3001) (handled (n_log (ran (tun_station 10) tun_ins0))))) = [] /\
  map (message_in tun_w) (TunnelSpec.calls tun_hd (filter (said_of 42 3001) (handled (n_log (ran (tun_station 10) (tun_ins0 ++ tun_heard 42 tun_out)))))) =
    map Some (coming_from 42 (recv_in (p_log tun_port))) /\
  read_in (p_log tun_port) = [1]%N /\ p_buf tun_port = [2; 3; 4; 5; 6; 7]%N.
Proof. vm_compute. repeat split; repeat (apply Forall_cons || apply Forall_nil); try (eexists; reflexivity). Qed.
Example C132_fits : tunnel_fits tun_w /\ Forall (fits tun_w) tun_out /\ Forall smooth tun_mid /\ Forall is_byte (typed tun_mid) /\
  Forall (fun e => e <> Connects) tun_pre.
Proof.
  split; [unfold tunnel_fits, representable; cbn; lia|]. split.
  - repeat (apply Forall_cons || apply Forall_nil); unfold fits, representable, is_byte; cbn; repeat split; try lia; repeat constructor; lia.
  - repeat split; repeat constructor; unfold is_byte; try lia; discriminate.
Qed.

(** A port of node 10 writes 3 and 4 bytes to node 42; after a pause a read sends
    an empty message. The port of node 42 reads twice. *)
Definition ser_turn := {| t_arrive := []; t_spin := Done; t_cast := Done; t_time := 1000 |}.
Definition ser_ops := [OWrite [5; 6; 7]%N [ser_turn]; ORead 4 [] Done 1600 [ser_turn]; OSetBaud 57600; OWrite [8; 9; 10; 11]%N [ser_turn]].
Definition ser_out := Eval vm_compute in sent_in (p_log (run_port (Some 10%N) 42 1 0 115200 ser_ops)).
Definition ser_got := Eval vm_compute in map (from_source 10) ser_out.
Definition ser_port := run_port (Some 42%N) 10 1 0 115200
  [OSpin (firstn 2 ser_got) Done; ORead 2 [tun_msg 6 42 [77]%N] Done 100 []; ORead 9 (skipn 2 ser_got) Done 110 []].
Definition ser_mid := map (fun m => Hears m true) ser_got.
Example C133_case :
  map m_buffer ser_out = [[5; 6; 7]; []; [8; 9; 10; 11]]%N /\ map m_baud ser_out = [115200; 115200; 57600] /\
  tun_casts ser_out = casts 3001 (tun_inputs ser_out) /\
  writes_return (Some 10%N) 42 1 0 (fresh 115200) ser_ops /\
  n_id (ran (tun_station 10) [IPoll]) = Some 10%N /\ registered tun_hd (handlers_of (ran (tun_station 42) tun_ins0)) /\
  map (message_in tun_w) (TunnelSpec.calls tun_hd (filter (said_of 10 3001) (handled (n_log (ran (tun_station 42) tun_ins0))))) = [] /\
  map (message_in tun_w) (TunnelSpec.calls tun_hd (filter (said_of 10 3001) (handled (n_log (ran (tun_station 42) (tun_ins0 ++ tun_heard 10 ser_out)))))) =
    map Some (coming_from 10 (recv_in (p_log ser_port))) /\
  read_in (p_log ser_port) = [5; 6; 7; 8; 9; 10; 11]%N /\ p_buf ser_port = [] /\
  gave (tn_log (tunnel_run 42 (tun_pre ++ Connects :: ser_mid))) = [5; 6; 7; 8; 9; 10; 11]%N.
Proof. vm_compute. repeat split; try (eexists; reflexivity). Qed.
Example C133_fits : port_fits tun_w 42 1 0 115200 ser_ops /\ Forall is_byte (written ser_ops).
Proof.
  split; [|repeat constructor; unfold is_byte; lia].
  unfold port_fits, representable. cbn. repeat split; try lia; repeat constructor; cbn; lia.
Qed.

(** The hypotheses of the theorems hold in these cases. *)
Example C132_linked : linked (tun_station 42) [IPoll] (tun_inputs tun_out) 42 3001 (tun_station 10) tun_ins0 (tun_heard 42 tun_out) /\
  linked (tun_station 10) [IPoll] (tun_inputs ser_out) 10 3001 (tun_station 42) tun_ins0 (tun_heard 10 ser_out).
Proof. split; apply (C132_link good_driver); try lia; vm_compute; repeat constructor. Qed.
Lemma tun_broadcasts ms : forallb (fun m => match targetted tun_w m with Ok _ => true | _ => false end) ms = true ->
  Forall2 (broadcasts tun_w tun_dt) ms (tun_casts ms).
Proof.
  induction ms as [|m ms IH]; intros H; [constructor|]. cbn [forallb] in H. apply andb_true_iff in H as (H & Hs).
  unfold tun_casts. cbn [map]. fold (tun_casts ms). constructor; [|apply IH; exact Hs]. split; [reflexivity|]. split; [|exact I].
  cbn [b_value]. destruct (targetted tun_w m); [reflexivity|discriminate].
Qed.
Lemma tun_puts_out drv a tries ms oks : tun_casts tries = casts 3001 (tun_inputs tries) ->
  forallb (fun m => match targetted tun_w m with Ok _ => true | _ => false end) tries = true ->
  outcomes 3001 (n_log (ran (tun_with drv a) ([IPoll] ++ tun_inputs tries))) = outcomes 3001 (n_log (ran (tun_with drv a) [IPoll])) ++ oks ->
  those tries oks = ms -> (forall m, In m tries -> In m ms) -> puts_out (tun_with drv a) [IPoll] (tun_inputs tries) tun_w 3001 0xBEEF ms.
Proof.
  intros Ec Hf Ho Et Hi. exists tries, oks. rewrite <- Ec. split; [apply tun_broadcasts; exact Hf|]. split; [exact Ho|]. split; [exact Et|].
  apply Forall_forall. auto.
Qed.
Lemma tun_heard_from a ms ms' before after :
  map (message_in tun_w) (TunnelSpec.calls tun_hd (filter (said_of a 3001) (handled before))) = [] ->
  map (message_in tun_w) (TunnelSpec.calls tun_hd (filter (said_of a 3001) (handled after))) = map Some ms -> ms' = ms ->
  heard_from tun_w tun_hd a 3001 before after ms'.
Proof. intros H0 H1 ->. eexists. split; [|exact H1]. destruct (TunnelSpec.calls _ (filter _ (handled before))); [reflexivity|discriminate]. Qed.
Example C132_to_port_case : read_in (p_log tun_port) ++ p_buf tun_port = typed tun_mid.
Proof.
  destruct C132_fits as (F1 & F2 & F3 & F4 & F5).
  apply (C132_to_port (tun_station 42) [IPoll] (tun_inputs tun_out) 42 3001 (tun_station 10) tun_ins0 (tun_heard 42 tun_out)
           tun_w 0xBEEF tun_hd tun_pre tun_mid 1 0 115200 tun_ops (proj1 C132_linked)); try assumption.
  - apply C132_listens. vm_compute. reflexivity.
  - change (put_out _) with tun_out. apply tun_puts_out with (oks := [true; true]); try (vm_compute; reflexivity). auto.
  - eapply tun_heard_from with (ms := tun_got); vm_compute; reflexivity.
  - vm_compute. clear. intuition discriminate.
Qed.
Example C133_serial_case : read_in (p_log ser_port) ++ p_buf ser_port = written ser_ops.
Proof.
  destruct C133_fits as (F1 & F2).
  apply (C133_serial (tun_station 10) [IPoll] (tun_inputs ser_out) 10 3001 (tun_station 42) tun_ins0 (tun_heard 10 ser_out)
           tun_w 0xBEEF tun_hd 42 1 0 115200 ser_ops 1 0 115200
           [OSpin (firstn 2 ser_got) Done; ORead 2 [tun_msg 6 42 [77]%N] Done 100 []; ORead 9 (skipn 2 ser_got) Done 110 []] (proj2 C132_linked)); try assumption.
  - apply C132_listens. vm_compute. reflexivity.
  - vm_compute. repeat split; eexists; reflexivity.
  - change (sent_in _) with ser_out. apply tun_puts_out with (oks := [true; true; true]); try (vm_compute; reflexivity). auto.
  - eapply tun_heard_from with (ms := ser_got); vm_compute; reflexivity.
  - vm_compute. clear. intuition discriminate.
Qed.

(** The same when the transmit queue of node 10 is full twice, each time after the
    first frame. *)
Definition full_turn := {| t_arrive := []; t_spin := Done; t_cast := Full; t_time := 1000 |}.
Definition full_ops := [OWrite [5; 6; 7]%N [full_turn; ser_turn]; ORead 4 [] Done 1600 [ser_turn]; OSetBaud 57600; OWrite [8; 9; 10; 11]%N [full_turn; ser_turn]].
Definition full_drv (l : list nobs) (pre : list frame) : option exn :=
  let n := length (outcomes 3001 l) in if (Nat.eqb n 0 || Nat.eqb n 3) && Nat.eqb (length pre) 1 then Some DriverError else None.
Definition full_tries := Eval vm_compute in flat_map (fun m => match m_buffer m with [] => [m] | _ => [m; m] end) ser_out.
Example C133_full_case :
  length (filter (of_type 10 3001) (new_frames (tun_with full_drv 10) [IPoll] (tun_inputs full_tries))) = 7%nat /\
  read_in (p_log ser_port) ++ p_buf ser_port = written full_ops.
Proof.
  split; [vm_compute; reflexivity|]. destruct C133_fits as (F1 & F2).
  assert (F3 : port_fits tun_w 42 1 0 115200 full_ops).
  { unfold port_fits, representable. cbn. repeat split; try lia; repeat constructor; cbn; lia. }
  apply (C133_serial (tun_with full_drv 10) [IPoll] (tun_inputs full_tries) 10 3001 (tun_station 42) tun_ins0 (tun_heard_with full_drv 10 full_tries)
           tun_w 0xBEEF tun_hd 42 1 0 115200 full_ops 1 0 115200
           [OSpin (firstn 2 ser_got) Done; ORead 2 [tun_msg 6 42 [77]%N] Done 100 []; ORead 9 (skipn 2 ser_got) Done 110 []]); try assumption.
  - apply C132_link; try lia; vm_compute; repeat constructor.
  - apply C132_listens. vm_compute. reflexivity.
  - vm_compute. repeat split; eexists; reflexivity.
  - change (sent_in _) with ser_out. apply tun_puts_out with (oks := [false; true; true; false; true]); try (vm_compute; reflexivity).
    intros m. cbn. tauto.
  - eapply tun_heard_from with (ms := ser_got); vm_compute; reflexivity.
  - vm_compute. clear. intuition discriminate.
Qed.

(** Properties of CAN over MAVLink: C105 to C108. *)
From Coq Require Import Sorting.Sorted Sorting.Permutation.
From Verif.Base Require Import Prelude.
From Verif.Model Require Import CanFrame Packets Mavcan.
From Verif.Spec Require Import PacketSpec MavcanSpec.
From Verif.Proofs Require Import MavcanFacts.
From Verif.Properties Require Import PacketProps.
Local Open Scope Z_scope.

(** ** C105 *)

(** The frames given to the link are sent, each once and in order, whatever
    happens in between; each goes to the system known at that time, with the bus
    selected at that time, and is read as the same frame. *)
Theorem C105_sent : forall bus target start l, bus_ok bus -> buses_ok l -> frames_ok l ->
  Forall2 (carries bus target) (frames_given l) (can_sent (v_sent (mav_run (mav_new bus target false start) l))).
Proof. exact all_sent. Qed.
Print Assumptions C105_sent.

Definition mav_heard : mavmsg := {| mv_fd := false; mv_bus := 0; mv_len := 2%nat; mv_id := 5; mv_data := [7; 8; 0; 0; 0; 0; 0; 0]%N |}.
Definition mav_history : list mav_event :=
  [Take 10 (Frame example_frame); Recv 20 (Message 3 mav_heard); Take 30 (BusNum 1); Recv 40 LinkLost; Take 2000000 (Frame example_frame); Recv 2000010 NoMessage].
Example C105_case : bus_ok 0 /\ buses_ok mav_history /\ frames_ok mav_history /\
  map (fun x => (fst x, mv_bus (snd x))) (can_sent (v_sent (mav_run (mav_new 0 0 false 0) mav_history))) = [(0, 0%N); (3, 1%N)].
Proof.
  split; [unfold bus_ok; lia|]. split; [|split].
  - intros now b I. cbn in I. repeat (destruct I as [I|I]; [try discriminate I|]); try contradiction. injection I as <- <-. unfold bus_ok. lia.
  - intros now f I. cbn in I. repeat (destruct I as [I|I]; [try discriminate I; injection I as <- <-; apply example_frame_ok|]). contradiction.
  - vm_compute. reflexivity.
Qed.

(** ** C106

    The full statement is: forwarding of the selected bus is requested every
    second (autopilots stop forwarding without). *)

(** It is false while messages come in and nothing is sent: no request is made
    however long that lasts. *)
Theorem C106_renewed_refuted : forall duration, exists l, in_order 0 l /\
  (forall n e e', nth_error l n = Some e -> nth_error l (S n) = Some e' -> time_of e' <= time_of e + 5000) /\
  (exists e, In e l /\ duration <= time_of e) /\
  v_sent (mav_run (mav_new 0 1 false 0) l) = [Forward 1 1].
Proof.
  intros duration. set (m := Z.to_nat duration). set (e := fun n => Recv (5000 * Z.of_nat n) (Message 1 mav_heard)).
  exists (map e (seq 0 (S m))). split; [|split; [|split]].
  - unfold in_order. rewrite map_map. cbn [time_of e]. constructor.
    + generalize 0%nat. induction (S m) as [|k IH]; intros b; cbn [seq map]; [constructor|]. constructor; [apply IH|].
      destruct k; cbn [seq map]; constructor. lia.
    + cbn [seq map]. constructor. lia.
  - intros n x x' A B. rewrite nth_error_map in A, B.
    assert (I : (S n < length (seq 0 (S m)))%nat) by (apply nth_error_Some; destruct (nth_error (seq 0 (S m)) (S n)); [discriminate|discriminate B]).
    rewrite seq_length in I. rewrite (nth_error_nth' _ 0%nat) in A by (rewrite seq_length; lia). rewrite (nth_error_nth' _ 0%nat) in B by (rewrite seq_length; lia).
    rewrite seq_nth in A by lia. rewrite seq_nth in B by lia.
    cbn [option_map] in A, B. injection A as <-. injection B as <-. cbn [time_of e]. lia.
  - exists (e m). split; [apply in_map, in_seq; lia|]. cbn [time_of e]. lia.
  - assert (G : forall k b s, v_sent (mav_run s (map e (seq b k))) = v_sent s).
    { induction k as [|k IH]; intros b s; [reflexivity|]. cbn [seq map]. unfold mav_run. cbn [fold_left].
      fold (mav_run (mav_step s (e b)) (map e (seq (S b) k))). rewrite IH. reflexivity. }
    rewrite G. reflexivity.
Qed.
Print Assumptions C106_renewed_refuted.

(** Otherwise: whenever nothing came in for a while and whenever a frame is
    sent, there has been a request in the last second. *)
Theorem C106_renewed_partial : forall bus target start l e, checks e ->
  exists t, requested_at bus target start (l ++ [e]) t /\ time_of e - 1000000 <= t.
Proof. exact checked. Qed.
Print Assumptions C106_renewed_partial.
(** A request is for the bus selected at the time and goes to the system known
    at the time, and requests are more than a second apart. *)
Theorem C106_request_partial : forall bus target start l e new, in_order start (l ++ [e]) -> added bus target start l e new -> Exists is_forward new ->
  requests bus target l new /\ checks e /\ forall t, requested_at bus target start l t -> t + 1000000 < time_of e.
Proof. exact request_right. Qed.
Print Assumptions C106_request_partial.
Example C106_case : in_order 0 (mav_history ++ [Recv 3000001 NoMessage]) /\ checks (Recv 3000001 NoMessage) /\
  added 0 0 0 mav_history (Recv 3000001 NoMessage) [Forward 3 2] /\
  v_sent (mav_run (mav_new 0 0 false 0) mav_history) = [Forward 0 1; CanSent 0 (match mav_message 0 example_frame with Some m => m | None => mav_heard end);
    CanSent 3 (match mav_message 1 example_frame with Some m => m | None => mav_heard end); Forward 3 2].
Proof.
  split; [unfold in_order; cbn; repeat constructor; lia|]. split; [exact I|]. split; vm_compute; reflexivity.
Qed.

(** ** C107

    The full statement is: the frames reported are those that the system
    addressed forwards from the selected bus, in order, each once. *)

(** It is false: the bus of the messages is not looked at, *)
Theorem C107_bus_refuted : exists bus start l m, messages l = [m] /\ Z.of_N (mv_bus (snd m)) <> bus_after bus l /\
  v_received (mav_run (mav_new bus 1 false start) l) <> [].
Proof.
  exists 0, 0, [Take 5 (BusNum 1); Recv 10 (Message 1 mav_heard)], (10, mav_heard). split; [reflexivity|]. split; [cbn; lia|]. vm_compute. discriminate.
Qed.
Print Assumptions C107_bus_refuted.
(** nor is the system they come from. *)
Theorem C107_system_refuted : exists target system l, target <> 0 /\ system <> target /\ l = [Recv 10 (Message system mav_heard)] /\
  v_received (mav_run (mav_new 0 target false 0) l) <> [].
Proof. exists 1, 2. eexists. split; [lia|]. split; [lia|]. split; [reflexivity|]. vm_compute. discriminate. Qed.
Print Assumptions C107_system_refuted.
(** What is reported is every message that comes, in order and once. *)
Theorem C107_received_partial : forall bus target start l,
  v_received (mav_run (mav_new bus target false start) l) = map (fun x => mav_parse (fst x) (snd x)) (messages l).
Proof. exact all_received. Qed.
Print Assumptions C107_received_partial.
Example C107_case : v_received (mav_run (mav_new 0 0 false 0) mav_history) = [CFrame 5 [7; 8]%N false false 20].
Proof. reflexivity. Qed.

(** ** C108

    The full statement is: when forwarding is requested after a filter was set,
    the other side has that filter afterwards. *)

(** It is false for more than 16 identifiers, the rest of which is left out, *)
Theorem C108_long_refuted : exists ids l, NoDup ids /\ Forall (fun i => 0 < i < 65536) ids /\ filter_after None l = Some ids /\
  Exists is_forward (v_sent (mav_run (mav_new 0 1 false 0) l)) /\
  exists num out i, remote_filter (v_sent (mav_run (mav_new 0 1 false 0) l)) = Some (num, out) /\ In i ids /\ ~ In i out.
Proof.
  exists [1; 2; 3; 4; 5; 6; 7; 8; 9; 10; 11; 12; 13; 14; 15; 16; 341].
  exists [Take 1 (FilterList (Some [1; 2; 3; 4; 5; 6; 7; 8; 9; 10; 11; 12; 13; 14; 15; 16; 341])); Recv 2000000 NoMessage].
  split; [repeat (constructor; [cbn; lia|]); constructor|]. split; [repeat (constructor; [lia|]); constructor|]. split; [reflexivity|].
  split; [vm_compute; left; exact I|]. eexists. eexists. exists 341. split; [vm_compute; reflexivity|]. split; [cbn; tauto|]. cbn. lia.
Qed.
Print Assumptions C108_long_refuted.
(** and for taking the filter away. *)
Theorem C108_clear_refuted : exists l, filter_after None l = None /\
  (exists a b new, l = a ++ b /\ filter_after None a = None /\ added 0 1 0 a (Recv 4000000 NoMessage) new /\ b = [Recv 4000000 NoMessage] /\ Exists is_forward new) /\
  remote_filter (v_sent (mav_run (mav_new 0 1 false 0) l)) = Some (1, 341 :: repeat 0 15).
Proof.
  exists ([Take 1 (FilterList (Some [341])); Recv 2000000 NoMessage; Take 2000001 (FilterList None)] ++ [Recv 4000000 NoMessage]).
  split; [reflexivity|]. split; [|vm_compute; reflexivity].
  eexists. eexists. exists [Forward 1 1]. split; [reflexivity|]. split; [reflexivity|]. split; [vm_compute; reflexivity|]. split; [reflexivity|]. left. exact I.
Qed.
Print Assumptions C108_clear_refuted.
(** Up to 16 identifiers are all sent with the request, sorted. *)
Theorem C108_filter_partial : forall bus target start l e new ids, added bus target start l e new -> Exists is_forward new -> filter_after None l = Some ids ->
  (length ids <= 16)%nat -> Forall (fun i => 0 <= i < 65536) ids ->
  exists front num out, new = front ++ [Forward (target_after target l) (bus_after bus l + 1); Filter (target_after target l) (bus_after bus l + 1) num out] /\ filter_of ids num out.
Proof. exact filter_right. Qed.
Print Assumptions C108_filter_partial.
Example C108_case : added 0 1 0 [Take 1 (FilterList (Some [341; 7]))] (Take 2000000 (Frame example_frame))
  [CanSent 1 (match mav_message 0 example_frame with Some m => m | None => mav_heard end); Forward 1 1; Filter 1 1 2 (7 :: 341 :: repeat 0 14)] /\
  filter_of [341; 7] 2 (7 :: 341 :: repeat 0 14).
Proof.
  split; [vm_compute; reflexivity|]. exists [7; 341]. split; [apply perm_swap|]. split; [repeat constructor; lia|]. auto.
Qed.

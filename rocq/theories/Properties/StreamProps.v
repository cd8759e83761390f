(** What one node sends, one transfer after another, as another node hears it: C131. *)
From Verif.Base Require Import Prelude Bits.
From Verif.Model Require Import Types Codec MsgId Frames TransferManager Node.
From Verif.Spec Require Import CodecSpec NodeSpec MsgIdSpec FrameSpec ReassemblySpec SendingSpec CallSpec StreamSpec.
From Verif.Proofs Require Import NodeFacts NodeTop StreamFacts TypedStream.
From Verif.Properties Require Import FrameProps NodeProps CallProps.
Local Open Scope Z_scope.

(** C131: whatever transfers node [a] sends one after another, messages and
    services, and whatever other nodes send between their frames: every message
    among them comes, with the content sent, once and in order, to every
    handler for it, and the handlers get no other message from [a]. *)
Theorem C131_all_heard : forall B ins0 ins1 a sds received,
  st_catch B = true -> steady (st_beh B) ins1 -> (length (handlers_of (ran B ins0)) < st_fuel B)%nat ->
  Forall2 (heard_as (st_types B) a) sds received -> filter (from_node a) (heard ins1) = concat received ->
  exists rs, Forall2 faithful (filter is_message sds) rs /\
    filter (said_by a) (handled (n_log (ran B (ins0 ++ ins1)))) =
    filter (said_by a) (handled (n_log (ran B ins0))) ++ flat_map (to_all (handlers_of (ran B ins0))) rs.
Proof. exact stream_heard. Qed.
Print Assumptions C131_all_heard.

(** C131, from call to handler: what [broadcast] is called with at one node,
    any number of times, is what the handlers of the other are called with. *)
Theorem C131_broadcasts : forall A insA a bs out B ins0 ins1,
  (forall l fs, st_drv A l fs = None) -> n_id (ran A insA) = Some a -> (1 <= a < 128)%N -> Forall (fit (st_types B)) bs ->
  bus (n_log (ran A (insA ++ broadcast_all bs))) = bus (n_log (ran A insA)) ++ out ->
  st_catch B = true -> steady (st_beh B) ins1 -> (length (handlers_of (ran B ins0)) < st_fuel B)%nat ->
  Forall2 same_frame out (filter (from_node a) (heard ins1)) ->
  exists rs, Forall2 (conveys a) bs rs /\
    filter (said_by a) (handled (n_log (ran B (ins0 ++ ins1)))) =
    filter (said_by a) (handled (n_log (ran B ins0))) ++ flat_map (to_all (handlers_of (ran B ins0))) rs.
Proof. exact broadcasts_heard. Qed.
Print Assumptions C131_broadcasts.

(** C131, for one type: whatever else both nodes do and send, of the messages
    of a type that only direct calls of [broadcast] send, every one reaches
    every handler, once and in order. Only the order of the frames of this type
    matters. *)
Theorem C131_one_type : forall A insA insA1 a d out B ins0 ins1,
  (forall l fs, st_drv A l fs = None) -> n_id (ran A insA) = Some a -> (1 <= a < 128)%N ->
  leaves_type d (st_beh A) -> dt_id (st_status_dt A) <> d -> Forall (fit (st_types B)) (casts d insA1) ->
  bus (n_log (ran A (insA ++ insA1))) = bus (n_log (ran A insA)) ++ out ->
  st_catch B = true -> steady (st_beh B) ins1 -> (length (handlers_of (ran B ins0)) < st_fuel B)%nat -> by_id (st_types B) ->
  Forall2 same_frame (filter (of_type a d) out) (filter (of_type a d) (heard ins1)) ->
  exists rs, Forall2 (conveys a) (casts d insA1) rs /\
    filter (said_of a d) (handled (n_log (ran B (ins0 ++ ins1)))) =
    filter (said_of a d) (handled (n_log (ran B ins0))) ++ flat_map (to_all (handlers_of (ran B ins0))) rs.
Proof. exact typed_heard. Qed.
Print Assumptions C131_one_type.

(** C131, when the driver refuses frames: of the messages of the type those
    reach the handlers whose calls of [broadcast] returned, and no others. Of
    the others the first frames may be on the bus. *)
Theorem C131_refused : forall A insA insA1 a d out oks B ins0 ins1,
  n_id (ran A insA) = Some a -> (1 <= a < 128)%N ->
  leaves_type d (st_beh A) -> dt_id (st_status_dt A) <> d -> Forall (fit (st_types B)) (casts d insA1) ->
  bus (n_log (ran A (insA ++ insA1))) = bus (n_log (ran A insA)) ++ out ->
  outcomes d (n_log (ran A (insA ++ insA1))) = outcomes d (n_log (ran A insA)) ++ oks ->
  st_catch B = true -> steady (st_beh B) ins1 -> (length (handlers_of (ran B ins0)) < st_fuel B)%nat -> by_id (st_types B) ->
  Forall2 same_frame (filter (of_type a d) out) (filter (of_type a d) (heard ins1)) ->
  length oks = length (casts d insA1) /\ (In false oks -> exists l fs, st_drv A l fs <> None) /\
  exists rs, Forall2 (conveys a) (those (casts d insA1) oks) rs /\
    filter (said_of a d) (handled (n_log (ran B (ins0 ++ ins1)))) =
    filter (said_of a d) (handled (n_log (ran B ins0))) ++ flat_map (to_all (handlers_of (ran B ins0))) rs.
Proof. exact typed_refused. Qed.
Print Assumptions C131_refused.

(** Node 42 broadcasts messages of ten bytes (two frames) and of one byte. Node
    5 has two handlers for the first type, the first of which raises, and one
    for all types. Node 42 starts in the middle of a transfer, and node 6
    sends between its frames. *)
Definition long_message := Datatype 2000 false 0xBEEF (TComp false [TArr true (TPrim KUint 8 Saturated) 20]) (TComp false []).
Definition stream_types : datatypes := fun id svc =>
  if svc then None else if (id =? 2000)%N then Some long_message else if (id =? 341)%N then Some ex_message else None.
Definition long_value (n : N) : value := call_value n.
(** A message of node 6. *)
Definition other_frame := IFrame true (Frame 0x03015506 [7; 0xC3]%N false None None).
Definition stream_beh (l : list nobs) : list (nop * bool) * outcome :=
  match last l (ONodeId 0) with
  | OHandled hd _ => if Nat.eqb (hd_id hd) 1 then ([], Raises) else ([], Returns None)
  | _ => ([], Returns None)
  end.
Definition talker := Station ex_clk quiet good_driver (fun _ => ex_value) ex_message stream_types 1000
  (Some 42%N) false true 100000 (2%N, true) 20.
Definition listener := Station ex_clk stream_beh good_driver (fun _ => ex_value) ex_message stream_types 1000
  (Some 5%N) false true 100000 (2%N, true) 20.
Definition stream_bs := [Bcast long_message (long_value 7) None None; Bcast ex_message ex_value (Some 3%N) None;
                         Bcast long_message (long_value 200) (Some 31%N) None; Bcast long_message (long_value 7) None None].
Definition stream_before := [IOp (NBroadcast long_message (long_value 9) None None); IRead].
Definition stream_out := Eval vm_compute in new_frames talker stream_before (broadcast_all stream_bs).
Definition stream_ins0 := Eval vm_compute in
  [IOp (NAddHandler (Some (2000%N, false)) false); IOp (NAddHandler (Some (2000%N, false)) false); IOp (NAddHandler None false)] ++
  map (IFrame true) (firstn 1 (new_frames talker [] stream_before)).
Definition stream_ins1 := Eval vm_compute in flat_map (fun f => [IFrame true f; other_frame; IPoll; IRead]) stream_out.
Definition hears (l : list nobs) : list (nat * N * option N) :=
  map (fun p => (hd_id (fst p), dt_id (rx_datatype (snd p)),
                 match rx_value (snd p) with VComp [VArr (VPrim b :: _)] _ => Some (N_of_bits b) | _ => None end)) (filter (said_by 42) (handled l)).

Example C131_fit : Forall (fit (st_types listener)) stream_bs.
Proof.
  assert (L : forall n, valid (dt_fields long_message) (long_value n)).
  { intros n. constructor. constructor; [|constructor]. constructor; [|rewrite repeat_length; lia].
    apply Forall_forall. intros x Hx. apply repeat_spec in Hx. subst x. constructor. apply bits_of_N_length. }
  assert (W : wf_type (dt_fields long_message)).
  { cbn. repeat split; lia. }
  assert (M : forall p, match p with Some p => (p < 32)%N | None => True end -> fit stream_types (Bcast ex_message ex_value p None)).
  { intros p Hp. repeat split; try exact Hp; try (cbn; lia). cbn. constructor. constructor; [|constructor]. constructor. reflexivity. }
  assert (F : forall n p, match p with Some p => (p < 32)%N | None => True end -> fit stream_types (Bcast long_message (long_value n) p None)).
  { intros n p Hp. split; [cbn; lia|]. split; [cbn; lia|]. split; [reflexivity|]. split; [exact W|]. split; [apply L|exact Hp]. }
  repeat (constructor; [first [apply M|apply F]; cbn; lia || exact I|]). constructor.
Qed.
Example C131_steady : steady (st_beh listener) stream_ins1.
Proof.
  split.
  - intros l op c. cbn. unfold stream_beh. destruct (last l _); try (intros []); destruct (Nat.eqb _ _); intros [].
  - assert (F : Forall (fun i => match i with IOp op => keeps_handlers op | ITransfer _ => False | _ => True end) stream_ins1) by repeat constructor.
    exact (proj1 (Forall_forall _ _) F).
Qed.
Example C131_case :
  length stream_out = 7%nat /\ Forall2 same_frame stream_out (filter (from_node 42) (heard stream_ins1)) /\
  bus (n_log (ran talker (stream_before ++ broadcast_all stream_bs))) = bus (n_log (ran talker stream_before)) ++ stream_out /\
  length (filter (from_node 6) (heard stream_ins1)) = 7%nat /\
  length (handlers_of (ran listener stream_ins0)) = 4%nat /\
  hears (n_log (ran listener stream_ins0)) = [] /\
  hears (n_log (ran listener (stream_ins0 ++ stream_ins1))) =
    [(1%nat, 2000%N, Some 7%N); (2%nat, 2000%N, Some 7%N); (3%nat, 2000%N, Some 7%N); (3%nat, 341%N, None);
     (1%nat, 2000%N, Some 200%N); (2%nat, 2000%N, Some 200%N); (3%nat, 2000%N, Some 200%N);
     (1%nat, 2000%N, Some 7%N); (2%nat, 2000%N, Some 7%N); (3%nat, 2000%N, Some 7%N)].
Proof. vm_compute. repeat split; repeat constructor. Qed.

(** The same node sends a request to node 5 between two messages, and a third
    message with the CAN FD format; node 5 has heard half of a transfer of it. *)
Definition mixed_types : datatypes := fun id svc => if svc then call_types id svc else stream_types id svc.
Definition mixed_listener := Station ex_clk stream_beh good_driver (fun _ => ex_value) ex_message mixed_types 1000
  (Some 5%N) false true 100000 (2%N, true) 20.
Definition mixed_head (p : N) := Header p false false (Some 42%N) None 2000 None.
Definition mixed_sds := [Sending (mixed_head 16) 31 long_message (long_value 7) false;
  Sending (request_head 7 42 5 1) 0 call_service (call_value 1) false;
  Sending (mixed_head 16) 32 long_message (long_value 200) false;
  Sending (mixed_head 3) 1 long_message (long_value 8) true].
Definition mixed_received := Eval vm_compute in map frames_of mixed_sds.
Definition mixed_ins1 := Eval vm_compute in flat_map (fun f => [IFrame true f; other_frame; IPoll]) (concat mixed_received).
Definition mixed_ins0 := stream_ins0.

Example C131_mixed : Forall2 (heard_as (st_types mixed_listener) 42) mixed_sds mixed_received.
Proof.
  assert (L : forall n, valid (dt_fields long_message) (long_value n)).
  { intros n. constructor. constructor; [|constructor]. constructor; [|rewrite repeat_length; lia].
    apply Forall_forall. intros x Hx. apply repeat_spec in Hx. subst x. constructor. apply bits_of_N_length. }
  assert (W : wf_type (dt_fields long_message)) by (cbn; repeat split; lia).
  assert (R : forall fs, Forall2 same_frame fs fs) by (induction fs; constructor; [repeat split|assumption]).
  change mixed_received with (map frames_of mixed_sds).
  assert (P : forall p tid n b, (p < 32)%N -> frames_of (Sending (mixed_head p) tid long_message (long_value n) b) <> [] ->
    heard_as mixed_types 42 (Sending (mixed_head p) tid long_message (long_value n) b)
      (frames_of (Sending (mixed_head p) tid long_message (long_value n) b))).
  { intros p tid n b Hp Hf. split; [|split; [reflexivity|]].
    - constructor; try reflexivity; try exact W; try apply L. constructor; cbn; lia.
    - eexists. split; [apply frames_of_sent; exact Hf|apply R]. }
  cbn [map mixed_sds]. constructor; [apply P; [lia|vm_compute; discriminate]|].
  constructor; [|constructor; [apply P; [lia|vm_compute; discriminate]|constructor; [apply P; [lia|vm_compute; discriminate]|constructor]]].
  split; [|split; [reflexivity|]].
  - constructor; try reflexivity; try exact W; try apply L. constructor; cbn; lia.
  - eexists. split; [apply frames_of_sent; vm_compute; discriminate|apply R].
Qed.
Example C131_mixed_case :
  map (@length frame) mixed_received = [2; 2; 2; 1]%nat /\ filter (from_node 42) (heard mixed_ins1) = concat mixed_received /\
  map is_message mixed_sds = [true; false; true; true] /\
  hears (n_log (ran mixed_listener (mixed_ins0 ++ mixed_ins1))) =
    [(1%nat, 2000%N, Some 7%N); (2%nat, 2000%N, Some 7%N); (3%nat, 2000%N, Some 7%N);
     (1%nat, 2000%N, Some 200%N); (2%nat, 2000%N, Some 200%N); (3%nat, 2000%N, Some 200%N);
     (1%nat, 2000%N, Some 8%N); (2%nat, 2000%N, Some 8%N); (3%nat, 2000%N, Some 8%N)] /\
  map (fun p => hd_id (fst p)) (filter (fun p => h_service (rx_header (snd p))) (handled (n_log (ran mixed_listener (mixed_ins0 ++ mixed_ins1))))) = [3%nat] /\
  length (filter (said_by 6) (handled (n_log (ran mixed_listener (mixed_ins0 ++ mixed_ins1))))) = 7%nat.
Proof. vm_compute. repeat split. Qed.
Example C131_mixed_steady : steady (st_beh mixed_listener) mixed_ins1.
Proof.
  split.
  - intros l op c. cbn. unfold stream_beh. destruct (last l _); try (intros []); destruct (Nat.eqb _ _); intros [].
  - assert (F : Forall (fun i => match i with IOp op => keeps_handlers op | ITransfer _ => False | _ => True end) mixed_ins1) by repeat constructor.
    exact (proj1 (Forall_forall _ _) F).
Qed.

(** Node 42 broadcasts its status and sends requests between the messages; node
    5 loses the frames of other types and broadcasts its own status. *)
Definition busy_talker := Station ex_clk quiet good_driver (fun _ => ex_value) ex_message stream_types 1000
  (Some 42%N) false true 300 (2%N, true) 20.
Definition busy_listener := Station ex_clk stream_beh good_driver (fun _ => ex_value) ex_message stream_types 1000
  (Some 5%N) false true 300 (2%N, true) 20.
Definition busy_insA := [IPoll; IOp (NBroadcast long_message (long_value 9) None None); IPoll].
Definition busy_insA1 := [IOp (NBroadcast long_message (long_value 7) None None); IPoll; IPoll;
  IOp (NRequest call_service (call_value 3) 5 None (Some 2000) None); IPoll;
  IOp (NBroadcast ex_message ex_value (Some 3%N) None); IOp (NBroadcast long_message (long_value 200) (Some 31%N) None); IPoll; IPoll].
Definition busy_out := Eval vm_compute in new_frames busy_talker busy_insA busy_insA1.
Definition busy_ins1 := Eval vm_compute in
  flat_map (fun f => [IFrame true f; other_frame; IPoll; IRead; IPoll]) (filter (of_type 42 2000) busy_out).
Definition busy_ins0 := stream_ins0 ++ [IPoll].
Example C131_busy_quiet : leaves_type 2000 (st_beh busy_talker) /\ by_id (st_types busy_listener).
Proof.
  split; [intros l dt v p c b []|]. intros id svc dt. cbn. unfold stream_types. destruct svc; [discriminate|].
  destruct (N.eqb_spec id 2000); [intros E; injection E as <-; subst; reflexivity|].
  destruct (N.eqb_spec id 341); [intros E; injection E as <-; subst; reflexivity|discriminate].
Qed.
Example C131_busy_case :
  map (fun f => (f_id f / 256) mod 2 ^ 16)%N busy_out = [2000; 2000; 341; 341; 389; 389; 341; 341; 2000; 2000; 341; 341]%N /\
  casts 2000 busy_insA1 = [Bcast long_message (long_value 7) None None; Bcast long_message (long_value 200) (Some 31%N) None] /\
  filter (of_type 42 2000) (heard busy_ins1) = filter (of_type 42 2000) busy_out /\
  bus (n_log (ran busy_talker (busy_insA ++ busy_insA1))) = bus (n_log (ran busy_talker busy_insA)) ++ busy_out /\
  hears (n_log (ran busy_listener (busy_ins0 ++ busy_ins1))) =
    [(1%nat, 2000%N, Some 7%N); (2%nat, 2000%N, Some 7%N); (3%nat, 2000%N, Some 7%N);
     (1%nat, 2000%N, Some 200%N); (2%nat, 2000%N, Some 200%N); (3%nat, 2000%N, Some 200%N)].
Proof. vm_compute. repeat split. Qed.

(** Of five messages of two frames, the driver refuses the second frame of the
    second, both of the third, and the second of the last one. *)
Definition refuse_drv (l : list nobs) (pre : list frame) : option exn :=
  let n := length (outcomes 2000 l) in
  if (Nat.eqb n 2 && Nat.eqb (length pre) 1) || Nat.eqb n 3 || (Nat.eqb n 5 && Nat.eqb (length pre) 1) then Some DriverError else None.
Definition refuse_talker := Station ex_clk quiet refuse_drv (fun _ => ex_value) ex_message stream_types 1000
  (Some 42%N) false true 300 (2%N, true) 20.
Definition refuse_insA1 := flat_map (fun n => [IOp (NBroadcast long_message (long_value n) None None); IPoll]) [7; 8; 9; 10; 11]%N.
Definition refuse_out := Eval vm_compute in new_frames refuse_talker busy_insA refuse_insA1.
Definition refuse_ins1 := Eval vm_compute in
  flat_map (fun f => [IFrame true f; other_frame; IPoll; IRead; IPoll]) (filter (of_type 42 2000) refuse_out).
Definition refuse_oks := [true; false; false; true; false].
Example C131_refused_case :
  leaves_type 2000 (st_beh refuse_talker) /\ n_id (ran refuse_talker busy_insA) = Some 42%N /\
  outcomes 2000 (n_log (ran refuse_talker (busy_insA ++ refuse_insA1))) = outcomes 2000 (n_log (ran refuse_talker busy_insA)) ++ refuse_oks /\
  bus (n_log (ran refuse_talker (busy_insA ++ refuse_insA1))) = bus (n_log (ran refuse_talker busy_insA)) ++ refuse_out /\
  length (filter (of_type 42 2000) refuse_out) = 6%nat /\
  filter (of_type 42 2000) (heard refuse_ins1) = filter (of_type 42 2000) refuse_out /\
  those (casts 2000 refuse_insA1) refuse_oks = [Bcast long_message (long_value 7) None None; Bcast long_message (long_value 10) None None] /\
  (length (handlers_of (ran busy_listener busy_ins0)) < 20)%nat /\
  hears (n_log (ran busy_listener (busy_ins0 ++ refuse_ins1))) =
    [(1%nat, 2000%N, Some 7%N); (2%nat, 2000%N, Some 7%N); (3%nat, 2000%N, Some 7%N);
     (1%nat, 2000%N, Some 10%N); (2%nat, 2000%N, Some 10%N); (3%nat, 2000%N, Some 10%N)].
Proof. split; [intros l dt v p c b []|]. vm_compute. repeat split. repeat constructor. Qed.

(** A call of a service of another node, end to end: C110. *)
From Verif.Base Require Import Prelude Bits.
From Verif.Model Require Import BitCodec Types Codec MsgId Frames TransferManager Node.
From Verif.Spec Require Import CodecSpec NodeSpec MsgIdSpec FrameSpec ReassemblySpec SendingSpec CallSpec.
From Verif.Proofs Require Import NodeFacts NodeRequests NodeTop NodeCallTop.
From Verif.Properties Require Import NodeProps.
Local Open Scope Z_scope.

(** C110: A calls a service of B. The frames of the request arrive at B in
    order, those of B's reply at A, both with any other inputs and frames
    before and in between; [earlierA] and [earlierB] are what was heard before
    with the same identifier and transfer id. Then B's handler is called once
    with the content that A sent, and A's callback once with the answer, if the
    request has not timed out and its transfer id is not in use twice. *)
Theorem C110_service_call : forall A B insA insA2 insB dt v dest a prio timeout fd hd answer p
    fs preB fB earlierB fs' preA fA earlierA,
  let s0 := ran A insA in
  let call := insA ++ [IOp (NRequest dt v dest prio timeout fd)] in
  let s1 := ran A call in
  let s2 := ran A (call ++ insA2) in
  let s3 := ran A ((call ++ insA2) ++ [IFrame true fA]) in
  let b0 := ran B insB in
  let b1 := ran B (insB ++ [IFrame true fB]) in
  let tid := (N.of_nat (length (attempted (dt_id dt, Some dest) (n_log s0))) mod 32)%N in
  let req := request_head p a dest (dt_id dt) in
  let rsp := response_head p a dest (dt_id dt) in
  callable A B dt a dest p v answer -> asked_priority prio p ->
  (* the caller *)
  calm (st_beh A) -> n_id s0 = Some a ->
  snd (request (st_clk A) (st_drv A) (st_second A) s0 dt v dest prio timeout fd) = None ->
  bus (n_log s1) = bus (n_log s0) ++ fs ->
  (* the callee *)
  (forall l fs, st_drv B l fs = None) -> n_id b0 = Some dest ->
  Forall2 same_frame fs (preB ++ [fB]) ->
  filter (has_key (can_id req, Some tid)) (heard insB) = earlierB ++ preB ->
  filter (serves (dt_id dt)) (handlers_of b0) = [hd] -> hd_type hd = Some (dt_id dt, true) -> hd_sniff hd = false ->
  (length (handlers_of b0) < st_fuel B)%nat ->
  (forall q, content (dt_fields dt) (rx_value q) = content (dt_fields dt) v ->
     st_beh B (n_log b0 ++ [OHandled hd q]) = ([], Returns (Some (dt, answer (rx_value q))))) ->
  bus (n_log b1) = bus (n_log b0) ++ fs' ->
  (* the caller again *)
  Forall2 same_frame fs' (preA ++ [fA]) ->
  filter (has_key (can_id rsp, Some tid)) (heard (call ++ insA2)) = earlierA ++ preA ->
  (forall r, In r (requests_with dest (dt_id dt) tid (n_log s0)) -> done r (n_log s0)) ->
  (forall r, In r (requests_with dest (dt_id dt) tid (n_log s2)) -> (r <= n_reqs s0)%nat) ->
  ~ done (n_reqs s0) (n_log s2) ->
  exists q t l,
    handled (n_log b1) = handled (n_log b0) ++ [(hd, q)] /\
    content (dt_fields dt) (rx_value q) = content (dt_fields dt) v /\
    n_log s3 = n_log s2 ++ OResponse (n_reqs s0) t :: l /\
    content (dt_response dt) (rx_value t) = content (dt_response dt) (answer (rx_value q)) /\
    responses (n_reqs s0) (n_log s3) = 1%nat /\ timeouts (n_reqs s0) (n_log s3) = 0%nat.
Proof. exact service_call. Qed.
Print Assumptions C110_service_call.

(** Node 5 calls a service of node 42 with ten bytes (two frames); the answer
    is the first of them plus one, and a number (two frames). Before, node 5
    has called the same service and has given up; in between both nodes hear
    other frames and node 5 calls the service again. *)
Definition call_service := Datatype 1 true 0xABCD
  (TComp false [TArr true (TPrim KUint 8 Saturated) 20])
  (TComp false [TPrim KUint 8 Saturated; TPrim KUint 64 Saturated]).
Definition call_types : datatypes := fun id svc => if (id =? 1)%N && svc then Some call_service else None.
Definition call_value (n : N) : value := VComp [VArr (repeat (VPrim (bits_of_N 8 n)) 10)] None.
Definition call_answer (w : value) : value :=
  VComp [VPrim (bits_of_N 8 (match w with VComp [VArr (VPrim b :: _)] None => N_of_bits b + 1 | _ => 0 end)%N);
         VPrim (bits_of_N 64 0x0102030405060708)] None.
Definition call_beh (l : list nobs) : list (nop * bool) * outcome :=
  match last l (ONodeId 0) with
  | OHandled _ q => ([], Returns (Some (call_service, call_answer (rx_value q))))
  | _ => ([], Returns None)
  end.
Definition caller := Station ex_clk quiet good_driver (fun _ => ex_value) ex_message call_types 1000
  (Some 5%N) false true 100000 (2%N, true) 20.
Definition callee := Station ex_clk call_beh good_driver (fun _ => ex_value) ex_message call_types 1000
  (Some 42%N) false true 100000 (2%N, true) 20.
Definition call_op (n : N) := IOp (NRequest call_service (call_value n) 42 (Some 7%N) (Some 2000) None).
Definition call_insA := [call_op 1; IRead; IRead] ++ repeat IRead 30 ++ [IPoll].
Definition call_insB := [IOp (NAddHandler (Some (1%N, true)) false)].
Definition new_frames (x : station) (ins : list ninput) (i : list ninput) : list frame :=
  skipn (length (bus (n_log (ran x ins)))) (bus (n_log (ran x (ins ++ i)))).
Definition call_fs := new_frames caller call_insA [call_op 200].
Definition call_at_B := call_insB ++ [ex_foreign 3] ++ map (IFrame true) (firstn 1 call_fs) ++ [IPoll].
Definition call_fs' := new_frames callee call_at_B (map (IFrame true) (skipn 1 call_fs)).
Definition call_insA2 := [call_op 3; IRead] ++ map (IFrame true) (firstn 1 call_fs') ++ [ex_foreign 2; IPoll].

Example C110_callable : callable caller callee call_service 5 42 7 (call_value 200) call_answer.
Proof.
  constructor; try reflexivity; try (cbn; lia).
  - constructor. constructor; [|constructor]. constructor; [|rewrite repeat_length; lia].
    apply Forall_forall. intros x Hx. apply repeat_spec in Hx. subst x. constructor. apply bits_of_N_length.
  - intros w _. constructor. constructor; [|constructor; [|constructor]]; constructor; apply bits_of_N_length.
Qed.
Example C110_handler : forall l hd q, st_beh callee (l ++ [OHandled hd q]) = ([], Returns (Some (call_service, call_answer (rx_value q)))).
Proof. intros. cbn. unfold call_beh. rewrite last_last. reflexivity. Qed.
Example C110_case :
  let s0 := ran caller call_insA in
  let call := call_insA ++ [call_op 200] in
  let s2 := ran caller (call ++ call_insA2) in
  let s3 := ran caller ((call ++ call_insA2) ++ map (IFrame true) (skipn 1 call_fs')) in
  let b0 := ran callee call_at_B in
  let b1 := ran callee (call_at_B ++ map (IFrame true) (skipn 1 call_fs)) in
  length call_fs = 2%nat /\ length call_fs' = 2%nat /\
  attempted (1%N, Some 42%N) (n_log s0) = [0]%N /\
  snd (request ex_clk good_driver 1000 s0 call_service (call_value 200) 42 (Some 7%N) (Some 2000) None) = None /\
  filter (has_key (can_id (request_head 7 5 42 1), Some 1%N)) (heard call_at_B) = firstn 1 call_fs /\
  filter (has_key (can_id (response_head 7 5 42 1), Some 1%N)) (heard (call ++ call_insA2)) = firstn 1 call_fs' /\
  filter (serves 1) (handlers_of b0) = [Handler 1 (Some (1%N, true)) false] /\
  requests_with 42 1 1 (n_log s0) = [] /\ requests_with 42 1 1 (n_log s2) = [1]%nat /\
  map (fun r => calls r s2) [0; 1; 2]%nat = [(0, 1); (0, 0); (0, 0)]%nat /\
  map (fun r => calls r s3) [0; 1; 2]%nat = [(0, 1); (1, 0); (0, 0)]%nat /\
  map (fun p => content (dt_fields call_service) (rx_value (snd p))) (handled (n_log b1)) =
    [content (dt_fields call_service) (call_value 200)] /\
  last (n_log s3) (ONodeId 0) = OResponse 1 (Rx (response_head 7 5 42 1) 1 call_service (call_answer (call_value 200)) false None None).
Proof. vm_compute. repeat (split; [reflexivity|]). reflexivity. Qed.

(** C111: a response to a request, from anyone, that is heard before the
    timeout calls the callback of that request, if no other request of the same
    service of the same node has the transfer id and is unanswered. *)
Theorem C111_right_request_partial : forall A ins ins2 a dt v dest prio timeout fd sd fs pre f earlier p,
  let s0 := ran A ins in
  let call := ins ++ [IOp (NRequest dt v dest prio timeout fd)] in
  let s2 := ran A (call ++ ins2) in
  let s3 := ran A ((call ++ ins2) ++ [IFrame true f]) in
  let tid := (N.of_nat (length (attempted (dt_id dt, Some dest) (n_log s0))) mod 32)%N in
  calm (st_beh A) -> n_id s0 = Some a -> (a < 128)%N ->
  snd (request (st_clk A) (st_drv A) (st_second A) s0 dt v dest prio timeout fd) = None ->
  (forall r, In r (requests_with dest (dt_id dt) tid (n_log s0)) -> done r (n_log s0)) ->
  (forall r, In r (requests_with dest (dt_id dt) tid (n_log s2)) -> (r <= n_reqs s0)%nat) ->
  ~ done (n_reqs s0) (n_log s2) ->
  proper (st_types A) sd -> sent sd fs -> Forall2 same_frame fs (pre ++ [f]) ->
  filter (has_key (sending_key sd)) (heard (call ++ ins2)) = earlier ++ pre ->
  s_header sd = response_head p a dest (dt_id dt) -> (s_tid sd mod 32 = tid)%N ->
  exists t l, faithful sd t /\ n_log s3 = n_log s2 ++ OResponse (n_reqs s0) t :: l.
Proof. intros; eapply response_received; eauto. Qed.
Print Assumptions C111_right_request_partial.

(** Without that: of 33 requests that are sent at once, the first and the last
    have transfer id 0. The reply to the first calls the callback of the last;
    the reply to the last calls none, and the first times out. *)
Definition call_all : list ninput := map (fun n => call_op (N.of_nat n)) (seq 1 33).
Definition reply_to (tid n : N) : list frame :=
  match make_tx (response_head 7 5 42 1) tid call_service (call_answer (call_value n)) false with
  | Ok t => match to_frames t with Ok (fs, _) => fs | Err _ => [] end
  | Err _ => []
  end.
Theorem C111_right_request_refuted : exists A ins first last_,
  requests_with 42 1 0 (n_log (ran A ins)) = [0; 32]%nat /\
  length first = 2%nat /\ length last_ = 2%nat /\
  (let l := n_log (ran A (ins ++ map (IFrame true) first)) in
   map (fun r => responses r l) [0; 32]%nat = [0; 1]%nat /\
   exists t, last l (ONodeId 0) = OResponse 32 t /\
     content (dt_response call_service) (rx_value t) = content (dt_response call_service) (call_answer (call_value 1))) /\
  (let l := n_log (ran A (ins ++ map (IFrame true) (first ++ last_) ++ repeat IRead 100 ++ [IPoll])) in
   map (fun r => (responses r l, timeouts r l)) [0; 32]%nat = [(0, 1); (1, 0)]%nat).
Proof.
  exists caller, call_all, (reply_to 0 1), (reply_to 0 33).
  split; [vm_compute; reflexivity|]. split; [vm_compute; reflexivity|]. split; [vm_compute; reflexivity|].
  split.
  - cbv zeta. split; [vm_compute; reflexivity|].
    exists (Rx (response_head 7 5 42 1) 0 call_service (call_answer (call_value 1)) false None None).
    split; vm_compute; reflexivity.
  - vm_compute. reflexivity.
Qed.
Print Assumptions C111_right_request_refuted.
Example C111_case : let s := ran caller ((call_insA ++ [call_op 200]) ++ call_insA2) in
  proper (st_types caller) (Sending (response_head 7 5 42 1) 1 call_service (call_answer (call_value 200)) false) /\
  reply_to 1 200 = call_fs' /\ ~ done 1 (n_log s) /\
  n_log (ran caller (((call_insA ++ [call_op 200]) ++ call_insA2) ++ map (IFrame true) (skipn 1 (reply_to 1 200)))) =
  n_log s ++ [OResponse 1 (Rx (response_head 7 5 42 1) 1 call_service (call_answer (call_value 200)) false None None)].
Proof.
  cbv zeta. split; [|vm_compute; split; [reflexivity|split; [intros H; inversion H|reflexivity]]].
  constructor; cbn [s_header s_datatype s_value]; try reflexivity; try (cbn; lia).
  all: try apply C110_callable.
  all: constructor; lia.
Qed.

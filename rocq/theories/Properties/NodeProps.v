(** Node properties: C24-C29, C32, C33, C65, C73, C74. [clk] gives the readings of
    the clock, [beh] is what callbacks, tasks and handlers do and [drv] what
    the driver's [send] raises, all as any functions of the history; [after]
    is the node after any sequence of inputs. *)
From Verif.Base Require Import Prelude Bits.
From Verif.Model Require Import BitCodec Types Codec MsgId Frames TransferManager Node.
From Verif.Spec Require Import NodeSpec MsgIdSpec FrameSpec ReassemblySpec SendingSpec.
From Verif.Proofs Require Import NodeFacts NodeDispatch NodeTop NodeNet.
From Verif.Properties Require Import FrameProps.
Local Open Scope Z_scope.

(** The setting of the examples: a service with one byte, a clock that
    advances by 100 with every reading, a second of 1000. *)
Definition ex_service := Datatype 1 true 0xABCD (TComp false [TPrim KUint 8 Saturated]) (TComp false [TPrim KUint 8 Saturated]).
Definition ex_message := Datatype 341 false 0xD654 (TComp false [TPrim KUint 8 Saturated]) (TComp false []).
Definition ex_types : datatypes := fun id svc =>
  if (id =? 1)%N && svc then Some ex_service
  else if (id =? 341)%N && negb svc then Some ex_message else None.
Definition ex_value : value := VComp [VPrim (bits_of_N 8 7)] None.
Definition ex_clk (n : nat) : Z := 100 * Z.of_nat n.
Definition quiet (l : list nobs) : list (nop * bool) * outcome := ([], Returns None).
Definition good_driver (l : list nobs) (fs : list frame) : option exn := None.
Definition ex_after (id : option N) beh drv ins : node :=
  started ex_clk beh drv (fun _ => ex_value) ex_message ex_types 1000 id false true 1000 (1%N, true) 20 ins.
Definition ex_request (prio : option N) (timeout : option Z) := IOp (NRequest ex_service ex_value 42 prio timeout None).
Definition ex_broadcast := IOp (NBroadcast ex_message ex_value None None).
(** The response of node 42 to node 5, and its request. *)
Definition ex_response (tid : N) := IFrame true (Frame 0x030105AA [7; 0xC0 + tid]%N false None None).
Definition ex_incoming (tid : N) := IFrame true (Frame 0x030185AA [7; 0xC0 + tid]%N false None None).
(** The response of node 42 to node 6. *)
Definition ex_foreign (tid : N) := IFrame true (Frame 0x030106AA [7; 0xC0 + tid]%N false None None).
Definition tids (l : list nobs) : list N :=
  flat_map (fun o => match o with OSend _ _ tid _ _ => [tid] | _ => [] end) l.

(** C24: the k-th transfer that is started in a session has id k mod 32, and
    the frames of each transfer carry its id. *)
Theorem C24_ids_count : forall clk beh drv status status_dt types second id canfd catch interval info fuel ins,
  let s := started clk beh drv status status_dt types second id canfd catch interval info fuel ins in
  forall k j tid, nth_error (attempted k (n_log s)) j = Some tid -> tid = (N.of_nat j mod 32)%N.
Proof. intros; eapply attempts_numbered; eauto. Qed.
Print Assumptions C24_ids_count.

Theorem C24_frames_carry_id : forall clk beh drv status status_dt types second id canfd catch interval info fuel ins,
  let s := started clk beh drv status status_dt types second id canfd catch interval info fuel ins in
  forall sess h tid fs err f, In (OSend sess h tid fs err) (n_log s) -> In f fs ->
  message_id h = Ok (f_id f) /\
  exists b, last_byte (f_bytes f) = Some b /\ (b mod 32 = tid mod 32)%N.
Proof. intros; eapply frames_carry; eauto. Qed.
Print Assumptions C24_frames_carry_id.

(** Transfers that were sent completely are numbered without gaps as long as
    none of the session fails; otherwise there are gaps. *)
Theorem C24_no_gaps_partial : forall clk beh drv status status_dt types second id canfd catch interval info fuel ins,
  let s := started clk beh drv status status_dt types second id canfd catch interval info fuel ins in
  forall k, (forall h t fs x, ~ In (OSend (Some k) h t fs (Some x)) (n_log s)) ->
  forall j tid, nth_error (completed k (n_log s)) j = Some tid -> tid = (N.of_nat j mod 32)%N.
Proof. intros; eapply completed_numbered; eauto. Qed.
Print Assumptions C24_no_gaps_partial.

Definition failing_first (l : list nobs) (fs : list frame) : option exn :=
  match l with [] => Some DriverError | _ => None end.
Theorem C24_no_gaps_refuted : exists clk beh drv status status_dt types second id canfd catch interval info fuel ins,
  let s := started clk beh drv status status_dt types second id canfd catch interval info fuel ins in
  exists k j tid, nth_error (completed k (n_log s)) j = Some tid /\ tid <> (N.of_nat j mod 32)%N.
Proof.
  exists ex_clk, quiet, failing_first, (fun _ => ex_value), ex_message, ex_types, 1000, (Some 5%N), false, true, 1000, (1%N, true), 20%nat, [ex_broadcast; ex_broadcast].
  exists (341%N, None), 0%nat, 1%N. split; [vm_compute; reflexivity|discriminate].
Qed.
Print Assumptions C24_no_gaps_refuted.

Example C24_case :
  let l := n_log (ex_after (Some 5%N) quiet good_driver
    (ex_request None None :: repeat ex_broadcast 34 ++ [ex_request None None])) in
  attempted (341%N, None) l = map N.of_nat (seq 0 32) ++ [0; 1]%N /\
  completed (1%N, Some 42%N) l = [0; 1]%N /\ length (bus l) = 36%nat.
Proof. vm_compute. auto. Qed.

(** C25: at most one call of each callback; exactly one once a poll that
    starts at or after the deadline has returned. *)
Theorem C25_at_most_once : forall clk beh drv status status_dt types second id canfd catch interval info fuel ins,
  calm beh ->
  let s := started clk beh drv status status_dt types second id canfd catch interval info fuel ins in
  forall r, (responses r (n_log s) + timeouts r (n_log s) <= 1)%nat.
Proof. intros; now apply at_most_once. Qed.
Print Assumptions C25_at_most_once.

Theorem C25_exactly_once : forall clk beh drv status status_dt types second id canfd catch interval info fuel ins,
  calm beh -> (forall i j, (i <= j)%nat -> clk i <= clk j) ->
  let s := started clk beh drv status status_dt types second id canfd catch interval info fuel ins in
  forall s' d r h tid deadline,
  npoll clk beh drv status status_dt second fuel s = (s', Ok d) ->
  In (ORequest r h tid deadline) (n_log s) -> deadline <= clk (n_reads s) ->
  (responses r (n_log s') + timeouts r (n_log s') = 1)%nat.
Proof. intros; eapply exactly_once; eauto. Qed.
Print Assumptions C25_exactly_once.

(** [None] is not given early. *)
Theorem C25_timeout_not_early : forall clk beh drv status status_dt types second id canfd catch interval info fuel ins,
  let s := started clk beh drv status status_dt types second id canfd catch interval info fuel ins in
  forall l1 r now l2, n_log s = l1 ++ OTimeout r now :: l2 ->
  exists h tid deadline, In (ORequest r h tid deadline) l1 /\ deadline <= now.
Proof. intros; eapply timeout_due; eauto. Qed.
Print Assumptions C25_timeout_not_early.

Definition calls (r : nat) (s : node) := (responses r (n_log s), timeouts r (n_log s)).
Example C25_calm : calm quiet.
Proof. intros l r t. split; [intros op c []|discriminate]. Qed.
(** Two requests; the second is answered, twice; the first times out. *)
Example C25_case :
  let ins := [ex_request None (Some 300); ex_request None (Some 900); ex_response 1; ex_response 1; IRead; IRead] in
  let s := ex_after (Some 5%N) quiet good_driver ins in
  let s' := ex_after (Some 5%N) quiet good_driver (ins ++ [IPoll]) in
  map (fun r => calls r s) [0; 1]%nat = [(0, 0); (1, 0)]%nat /\
  map (fun r => calls r s') [0; 1]%nat = [(0, 1); (1, 0)]%nat /\
  400 <= ex_clk (n_reads s).
Proof. vm_compute. repeat split. discriminate. Qed.

(** C26: false: after a callback has raised, a duplicate of the response
    calls it again. *)
Definition raising (l : list nobs) : list (nop * bool) * outcome :=
  match last l (ONodeId 0) with OResponse _ _ => ([], Raises) | _ => ([], Returns None) end.
Theorem C26_raising_callback_refuted : exists clk beh drv status status_dt types second id canfd catch interval info fuel ins r,
  let s := started clk beh drv status status_dt types second id canfd catch interval info fuel ins in
  responses r (n_log s) = 2%nat.
Proof.
  exists ex_clk, raising, good_driver, (fun _ => ex_value), ex_message, ex_types, 1000, (Some 5%N), false, true, 1000, (1%N, true), 20%nat,
    [ex_request None None; ex_response 0; ex_response 0], 0%nat.
  vm_compute. reflexivity.
Qed.
Print Assumptions C26_raising_callback_refuted.

(** What holds for any callbacks: no call with a response is followed or
    preceded by one with [None], which happens at most once. *)
Theorem C26_raising_callback_partial : forall clk beh drv status status_dt types second id canfd catch interval info fuel ins r,
  let s := started clk beh drv status status_dt types second id canfd catch interval info fuel ins in
  (timeouts r (n_log s) <= 1)%nat /\ (timeouts r (n_log s) = 0%nat \/ responses r (n_log s) = 0%nat).
Proof. intros; apply timeout_excludes. Qed.
Print Assumptions C26_raising_callback_partial.
Example C26_case :
  let s := ex_after (Some 5%N) raising good_driver ([ex_request None None; ex_request None (Some 200); ex_response 0] ++ repeat IRead 20 ++ [IPoll; IPoll]) in
  map (fun r => calls r s) [0; 1]%nat = [(1, 0); (0, 1)]%nat.
Proof. vm_compute. reflexivity. Qed.

(** C27: the transfer fits the request, which was sent before, and the timeout
    of which had not been processed. *)
Theorem C27_response_matches_partial : forall clk beh drv status status_dt types second id canfd catch interval info fuel ins,
  let s := started clk beh drv status status_dt types second id canfd catch interval info fuel ins in
  forall l1 r t l2, n_log s = l1 ++ OResponse r t :: l2 ->
  timeouts r l1 = 0%nat /\
  exists h tid deadline, In (ORequest r h tid deadline) l1 /\
    (exists sess fs, In (OSend sess h tid fs None) l1) /\
    h_service (rx_header t) = true /\ h_request (rx_header t) = false /\
    h_source (rx_header t) = h_dest h /\ h_dest (rx_header t) = n_id s /\
    h_dtid (rx_header t) = h_dtid h /\ rx_tid t = tid.
Proof. intros; eapply response_matches; eauto. Qed.
Print Assumptions C27_response_matches_partial.

(** But it may arrive after the timeout has passed, if the scheduler was not
    polled in between: [IRead] shows the clock beyond the deadline. *)
Theorem C27_before_timeout_refuted : exists clk beh drv status status_dt types second id canfd catch interval info fuel ins x f r,
  let s := started clk beh drv status status_dt types second id canfd catch interval info fuel ins in
  let s' := started clk beh drv status status_dt types second id canfd catch interval info fuel (ins ++ [IFrame x f]) in
  (exists h tid deadline, In (ORequest r h tid deadline) (n_log s) /\ deadline < clk (pred (n_reads s))) /\
  responses r (n_log s) = 0%nat /\ responses r (n_log s') = 1%nat.
Proof.
  exists ex_clk, quiet, good_driver, (fun _ => ex_value), ex_message, ex_types, 1000, (Some 5%N), false, true, 1000, (1%N, true), 20%nat,
    [ex_request None (Some 100); IRead; IRead], true, (Frame 0x030105AA [7; 0xC0]%N false None None), 0%nat.
  split; [|vm_compute; auto].
  exists (Header 20 true true (Some 5%N) (Some 42%N) 1 None), 0%N, 200. split; vm_compute; auto.
Qed.
Print Assumptions C27_before_timeout_refuted.
Example C27_case :
  let s := ex_after (Some 5%N) quiet good_driver [ex_request (Some 3%N) None; ex_foreign 0; ex_response 1; ex_response 0] in
  map (fun o => match o with OSend _ _ _ _ _ => 0 | ORequest _ _ _ _ => 1 | OResponse _ _ => 2 | _ => 3 end) (n_log s) = [0; 1; 2].
Proof. vm_compute. reflexivity. Qed.

(** C28: who is called for a service transfer: for requests to this node, the
    handlers of the service; for responses to others, too, if one of them
    sniffs. *)
Theorem C28_handlers_called_partial : forall clk beh drv second fuel s t,
  exists hs, handled (n_log (fst (recv_transfer clk beh drv second fuel s t))) = handled (n_log s) ++ hs /\
  forall hd t', In (hd, t') hs -> t' = t /\
    (forall ty, hd_type hd = Some ty -> ty = type_of t) /\
    (h_service (rx_header t) = true ->
       h_request (rx_header t) = true /\ h_dest (rx_header t) = n_id s \/
       h_request (rx_header t) = false /\ h_dest (rx_header t) <> n_id s /\
       exists sn, In sn (handler_list s (n_cur s)) /\ hd_sniff sn = true /\
                  hd_type sn = Some (type_of t)).
Proof. exact handlers_called. Qed.
Print Assumptions C28_handlers_called_partial.

(** A plain handler is called for a response to another node, because a
    sniffing one exists. *)
Theorem C28_plain_handler_refuted : exists clk beh drv status status_dt types second id canfd catch interval info fuel ins hd t,
  let s := started clk beh drv status status_dt types second id canfd catch interval info fuel ins in
  In (hd, t) (handled (n_log s)) /\ hd_type hd = Some (1%N, true) /\ hd_sniff hd = false /\
  h_request (rx_header t) = false /\ h_dest (rx_header t) <> n_id s.
Proof.
  exists ex_clk, quiet, good_driver, (fun _ => ex_value), ex_message, ex_types, 1000, (Some 5%N), false, true, 1000, (2%N, true), 20%nat,
    [IOp (NAddHandler (Some (1%N, true)) false); IOp (NAddHandler (Some (1%N, true)) true); ex_foreign 0].
  exists (Handler 1 (Some (1%N, true)) false), (Rx (Header 3 true false (Some 42%N) (Some 6%N) 1 None) 0 ex_service ex_value false None None).
  cbv zeta. split; [vm_compute; left; reflexivity|]. split; [reflexivity|]. split; [reflexivity|]. split; [reflexivity|].
  vm_compute. discriminate.
Qed.
Print Assumptions C28_plain_handler_refuted.

(** What the handler of a service returns for a request is sent to the
    requester with the request's id and priority, once per handler. *)
Theorem C28_reply : forall clk beh drv second s hd ty t s1 dt v,
  hd_type hd = Some ty -> snd ty = true -> hd_sniff hd = false ->
  h_request (rx_header t) = true ->
  react clk beh drv second (see s (OHandled hd t)) = (s1, Ok (Some (dt, v))) ->
  anonymous s1 = false ->
  let h := Header (h_priority (rx_header t)) true false (n_id s1) (h_source (rx_header t)) (dt_id dt) None in
  exists fs err, call_handler clk beh drv second s hd t = (see s1 (OSend None h (rx_tid t) fs err), err) /\
    sent_fine h (rx_tid t) fs err.
Proof. intros; eapply reply; eauto. Qed.
Print Assumptions C28_reply.

(** Nothing is sent for an overheard response. *)
Theorem C28_no_reply : forall clk beh drv second s hd ty t,
  hd_type hd = Some ty -> snd ty = true -> hd_sniff hd = false -> h_request (rx_header t) = false ->
  fst (call_handler clk beh drv second s hd t) = fst (react clk beh drv second (see s (OHandled hd t))).
Proof. exact no_reply. Qed.
Print Assumptions C28_no_reply.

(** With two handlers for a service, the requester gets two replies. *)
Definition answering (l : list nobs) : list (nop * bool) * outcome :=
  match last l (ONodeId 0) with OHandled _ _ => ([], Returns (Some (ex_service, ex_value))) | _ => ([], Returns None) end.
Theorem C28_one_reply_refuted : exists clk beh drv status status_dt types second id canfd catch interval info fuel ins,
  let s := started clk beh drv status status_dt types second id canfd catch interval info fuel ins in
  length (frames_in ins) = 1%nat /\ length (bus (n_log s)) = 2%nat.
Proof.
  exists ex_clk, answering, good_driver, (fun _ => ex_value), ex_message, ex_types, 1000, (Some 5%N), false, true, 1000, (2%N, true), 20%nat,
    [IOp (NAddHandler (Some (1%N, true)) false); IOp (NAddHandler (Some (1%N, true)) false); ex_incoming 3].
  vm_compute. auto.
Qed.
Print Assumptions C28_one_reply_refuted.
Example C28_case :
  let s := ex_after (Some 5%N) answering good_driver [ex_incoming 3; ex_foreign 2] in
  length (handled (n_log s)) = 1%nat /\ map f_id (bus (n_log s)) = [0x03012A85%N] /\ tids (n_log s) = [3%N].
Proof. vm_compute. auto. Qed.

(** C29: if no callback removes a handler, every handler that accepts the
    transfer is called once in order, then those that were added meanwhile. *)
Theorem C29_every_handler_partial : forall clk beh drv status status_dt types second id canfd catch interval info fuel ins t s',
  removes_none beh ->
  let s := started clk beh drv status status_dt types second id canfd catch interval info fuel ins in
  call_handlers clk beh drv second fuel s (n_cur s) 0 t = (s', None) ->
  exists extra,
    handled (n_log s') = handled (n_log s) ++
      map (fun hd => (hd, t)) (filter (fun hd => accepts hd t) (handler_list s (n_cur s)) ++ extra) /\
    Forall (fun hd => (n_hds s <= hd_id hd)%nat) extra.
Proof. intros; eapply every_handler; eauto. Qed.
Print Assumptions C29_every_handler_partial.

(** With [catch_handler_exceptions] the loop does end that way, whatever the
    handlers raise. *)
Theorem C29_exceptions_caught : forall clk beh drv status status_dt types second id canfd catch interval info fuel ins t,
  removes_none beh -> adds_none beh ->
  let s := started clk beh drv status status_dt types second id canfd catch interval info fuel ins in
  n_catch s = true -> (length (handler_list s (n_cur s)) < fuel)%nat ->
  snd (call_handlers clk beh drv second fuel s (n_cur s) 0 t) = None.
Proof. intros; eapply dispatch_total; eauto. Qed.
Print Assumptions C29_exceptions_caught.

(** A handler that removes itself hides the transfer from the next one. *)
Definition self_removing (l : list nobs) : list (nop * bool) * outcome :=
  match last l (ONodeId 0) with
  | OHandled hd _ => if Nat.eqb (hd_id hd) 1 then ([(NRemoveHandler 1, false)], Returns None) else ([], Returns None)
  | _ => ([], Returns None)
  end.
Definition ex_transfer := Rx (Header 3 false false (Some 42%N) None 341 None) 0 ex_message ex_value false None None.
Theorem C29_every_handler_refuted : exists clk beh drv status status_dt types second id canfd catch interval info fuel ins t hd,
  let s := started clk beh drv status status_dt types second id canfd catch interval info fuel ins in
  let r := call_handlers clk beh drv second fuel s (n_cur s) 0 t in
  snd r = None /\ handled (n_log s) = [] /\
  In hd (handler_list s (n_cur s)) /\ accepts hd t = true /\ ~ In (hd, t) (handled (n_log (fst r))).
Proof.
  exists ex_clk, self_removing, good_driver, (fun _ => ex_value), ex_message, ex_types, 1000, (Some 5%N), false, true, 1000, (2%N, true), 20%nat,
    [IOp (NAddHandler (Some (341%N, false)) false); IOp (NAddHandler (Some (341%N, false)) false)], ex_transfer, (Handler 2 (Some (341%N, false)) false).
  cbv zeta. split; [vm_compute; auto|]. split; [vm_compute; auto|]. split; [vm_compute; auto|]. split; [vm_compute; auto|].
  vm_compute. intros [H|[]]. discriminate.
Qed.
Print Assumptions C29_every_handler_refuted.

Definition all_raising (l : list nobs) : list (nop * bool) * outcome := ([], Raises).
Example C29_case : removes_none all_raising /\ adds_none all_raising /\
  let s := ex_after (Some 5%N) all_raising good_driver
    [IOp (NAddHandler (Some (341%N, false)) false); IOp (NAddHandler (Some (7%N, false)) false); IOp (NAddHandler None false)] in
  map (fun p => hd_id (fst p)) (handled (n_log (fst (call_handlers ex_clk all_raising good_driver 1000 20 s (n_cur s) 0 ex_transfer)))) = [1; 3]%nat.
Proof. split; [intros l op c []|]. split; [intros l op c []|]. vm_compute. reflexivity. Qed.

(** C32 *)
Theorem C32_set_once : forall clk beh drv status status_dt types second id canfd catch interval info fuel ins,
  let s := started clk beh drv status status_dt types second id canfd catch interval info fuel ins in
  (ids_set (n_log s) = [] /\ n_id s = id) \/
  (match id with None => True | Some n => n = 0%N end /\
   exists v, ids_set (n_log s) = [v] /\ (1 <= v <= 127)%N /\ n_id s = Some v).
Proof. intros; apply id_once. Qed.
Print Assumptions C32_set_once.

Theorem C32_anonymous_silent : forall clk beh drv status status_dt types second id canfd catch interval info fuel ins,
  let s := started clk beh drv status status_dt types second id canfd catch interval info fuel ins in
  anonymous s = true -> bus (n_log s) = [].
Proof. intros; now apply anonymous_silent. Qed.
Print Assumptions C32_anonymous_silent.

Theorem C32_sending_refused : forall clk drv second s, anonymous s = true ->
  let op := apply_nop clk drv second s in
  (forall dt v dest prio timeout c, op (NRequest dt v dest prio timeout c) = (s, Some UAVCANException)) /\
  (forall dt v prio c, op (NBroadcast dt v prio c) = (s, Some UAVCANException)) /\
  (forall dt v dest tid prio c, op (NRespond dt v dest tid prio c) = (s, Some UAVCANException)).
Proof. exact anonymous_refused. Qed.
Print Assumptions C32_sending_refused.

Theorem C32_assignment : forall clk drv second s v,
  match apply_nop clk drv second s (NSetId v) with
  | (s', None) => anonymous s = true /\ 1 <= v <= 127 /\ n_id s' = Some (Z.to_N v)
  | (s', Some x) => s' = s /\ (anonymous s = true /\ ~ 1 <= v <= 127 /\ x = ValueError \/
                               anonymous s = false /\ x = UAVCANException)
  end.
Proof. exact (fun clk drv second => set_id_outcome clk drv second 0%nat). Qed.
Print Assumptions C32_assignment.

(** What is sent has the node's id as its source. *)
Theorem C32_source : forall clk beh drv status status_dt types second id canfd catch interval info fuel ins,
  let s := started clk beh drv status status_dt types second id canfd catch interval info fuel ins in
  forall sess h tid fs err, In (OSend sess h tid fs err) (n_log s) -> h_source h = n_id s /\ anonymous s = false.
Proof. intros clk beh drv status status_dt types second id canfd catch interval info fuel ins s sess h tid fs err H.
  destruct (sent_source _ _ _ _ _ _ _ _ _ _ _ _ _ _ _ _ _ _ _ H) as (A & B & _). auto. Qed.
Print Assumptions C32_source.

Example C32_case :
  let s := ex_after None quiet good_driver ([ex_broadcast; IOp (NSetId 0); IOp (NSetId 128); ex_request None None] ++ repeat IRead 40 ++ [IPoll]) in
  let s' := ex_after None quiet good_driver [IOp (NSetId 9); IOp (NSetId 10); ex_broadcast] in
  anonymous s = true /\ n_id s' = Some 9%N /\ map f_id (bus (n_log s')) = [0x14015509%N].
Proof. vm_compute. auto. Qed.

(** C33: priorities 1..31 and nonzero timeouts are used as given, and the
    defaults are 20 and one second; but 0 is taken for "not given". *)
Theorem C33_broadcast_partial : forall clk drv second s n dt v prio c s' x,
  n_id s = Some n -> (1 <= n <= 127)%N ->
  match prio with Some p => p < 32 | None => True end%N ->
  apply_nop clk drv second s (NBroadcast dt v prio c) = (s', x) ->
  exists p tid fs,
    match prio with None => p = 20 | Some q => if q =? 0 then p = 20 else p = q end%N /\
    n_log s' = n_log s ++ [OSend (Some (dt_id dt, None))
      (Header p false false (Some n) None (dt_id dt) None) tid fs x] /\
    forall f, In f fs -> (f_id f / 2 ^ 24 = p)%N.
Proof. exact (fun clk drv second => broadcast_priority clk drv second 0%nat). Qed.
Print Assumptions C33_broadcast_partial.

Theorem C33_request_partial : forall clk drv second s n dt v dest prio timeout c s' x,
  n_id s = Some n -> (1 <= n <= 127)%N ->
  match prio with Some p => p < 32 | None => True end%N ->
  apply_nop clk drv second s (NRequest dt v dest prio timeout c) = (s', x) ->
  exists p tid fs more err,
    let h := Header p true true (Some n) (Some dest) (dt_id dt) None in
    match prio with None => p = 20 | Some q => if q =? 0 then p = 20 else p = q end%N /\
    n_log s' = n_log s ++ OSend (Some (dt_id dt, Some dest)) h tid fs err :: more /\
    (forall f, In f fs -> (f_id f / 2 ^ 24 = p)%N) /\
    (x = None -> exists t,
       match timeout with None => t = second | Some u => if u =? 0 then t = second else t = u end /\
       more = [ORequest (n_reqs s) h tid (clk (n_reads s) + t)]).
Proof. exact request_priority. Qed.
Print Assumptions C33_request_partial.

Theorem C33_priority_refuted : exists clk drv second s n dt v f,
  n_id s = Some n /\ (1 <= n <= 127)%N /\
  bus (n_log (fst (apply_nop clk drv second s (NBroadcast dt v (Some 0%N) None)))) = [f] /\
  (f_id f / 2 ^ 24 = 20)%N.
Proof.
  exists ex_clk, good_driver, 1000, (ex_after (Some 5%N) quiet good_driver []), 5%N, ex_message, ex_value, (Frame 0x14015505 [7; 0xC0]%N false None None).
  split; [reflexivity|]. split; [lia|]. split; vm_compute; reflexivity.
Qed.
Print Assumptions C33_priority_refuted.

Theorem C33_timeout_refuted : exists clk drv second s dt v h tid,
  snd (apply_nop clk drv second s (NRequest dt v 42 None (Some 0) None)) = None /\
  In (ORequest 0 h tid (clk (n_reads s) + 1000)) (n_log (fst (apply_nop clk drv second s (NRequest dt v 42 None (Some 0) None)))).
Proof.
  exists ex_clk, good_driver, 1000, (ex_after (Some 5%N) quiet good_driver []), ex_service, ex_value, (Header 20 true true (Some 5%N) (Some 42%N) 1 None), 0%N.
  split; vm_compute; auto.
Qed.
Print Assumptions C33_timeout_refuted.

Example C33_case :
  let s := ex_after (Some 5%N) quiet good_driver [IOp (NBroadcast ex_message ex_value (Some 31%N) None); ex_request (Some 1%N) (Some 250)] in
  map f_id (bus (n_log s)) = [0x1F015505; 0x0101AA85]%N /\
  flat_map (fun o => match o with ORequest _ _ _ d => [d] | _ => [] end) (n_log s) = [350].
Proof. vm_compute. auto. Qed.

(** C65: [spin] with a timeout is a sequence of polls and receptions: the
    frames the driver gave are dispatched in order, each after a poll, and it
    does not return before the timeout has passed. *)
Theorem C65_spin : forall clk beh drv status status_dt types second receive fuel turns s t s' got r,
  t <> 0 -> spin clk beh drv status status_dt types second receive turns fuel s (Some t) = (s', got, r) ->
  exists ins, s' = node_history clk beh drv status status_dt types second fuel s ins /\
    got = frames_in ins /\ polled_first ins /\
    (is_ok r = true -> (0 < n_reads s')%nat /\ clk (n_reads s) + t <= clk (pred (n_reads s'))).
Proof. intros; eapply spin_waits; eauto. Qed.
Print Assumptions C65_spin.

Theorem C65_spin_zero : forall clk beh drv status status_dt types second receive fuel turns s s' got r,
  spin clk beh drv status status_dt types second receive turns fuel s (Some 0) = (s', got, r) ->
  exists ins, s' = node_history clk beh drv status status_dt types second fuel s ins /\
    got = frames_in ins /\
    (forall c, r = Ok c -> c = N.of_nat (length got) /\
       ins = map (fun p => IFrame (fst p) (snd p)) got ++ [IPoll]).
Proof. intros; eapply spin_zero; eauto. Qed.
Print Assumptions C65_spin_zero.

Theorem C65_spin_forever : forall clk beh drv status status_dt types second receive fuel turns s s' got r,
  spin clk beh drv status status_dt types second receive turns fuel s None = (s', got, r) -> is_ok r = false.
Proof. intros; eapply spin_forever; eauto. Qed.
Print Assumptions C65_spin_forever.

Definition two_frames (l : list nobs) (n : nat) (timeout : Z) : res (option (bool * frame)) :=
  match n with
  | 0%nat => Ok (Some (true, Frame 0x030105AA [7; 0xC0]%N false None None))
  | 1%nat => Ok (Some (true, Frame 0x030185AA [7; 0xC3]%N false None None))
  | _ => Ok None
  end.
Definition ex_spin (t : Z) :=
  spin ex_clk answering good_driver (fun _ => ex_value) ex_message ex_types 1000 two_frames 20 20
       (ex_after (Some 5%N) answering good_driver [ex_request None None]) (Some t).
Example C65_case :
  is_ok (snd (ex_spin 700)) = true /\ length (snd (fst (ex_spin 700))) = 2%nat /\
  (let s := fst (fst (ex_spin 700)) in length (handled (n_log s)) = 1%nat /\ responses 0 (n_log s) = 1%nat) /\
  is_ok (snd (ex_spin 0)) = true.
Proof. vm_compute. auto. Qed.

(** C73: the result counts the frames for timeout 0 only. *)
Theorem C73_count_partial : forall clk beh drv status status_dt types second receive fuel turns s s' got c,
  spin clk beh drv status status_dt types second receive turns fuel s (Some 0) = (s', got, Ok c) ->
  c = N.of_nat (length got).
Proof. intros. destruct (spin_zero _ _ _ _ _ _ _ _ _ _ _ _ _ _ H) as (ins & _ & _ & Hc). now apply Hc. Qed.
Print Assumptions C73_count_partial.

Theorem C73_count_at_most_one : forall clk beh drv status status_dt types second receive fuel turns s t s' got c,
  t <> 0 -> spin clk beh drv status status_dt types second receive turns fuel s (Some t) = (s', got, Ok c) ->
  (c <= 1)%N.
Proof. intros; eapply spin_count; eauto. Qed.
Print Assumptions C73_count_at_most_one.

Theorem C73_count_refuted : exists clk beh drv status status_dt types second receive fuel turns s t,
  let r := spin clk beh drv status status_dt types second receive turns fuel s (Some t) in
  snd r = Ok 1%N /\ length (snd (fst r)) = 2%nat.
Proof.
  exists ex_clk, answering, good_driver, (fun _ => ex_value), ex_message, ex_types, 1000, two_frames, 20%nat, 20%nat,
    (ex_after (Some 5%N) answering good_driver [ex_request None None]), 700.
  vm_compute. auto.
Qed.
Print Assumptions C73_count_refuted.
Example C73_case : snd (ex_spin 0) = Ok 2%N.
Proof. vm_compute. reflexivity. Qed.

(** C74: from sender to handlers. A message, or a request to this node, whose
    frames were all heard (in order, with any other frames, polls and
    operations in between) is given to each handler for it, in order, with the
    content that was sent. [earlier]: what was heard before with the same
    identifier and transfer id. *)
Theorem C74_transfer_reaches_handlers : forall clk beh drv status status_dt types second id canfd interval info fuel ins sd fs pre f earlier,
  removes_none beh -> adds_none beh ->
  proper types sd -> sent sd fs -> Forall2 same_frame fs (pre ++ [f]) ->
  let s := started clk beh drv status status_dt types second id canfd true interval info fuel ins in
  let s' := started clk beh drv status status_dt types second id canfd true interval info fuel (ins ++ [IFrame true f]) in
  (h_service (s_header sd) = false \/ h_request (s_header sd) = true /\ h_dest (s_header sd) = n_id s) ->
  filter (has_key (sending_key sd)) (heard ins) = earlier ++ pre ->
  (length (handler_list s (n_cur s)) < fuel)%nat ->
  exists r, faithful sd r /\
    handled (n_log s') = handled (n_log s) ++
      map (fun hd => (hd, r)) (filter (fun hd => accepts hd r) (handler_list s (n_cur s))).
Proof. intros; eapply transfer_reaches; eauto. Qed.
Print Assumptions C74_transfer_reaches_handlers.

(** Four frames of one message with an operation, a poll and a foreign frame
    in between, two handlers. *)
Definition C74_before (fs : list frame) : list ninput :=
  [IOp (NAddHandler (Some (341%N, false)) false); IOp (NAddHandler None false)] ++
  map (IFrame true) (firstn 2 fs) ++ [ex_response 3; IPoll; IOp (NDefer 5)] ++ map (IFrame true) (firstn 1 (skipn 2 fs)).
Example C74_case :
  let fs := frames_of (example_sending 20 false) in
  let s ins := started ex_clk quiet good_driver (fun _ => ex_value) ex_message example_types 1000 (Some 5%N) false true 1000 (1%N, true) 20 ins in
  length fs = 4%nat /\ filter (has_key (sending_key (example_sending 20 false))) (heard (C74_before fs)) = firstn 3 fs /\
  handled (n_log (s (C74_before fs))) = [] /\
  map (fun p => (hd_id (fst p), rx_value (snd p))) (handled (n_log (s (C74_before fs ++ map (IFrame true) (skipn 3 fs))))) =
    [(1%nat, example_value 20); (2%nat, example_value 20)].
Proof. vm_compute. auto. Qed.

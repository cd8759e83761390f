(** C110, C128 and C130 over links and bridges. *)
From Verif.Base Require Import Prelude Bits.
From Verif.Model Require Import Types Codec MsgId Frames TransferManager Node FileServer FileNode OwnStatus CanFrame Packets Bridge.
From Verif.Spec Require Import CodecSpec MsgIdSpec FrameSpec ReassemblySpec SendingSpec NodeSpec CallSpec DownloadSpec OwnStatusSpec PacketSpec BridgeSpec LinkSpec RouteSpec.
From Verif.Proofs Require Import LinkFacts RouteFacts RouteCallFacts.
From Verif.Properties Require Import NodeProps CallProps DownloadProps OwnStatusProps.
Local Open Scope Z_scope.

(** C110 with links and bridges between the two nodes: whatever else is on the
    buses at both ends, the handler gets what the caller sent, once, and the
    callback the answer, once. *)
Theorem C110_over_route : forall A B insA insA2 insB dt v dest a prio timeout fd hd answer p fs fB fs' fA,
  let s0 := ran A insA in
  let call := insA ++ [IOp (NRequest dt v dest prio timeout fd)] in
  let s1 := ran A call in
  let s2 := ran A (call ++ insA2) in
  let s3 := ran A ((call ++ insA2) ++ [IFrame true fA]) in
  let b0 := ran B insB in
  let b1 := ran B (insB ++ [IFrame true fB]) in
  let tid := (N.of_nat (length (attempted (dt_id dt, Some dest) (n_log s0))) mod 32)%N in
  let req := request_head p a dest (dt_id dt) in
  let rsp := response_head p a dest (dt_id dt) in
  callable A B dt a dest p v answer -> asked_priority prio p ->
  (* the caller *)
  calm (st_beh A) -> n_id s0 = Some a ->
  snd (request (st_clk A) (st_drv A) (st_second A) s0 dt v dest prio timeout fd) = None ->
  bus (n_log s1) = bus (n_log s0) ++ fs ->
  (* the callee *)
  (forall l fs, st_drv B l fs = None) -> n_id b0 = Some dest ->
  carried (can_id req, Some tid) fs insB fB ->
  filter (serves (dt_id dt)) (handlers_of b0) = [hd] -> hd_type hd = Some (dt_id dt, true) -> hd_sniff hd = false ->
  (length (handlers_of b0) < st_fuel B)%nat ->
  (forall q, content (dt_fields dt) (rx_value q) = content (dt_fields dt) v ->
     st_beh B (n_log b0 ++ [OHandled hd q]) = ([], Returns (Some (dt, answer (rx_value q))))) ->
  bus (n_log b1) = bus (n_log b0) ++ fs' ->
  (* the caller again *)
  carried (can_id rsp, Some tid) fs' (call ++ insA2) fA ->
  (forall r, In r (requests_with dest (dt_id dt) tid (n_log s0)) -> done r (n_log s0)) ->
  (forall r, In r (requests_with dest (dt_id dt) tid (n_log s2)) -> (r <= n_reqs s0)%nat) ->
  ~ done (n_reqs s0) (n_log s2) ->
  exists q t l,
    handled (n_log b1) = handled (n_log b0) ++ [(hd, q)] /\
    content (dt_fields dt) (rx_value q) = content (dt_fields dt) v /\
    n_log s3 = n_log s2 ++ OResponse (n_reqs s0) t :: l /\
    content (dt_response dt) (rx_value t) = content (dt_response dt) (answer (rx_value q)) /\
    responses (n_reqs s0) (n_log s3) = 1%nat /\ timeouts (n_reqs s0) (n_log s3) = 0%nat.
Proof. exact call_over_route. Qed.
Print Assumptions C110_over_route.

(** C128 over links and bridges. *)
Theorem C128_over_route : forall isfile abspath contents decode lookup path_map A B hd id crc a dest raw path out data xs,
  file_service isfile abspath contents decode lookup path_map A B hd id crc a dest ->
  (length raw <= 200)%nat -> Forall (fun b => (b < 256)%N) raw ->
  decode raw = Some path -> resolve_path isfile abspath lookup path_map path = Ok out ->
  contents out = Some data -> Forall (fun b => (b < 256)%N) data ->
  (256 * N.of_nat (length xs) <= 2 ^ 40)%N ->
  (forall i x, nth_error xs i = Some x ->
     exchanged_over A B hd (read_type id crc) a dest (asks (256 * N.of_nat i) raw) x) ->
  exists ts chunks, length ts = length xs /\
    (forall i x t, nth_error xs i = Some x -> nth_error ts i = Some t ->
       answered A (read_type id crc) dest (asks (256 * N.of_nat i) raw) x t) /\
    map (fun t => data_of (rx_value t)) ts = map Some chunks /\
    concat chunks = firstn (256 * length xs) data /\
    (chunks <> [] -> (length (last chunks []) < 256)%nat -> concat chunks = data).
Proof. exact download_over_route. Qed.
Print Assumptions C128_over_route.

(** The information of a node, C130, over links and bridges. *)
Theorem C130_over_route : forall second me now info A B hd id crc rest a dest x,
  0 < second -> me_start me <= now -> valid (TComp false (status_type :: rest)) info -> Forall wf_type rest ->
  let dt := info_datatype id crc rest in
  (id < 256)%N -> (crc < 2 ^ 16)%N -> st_types A id true = Some dt -> st_types B id true = Some dt ->
  (1 <= a < 128 /\ 1 <= dest < 128)%N ->
  calm (st_beh A) -> (forall l fs, st_drv B l fs = None) -> hd_type hd = Some (id, true) -> hd_sniff hd = false ->
  (forall q, st_beh B (n_log (ran B (x_callee x)) ++ [OHandled hd q]) = ([], info_outcome second dt me now info)) ->
  exchanged_over A B hd dt a dest (VComp [] None) x ->
  exists t s old, answered A dt dest (VComp [] None) x t /\
    info_status (rx_value t) = Some s /\ truthful second me now s /\
    info_status info = Some old /\ seen_sub_mode s = seen_sub_mode old /\
    content (TComp false rest) (info_rest (rx_value t)) = content (TComp false rest) (info_rest info).
Proof.
  intros second me now info A B hd id crc rest a dest x Hs Hn V W dt Hid Hcrc HA HB Hr Hcalm Hdrv Hty Hsn Hbeh X.
  destruct (over_exchanged _ _ _ _ _ _ _ _ X) as (e & pre & e' & pre' & Y).
  exact (C130_info second me now info A B hd id crc rest a dest (came x e pre e' pre')
    Hs Hn V W Hid Hcrc HA HB Hr Hcalm Hdrv Hty Hsn Hbeh Y).
Qed.
Print Assumptions C130_over_route.

(** Node 5 asks node 42 for its information through a bridge and a SocketCAN
    interface; on the way back the frames take the interface only, and frames
    of another node are among them. *)
Definition far (f : frame) : frame := as_heard (given 9 f).
Definition far_other := CFrame 0x03015506 [7; 0xC3]%N true false 9.
Definition far_traffic (fs : list frame) : list cframe := flat_map (fun f => [far_other; given 9 f]) fs.
Definition far_heard (fs : list frame) : list ninput :=
  flat_map (fun g => [IFrame true (as_heard g); IPoll]) (removelast (far_traffic fs)).
Definition far_exchange := Eval vm_compute in
  let op := IOp (NRequest own_type (VComp [] None) 42 None (Some 100000) None) in
  let fs := new_frames own_client [] [op] in
  let f := last fs (Frame 0 [] false None None) in
  let rs := new_frames own_server (far_heard fs) [IFrame true (far f)] in
  Exchange [] (far_heard rs) (far_heard fs) None 20 (Some 100000) None
    fs [] (far f) [] rs [] (far (last rs f)) [].
Lemma far_sendable fs : Forall (fun f => sendable (given 9 f)) fs -> Forall sendable (far_traffic fs).
Proof.
  intros F. apply Forall_forall. intros g Hg. apply in_flat_map in Hg as (f & Hf & [<-|[<-|[]]]).
  - split; [split; [reflexivity|split; [repeat (constructor; [reflexivity|]); constructor|cbn; lia]]|split; [reflexivity|cbn; tauto]].
  - exact (proj1 (Forall_forall _ _) F f Hf).
Qed.
Definition far_steps (fs : list frame) : list (nat * receipt * delivery) :=
  flat_map (fun f => [(0%nat, RFrame f, Taken); (0%nat, RNone, Taken); (0%nat, RNone, QueueFull); (0%nat, RNone, Taken)]) (far_traffic fs).
Example C130_over_route_case :
  exchanged_over own_client own_server own_hd own_type 5 42 (VComp [] None) far_exchange /\
  length (x_request far_exchange) = 1%nat /\ length (x_reply far_exchange) = 3%nat.
Proof.
  assert (S1 : Forall sendable (far_traffic (x_request far_exchange))).
  { apply far_sendable. cbn [far_exchange x_request].
    repeat (constructor; [split; [split; [reflexivity|split; [repeat (constructor; [reflexivity|]); constructor|cbn; lia]]|split; [reflexivity|cbn; tauto]]|]).
    constructor. }
  assert (S2 : Forall sendable (far_traffic (x_reply far_exchange))).
  { apply far_sendable. cbn [far_exchange x_reply].
    repeat (constructor; [split; [split; [reflexivity|split; [repeat (constructor; [reflexivity|]); constructor|cbn; lia]]|split; [reflexivity|cbn; tauto]]|]).
    constructor. }
  split; [|split; vm_compute; reflexivity].
  split; [reflexivity|]. split; [vm_compute; reflexivity|].
  do 4 (split; [vm_compute; reflexivity|]).
  split.
  { exists (far_traffic (x_request far_exchange)), (far_traffic (x_request far_exchange)), [], (map far (x_request far_exchange)).
    split; [discriminate|]. split; [exact S1|]. split; [vm_compute; reflexivity|].
    split; [repeat (constructor; [repeat split|]); constructor|]. split; [|split; vm_compute; reflexivity].
    eapply route_on; [|eapply route_on; [|constructor]]; [|apply hop_itself, S1].
    pose proof (hop_bridge (Some [42; 5; 6])%N 2 0 1 (far_steps (x_request far_exchange))) as Br. cbv zeta in Br.
    assert (E1 : received 0 (b_log (run (Some [42; 5; 6])%N 2 (start 2) (far_steps (x_request far_exchange)))) =
      far_traffic (x_request far_exchange)) by (vm_compute; reflexivity).
    assert (E2 : forwarded 0 1 (b_log (run (Some [42; 5; 6])%N 2 (start 2) (far_steps (x_request far_exchange)))) =
      far_traffic (x_request far_exchange)) by (vm_compute; reflexivity).
    rewrite E1, E2 in Br. apply Br; [lia|discriminate| |].
    - exists (Thread Top 2). split; vm_compute; reflexivity.
    - clear. apply Forall_forall. intros x Hx. vm_compute in Hx. destruct Hx as [<-|[<-|[]]]; vm_compute; tauto. }
  do 2 (split; [vm_compute; reflexivity || lia|]). split; [vm_compute; reflexivity|].
  split.
  { exists (far_traffic (x_reply far_exchange)), (far_traffic (x_reply far_exchange)), [], (map far (x_reply far_exchange)).
    split; [discriminate|]. split; [exact S2|]. split; [vm_compute; reflexivity|].
    split; [repeat (constructor; [repeat split|]); constructor|]. split; [|split; vm_compute; reflexivity].
    eapply route_on; [|constructor]. apply hop_itself, S2. }
  split; [apply no_requests; vm_compute; reflexivity|].
  split; [apply one_request; vm_compute; reflexivity|apply not_done; vm_compute; reflexivity].
Qed.

(** The first chunk of the file of DownloadProps.v, with 38 frames in reply,
    each way through the interface and among the other traffic. *)
Definition far_dl := Eval vm_compute in
  let fs := new_frames dl_client [] [dl_op 0] in
  let f := last fs (Frame 0 [] false None None) in
  let callee := IOp (NAddHandler (Some (48%N, true)) false) :: far_heard fs in
  let rs := new_frames dl_server callee [IFrame true (far f)] in
  Exchange [] (far_heard rs) callee None 20 (Some 100000) None
    fs [] (far f) [] rs [] (far (last rs f)) [].
Lemma far_carried k fs ins f : fs <> [] -> Forall (fun f => sendable (given 9 f)) fs ->
  filter (has_key k) (map as_heard (far_traffic fs)) = map far fs ->
  map as_heard (far_traffic fs) = heard ins ++ [f] -> has_key k f = true -> carried k fs ins f.
Proof.
  intros Hn F E1 E2 E3. apply far_sendable in F.
  exists (far_traffic fs), (far_traffic fs), [], (map far fs).
  split; [exact Hn|]. split; [exact F|]. split; [exact E1|]. split.
  { clear. induction fs; constructor; [repeat split|assumption]. }
  split; [|split; assumption]. eapply route_on; [|constructor]. apply hop_itself, F.
Qed.
Example C128_over_route_case :
  exchanged_over dl_client dl_server dl_hd dl_type 5 42 (asks 0 [97%N]) far_dl /\
  length (x_request far_dl) = 1%nat /\ length (x_reply far_dl) = 38%nat.
Proof.
  split; [|split; vm_compute; reflexivity].
  split; [reflexivity|]. split; [vm_compute; reflexivity|].
  do 4 (split; [vm_compute; reflexivity|]).
  split.
  { apply far_carried; [discriminate| |vm_compute; reflexivity..]. cbn [far_dl x_request].
    repeat (constructor; [split; [split; [reflexivity|split; [repeat (constructor; [reflexivity|]); constructor|cbn; lia]]|split; [reflexivity|cbn; tauto]]|]).
    constructor. }
  do 2 (split; [vm_compute; reflexivity || lia|]). split; [vm_compute; reflexivity|].
  split.
  { apply far_carried; [discriminate| |vm_compute; reflexivity..]. cbn [far_dl x_reply].
    repeat (constructor; [split; [split; [reflexivity|split; [repeat (constructor; [reflexivity|]); constructor|cbn; lia]]|split; [reflexivity|cbn; tauto]]|]).
    constructor. }
  split; [apply no_requests; vm_compute; reflexivity|].
  split; [apply one_request; vm_compute; reflexivity|apply not_done; vm_compute; reflexivity].
Qed.
(** With it, the call of the read service is a case of C110. *)
Example C110_over_route_case : exists t,
  answered dl_client dl_type 42 (asks 0 [97%N]) far_dl t /\ data_of (rx_value t) = Some (firstn 256 dl_data).
Proof.
  destruct (C128_over_route (fun _ => true) (fun p => p) dl_contents Some [] [([97], [97])]%N dl_client dl_server dl_hd
    48 0x8DCD 5 42 [97%N] [97%N] [97%N] dl_data [far_dl]) as (ts & chunks & H1 & H2 & H3 & H4 & _).
  - exact C128_service.
  - cbn; lia.
  - repeat constructor.
  - reflexivity.
  - reflexivity.
  - reflexivity.
  - apply Forall_forall. intros b Hb. apply in_map_iff in Hb as (i & <- & _). apply N.mod_lt. discriminate.
  - cbn. lia.
  - intros [|[|i]] x H; try discriminate; injection H as <-. exact (proj1 C128_over_route_case).
  - destruct ts as [|t [|]]; try discriminate. exists t. split; [exact (H2 0%nat _ _ eq_refl eq_refl)|].
    destruct chunks as [|c [|]]; try discriminate. cbn in H4. rewrite app_nil_r in H4.
    cbn [map] in H3. injection H3 as ->. rewrite H4. reflexivity.
Qed.

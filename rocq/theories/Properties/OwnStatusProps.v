(** What a node says about itself, and what others hear of it: C130. *)
From Verif.Base Require Import Prelude Bits.
From Verif.Model Require Import BitCodec Types Prim Codec MsgId Frames TransferManager Node OwnStatus.
From Verif.Spec Require Import CodecSpec PrimSpec NodeSpec MsgIdSpec FrameSpec ReassemblySpec SendingSpec CallSpec DownloadSpec OwnStatusSpec.
From Verif.Proofs Require Import NodeFacts NodeRequests NodeTop NodeCallTop OwnStatusFacts.
From Verif.Properties Require Import FrameProps NodeProps CallProps DownloadProps.
Local Open Scope Z_scope.

(** C130: the status message that a node broadcasts can always be made, and
    gives the time since its start to the half second and its health, mode and
    code, or what is nearest to them. *)
Theorem C130_status : forall second me now, 0 < second -> me_start me <= now ->
  exists v s, node_status second me now = Ok v /\ valid status_type v /\ status_of v = Some s /\
    truthful second me now s /\ seen_sub_mode s = 0.
Proof. exact node_status_truth. Qed.
Print Assumptions C130_status.

(** The uptime never goes back while the node runs, whatever becomes of its
    health, mode and code: nobody takes it for restarted. *)
Theorem C130_never_back : forall second me me' now now' v v' s s', 0 < second -> me_start me = me_start me' ->
  me_start me <= now -> now <= now' ->
  node_status second me now = Ok v -> status_of v = Some s ->
  node_status second me' now' = Ok v' -> status_of v' = Some s' ->
  seen_uptime s <= seen_uptime s'.
Proof. exact status_later. Qed.
Print Assumptions C130_never_back.

(** When all frames of it have arrived, at any other node, with anything before
    and in between, every handler for node statuses there has been given such a
    status. *)
Theorem C130_heard : forall second me now v h tid fd id crc clk beh drv status status_dt types sec own canfd interval info fuel ins fs pre f earlier,
  0 < second -> me_start me <= now -> node_status second me now = Ok v ->
  let dt := status_datatype id crc in
  let sd := Sending h tid dt v fd in
  legal h -> h_service h = false -> h_dtid h = id -> (crc < 2 ^ 16)%N -> types id false = Some dt ->
  removes_none beh -> adds_none beh -> sent sd fs -> Forall2 same_frame fs (pre ++ [f]) ->
  let s := started clk beh drv status status_dt types sec own canfd true interval info fuel ins in
  let s' := started clk beh drv status status_dt types sec own canfd true interval info fuel (ins ++ [IFrame true f]) in
  filter (has_key (sending_key sd)) (heard ins) = earlier ++ pre ->
  (length (handler_list s (n_cur s)) < fuel)%nat ->
  exists r seen, handled (n_log s') = handled (n_log s) ++
      map (fun hd => (hd, r)) (filter (fun hd => accepts hd r) (handler_list s (n_cur s))) /\
    rx_header r = h /\ rx_datatype r = dt /\
    status_of (rx_value r) = Some seen /\ truthful second me now seen /\ seen_sub_mode seen = 0.
Proof. exact status_heard. Qed.
Print Assumptions C130_heard.

(** Who asks a node for its information gets such a status, of the time when
    the request arrives, and the rest of the information as it is then. *)
Theorem C130_info : forall second me now info A B hd id crc rest a dest x,
  0 < second -> me_start me <= now -> valid (TComp false (status_type :: rest)) info -> Forall wf_type rest ->
  let dt := info_datatype id crc rest in
  (id < 256)%N -> (crc < 2 ^ 16)%N -> st_types A id true = Some dt -> st_types B id true = Some dt ->
  (1 <= a < 128 /\ 1 <= dest < 128)%N ->
  calm (st_beh A) -> (forall l fs, st_drv B l fs = None) -> hd_type hd = Some (id, true) -> hd_sniff hd = false ->
  (forall q, st_beh B (n_log (ran B (x_callee x)) ++ [OHandled hd q]) = ([], info_outcome second dt me now info)) ->
  exchanged A B hd dt a dest (VComp [] None) x ->
  exists t s old, answered A dt dest (VComp [] None) x t /\
    info_status (rx_value t) = Some s /\ truthful second me now s /\
    info_status info = Some old /\ seen_sub_mode s = seen_sub_mode old /\
    content (TComp false rest) (info_rest (rx_value t)) = content (TComp false rest) (info_rest info).
Proof. exact info_answered. Qed.
Print Assumptions C130_info.

(** At one time, the status in the information is the one that is broadcast,
    but for the sub-mode. *)
Theorem C130_same_partial : forall second me now info v w s s',
  node_status second me now = Ok v -> status_of v = Some s ->
  on_get_node_info second me now info = Ok w -> info_status w = Some s' ->
  seen_uptime s = seen_uptime s' /\ seen_health s = seen_health s' /\ seen_mode s = seen_mode s' /\ seen_code s = seen_code s'.
Proof. exact same_status. Qed.
Print Assumptions C130_same_partial.

(** Not so for the sub-mode: the user can set it only in the information, and
    it is not broadcast. *)
Definition own_rest : list dtype := [TPrim KUint 8 Saturated; TArr true (TPrim KUint 8 Saturated) 80].
Definition own_status (sub : N) : value :=
  VComp [VPrim (bits_of_N 32 0); VPrim (bits_of_N 2 0); VPrim (bits_of_N 3 0); VPrim (bits_of_N 3 sub); VPrim (bits_of_N 16 0)] None.
Definition own_info : value :=
  VComp [own_status 5; VPrim (bits_of_N 8 3); VArr (map (fun c => VPrim (bits_of_N 8 c)) [111; 114; 103; 46; 120]%N)] None.
Definition own_me := Self 2000 1 9 70000.
Definition seen_in (r : res value) (look : value -> option seen_status) : option seen_status :=
  match r with Ok v => look v | Err _ => None end.
Example own_info_valid : valid (TComp false (status_type :: own_rest)) own_info.
Proof.
  constructor. constructor; [|constructor; [|constructor; [|constructor]]].
  - constructor. repeat (constructor; [constructor; reflexivity|]). constructor.
  - constructor. reflexivity.
  - constructor; [|cbn; lia]. repeat (constructor; [constructor; reflexivity|]). constructor.
Qed.
Theorem C130_same_refuted : exists second me now info s s',
  0 < second /\ me_start me <= now /\ valid (TComp false (status_type :: own_rest)) info /\
  seen_in (node_status second me now) status_of = Some s /\
  seen_in (on_get_node_info second me now info) info_status = Some s' /\ s <> s'.
Proof.
  exists 1000, own_me, 12345678, own_info, (Seen 12344 1 7 0 65535), (Seen 12344 1 7 5 65535).
  split; [lia|]. split; [cbn; lia|]. split; [exact own_info_valid|].
  split; [vm_compute; reflexivity|]. split; [vm_compute; reflexivity|discriminate].
Qed.
Print Assumptions C130_same_refuted.

(** Half a second is rounded up; after 136 years the uptime stays where it is. *)
Example C130_uptimes :
  map (fun t => option_map seen_uptime (seen_in (node_status 1000 own_me (2000 + t)) status_of)) [0; 499; 500; 1499; 1500; 4294967295499; 99999999999999] =
  map Some [0; 0; 1; 1; 2; 4294967295; 4294967295].
Proof. vm_compute. reflexivity. Qed.
(** Just after the start: uptime 0, healthy, the mode given, or initialising
    when none is. *)
Theorem C130_new : forall second start mode, 0 < second ->
  exists v, node_status second (new_self start mode) start = Ok v /\
    status_of v = Some (Seen 0 0 (match mode with None => 1 | Some m => Z.min 7 (Z.max 0 m) end) 0 0).
Proof. exact status_new. Qed.
Print Assumptions C130_new.
Example C130_new_case : seen_in (node_status 1000 (new_self 7 None) 7) status_of = Some (Seen 0 0 1 0 0) /\
  seen_in (node_status 1000 (new_self 7 (Some 0)) 4007) status_of = Some (Seen 4 0 0 0 0).
Proof. vm_compute. auto. Qed.

(** Node 5 asks node 42 for its information; node 42 sends it in four frames. *)
Definition own_type := info_datatype 1 0x1234 own_rest.
Definition own_types : datatypes := fun id svc => if (id =? 1)%N && svc then Some own_type else None.
Definition own_hd := Handler 0 (Some (1%N, true)) false.
Definition own_beh (l : list nobs) : list (nop * bool) * outcome :=
  match last l (ONodeId 0) with
  | OHandled _ q => ([], info_outcome 1000 own_type own_me 12345678 own_info)
  | _ => ([], Returns None)
  end.
Definition own_client := Station ex_clk quiet good_driver (fun _ => ex_value) ex_message own_types 1000
  (Some 5%N) false true 100000 (1%N, true) 20.
Definition own_server := Station ex_clk own_beh good_driver (fun _ => ex_value) ex_message own_types 1000
  (Some 42%N) false true 100000 (1%N, true) 20.
Definition own_exchange := Eval vm_compute in
  let op := IOp (NRequest own_type (VComp [] None) 42 None (Some 100000) None) in
  let fs := new_frames own_client [] [op] in
  let f := last fs (Frame 0 [] false None None) in
  let rs := new_frames own_server [] [IFrame true f] in
  Exchange [] (map (IFrame true) (removelast rs)) [] None 20 (Some 100000) None
    fs (removelast fs) f [] rs (removelast rs) (last rs f) [].
Example C130_exchange : exchanged own_client own_server own_hd own_type 5 42 (VComp [] None) own_exchange.
Proof.
  split; [reflexivity|]. split; [vm_compute; reflexivity|].
  do 4 (split; [vm_compute; reflexivity|]). split; [apply same_frames|]. do 2 (split; [vm_compute; reflexivity|]).
  split; [vm_compute; lia|]. split; [vm_compute; reflexivity|]. split; [apply same_frames|].
  split; [vm_compute; reflexivity|]. split; [apply no_requests; vm_compute; reflexivity|].
  split; [apply one_request; vm_compute; reflexivity|apply not_done; vm_compute; reflexivity].
Qed.
Example C130_info_case : length (x_reply own_exchange) = 3%nat /\
  exists t s, answered own_client own_type 42 (VComp [] None) own_exchange t /\
    info_status (rx_value t) = Some s /\ truthful 1000 own_me 12345678 s /\ seen_sub_mode s = 5.
Proof.
  split; [vm_compute; reflexivity|].
  destruct (C130_info 1000 own_me 12345678 own_info own_client own_server own_hd 1 0x1234 own_rest 5 42 own_exchange)
    as (t & s & old & An & So & T & O & Q & _).
  - lia.
  - cbn; lia.
  - exact own_info_valid.
  - repeat constructor; cbn; repeat split; lia || discriminate.
  - lia.
  - reflexivity.
  - reflexivity.
  - reflexivity.
  - lia.
  - intros l r t. cbn. split; [intros op c []|discriminate].
  - reflexivity.
  - reflexivity.
  - reflexivity.
  - intros q. cbn [st_beh own_server]. unfold own_beh. rewrite last_last. reflexivity.
  - exact C130_exchange.
  - exists t, s. do 3 (split; [assumption|]). rewrite Q.
    assert (E0 : info_status own_info = Some (Seen 0 0 0 5 0)) by (vm_compute; reflexivity).
    rewrite E0 in O. injection O as <-. reflexivity.
Qed.

(** Node 5 hears the status of node 42, with two handlers for statuses. *)
Definition heard_dt := status_datatype 341 0xBE5F.
Definition heard_types : datatypes := fun id svc => if (id =? 341)%N && negb svc then Some heard_dt else None.
Definition heard_value := Eval vm_compute in match node_status 1000 own_me 12345678 with Ok v => v | Err _ => VVoid end.
Definition heard_sending := Sending (Header 20 false false (Some 42%N) None 341 None) 3 heard_dt heard_value false.
Definition heard_frames := Eval vm_compute in frames_of heard_sending.
Definition heard_ins := [IOp (NAddHandler (Some (341%N, false)) false); IPoll; IOp (NAddHandler (Some (341%N, false)) false)].
Example C130_heard_case :
  node_status 1000 own_me 12345678 = Ok heard_value /\ legal (s_header heard_sending) /\ sent heard_sending heard_frames /\
  length heard_frames = 1%nat /\
  (let s := started ex_clk quiet good_driver (fun _ => ex_value) ex_message heard_types 1000 (Some 5%N) false true 100000 (1%N, true) 20
     (heard_ins ++ map (IFrame true) heard_frames) in
   map (fun p => status_of (rx_value (snd p))) (handled (n_log s)) = [Some (Seen 12344 1 7 0 65535); Some (Seen 12344 1 7 0 65535)]).
Proof.
  split; [vm_compute; reflexivity|]. split; [constructor; lia|]. split.
  - change heard_frames with (frames_of heard_sending). apply frames_of_sent. vm_compute. discriminate.
  - vm_compute. auto.
Qed.

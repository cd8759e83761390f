(** C120: a transfer survives every chain of links and bridges. *)
From Verif.Base Require Import Prelude Bits.
From Verif.Model Require Import BitCodec Types Codec MsgId Frames TransferManager Node CanFrame Packets FileLog TsEst Slcan Bridge.
From Verif.Spec Require Import CodecSpec NodeSpec MsgIdSpec FrameSpec ReassemblySpec SendingSpec CrcSpec PacketSpec LogSpec SlcanSpec BridgeSpec LinkSpec.
From Verif.Proofs Require Import SlcanFacts TransferTop NodeFacts NodeNet NodeTop LinkFacts.
From Verif.Properties Require Import FrameProps NodeProps TsProps.
Local Open Scope N_scope.

(** Frames that fit on a bus come out of any number of links (SocketCAN,
    multicast, MAVLink, SLCAN, a log file) and bridges as they went in. *)
Theorem C120_route : forall traffic gs, Forall sendable traffic -> route traffic gs ->
  Forall2 same_can traffic gs.
Proof. exact route_same. Qed.
Print Assumptions C120_route.

(** The frames of a transfer are such frames. Missing: CAN FD frames of
    lengths that do not exist. *)
Theorem C120_sendable_partial : forall types sd fs ts, proper types sd -> sent sd fs ->
  s_canfd sd = false \/ Forall (fun f => In (length (f_bytes f)) fd_lengths) fs ->
  Forall (fun f => sendable (given ts f)) fs.
Proof. exact sent_sendable. Qed.
Print Assumptions C120_sendable_partial.

(** So a message, or a request to the receiving node, arrives at every handler
    for it with the content that was sent, whatever is between the nodes and
    whatever else is sent: [traffic] is everything that goes in, [gs] what
    comes out and what the receiver heard, the last frame of the transfer
    last. Missing: the same. *)
Theorem C120_reaches_handlers_partial : forall clk beh drv status status_dt types second id canfd interval info fuel
    ins sd fs earlier fs' traffic gs f,
  removes_none beh -> adds_none beh ->
  proper types sd -> sent sd fs -> Forall sendable traffic ->
  filter (has_key (sending_key sd)) (map as_heard traffic) = earlier ++ fs' -> Forall2 same_frame fs fs' ->
  route traffic gs -> map as_heard gs = heard ins ++ [f] -> has_key (sending_key sd) f = true ->
  let s := started clk beh drv status status_dt types second id canfd true interval info fuel ins in
  let s' := started clk beh drv status status_dt types second id canfd true interval info fuel (ins ++ [IFrame true f]) in
  (h_service (s_header sd) = false \/ h_request (s_header sd) = true /\ h_dest (s_header sd) = n_id s) ->
  (length (handler_list s (n_cur s)) < fuel)%nat ->
  exists r, faithful sd r /\
    handled (n_log s') = handled (n_log s) ++
      map (fun hd => (hd, r)) (filter (fun hd => accepts hd r) (handler_list s (n_cur s))).
Proof.
  intros clk beh drv status status_dt types second id canfd interval info fuel ins sd fs earlier fs' traffic gs f
    Hr Ha Hp Hs Ht Hf Hsame R Eg Hk s s' Hd Hfuel.
  assert (fs <> []) as Hne by (destruct (sent_carries types sd fs Hp Hs) as (body & Hc); apply Hc).
  destruct (arrived _ fs earlier fs' traffic gs (heard ins) f Hne (route_same _ _ Ht R) Eg Hk Hf Hsame) as (e & pre & H1 & H2).
  eapply C74_transfer_reaches_handlers; eauto.
Qed.
Print Assumptions C120_reaches_handlers_partial.

(** A CAN FD message of 62 bytes has a frame of 63; what the SLCAN driver
    writes for it stands for no frame at all. *)
Definition long_sending := example_sending 57 true.
Definition long_frame : frame := hd (Frame 0 [] true None None) (frames_of long_sending).
Definition long_line : list N := match slcan_encode (given 0 long_frame) with Ok l => removelast l | Err _ => [] end.
Definition parsed_length (r : res (option (rxframe * option Z))) : option nat :=
  match r with Ok (Some (g, _)) => Some (length (r_data g)) | _ => None end.
Theorem C120_slcan_refuted : exists types sd f line,
  proper types sd /\ sent sd [f] /\ length (f_bytes f) = 63%nat /\ slcan_encode (given 0 f) = Ok (line ++ [CR]) /\
  forall g ts, ~ frame_line g ts line.
Proof.
  exists example_types, long_sending, long_frame, long_line. split; [apply example_proper; lia|]. split.
  { assert (E : frames_of long_sending = [long_frame]) by (vm_compute; reflexivity).
    rewrite <- E. apply frames_of_sent. rewrite E. discriminate. }
  split; [vm_compute; reflexivity|]. split; [vm_compute; reflexivity|].
  intros g ts H. pose proof (proj1 (line_parsed _ _ _ H)) as P.
  assert (L : parsed_length (slcan_parse long_line) = Some 63%nat) by (vm_compute; reflexivity).
  rewrite P in L. cbn [parsed_length] in L. injection L as L.
  destruct H as (idt & c & pairs & tail & dlc & _ & _ & _ & _ & _ & K & _). rewrite L in K. apply nth_error_In in K.
  vm_compute in K. clear -K. repeat (destruct K as [K|K]; [discriminate|]). exact K.
Qed.
Print Assumptions C120_slcan_refuted.

(** Every link takes every such frame: none is refused by a driver or lost at
    the other side. *)
Theorem C120_accepted : forall params now myport address port bus fs, Forall sendable fs -> myport <> Some port ->
  (exists gs, Forall2 (fun f g => exists p, sock_packet f = Ok p /\ sock_parse now p = Ok g) fs gs) /\
  (exists gs, Forall2 (fun f g => exists p, mcast_packet f = Ok p /\ mcast_receive now myport address port p = Some g) fs gs) /\
  (exists gs, Forall2 (fun f g => exists m, mav_message bus f = Some m /\ g = mav_parse now m) fs gs) /\
  (exists gs lines reads, hop fs gs /\ Forall2 (fun f l => slcan_encode f = Ok l) fs lines /\ stream reads = concat lines /\
     Forall2 (fun r g => exists ts, read_at ts r g) (delivered (rx_reads params rx_new reads)) gs).
Proof.
  intros params now myport address port bus fs F Hp. destruct (packets_take now myport address port bus fs Hp F) as (A & B & C).
  split; [exact A|]. split; [exact B|]. split; [exact C|]. apply slcan_takes; exact F.
Qed.
Print Assumptions C120_accepted.

(** A message of four frames among others, through a bridge and then over a
    serial line. *)
Definition case_traffic : list cframe :=
  map (given 0) (firstn 2 (frames_of (example_sending 20 false))) ++ [CFrame 0x105 [1; 0xC0] true false 7] ++
  map (given 5) (skipn 2 (frames_of (example_sending 20 false))).
Definition case_steps : list (nat * receipt * delivery) :=
  flat_map (fun f => [(0%nat, RFrame f, Taken); (0%nat, RNone, Taken); (0%nat, RNone, QueueFull); (0%nat, RNone, Taken)]) case_traffic.
Lemma case_sendable : Forall sendable case_traffic.
Proof.
  pose proof (sent_sendable example_types (example_sending 20 false) (frames_of (example_sending 20 false))) as S.
  assert (P : proper example_types (example_sending 20 false)) by (apply example_proper; lia).
  assert (T : sent (example_sending 20 false) (frames_of (example_sending 20 false))) by (apply frames_of_sent; vm_compute; discriminate).
  unfold case_traffic. apply Forall_app. split; [|apply Forall_app; split].
  - apply Forall_map. pose proof (S 0%Z P T (or_introl eq_refl)) as K. rewrite Forall_forall in *. intros x Hx. apply K.
    rewrite <- (firstn_skipn 2). apply in_or_app. left. exact Hx.
  - constructor; [|constructor]. split; [split; [|split]|split].
    + reflexivity.
    + repeat (constructor; [reflexivity|]). constructor.
    + cbn. lia.
    + reflexivity.
    + cbn. tauto.
  - apply Forall_map. pose proof (S 5%Z P T (or_introl eq_refl)) as K. rewrite Forall_forall in *. intros x Hx. apply K.
    rewrite <- (firstn_skipn 2). apply in_or_app. right. exact Hx.
Qed.
Example C120_case : exists gs ins f,
  route case_traffic gs /\ map as_heard gs = heard ins ++ [f] /\
  filter (has_key (sending_key (example_sending 20 false))) (map as_heard case_traffic) =
    map (fun f => as_heard (given 0 f)) (firstn 2 (frames_of (example_sending 20 false))) ++
    map (fun f => as_heard (given 5 f)) (skipn 2 (frames_of (example_sending 20 false))) /\
  has_key (sending_key (example_sending 20 false)) f = true /\ length gs = 5%nat.
Proof.
  assert (B : hop case_traffic case_traffic).
  { pose proof (hop_bridge (Some [42; 5])%N 2 0 1 case_steps) as B. cbv zeta in B.
    assert (E1 : received 0 (b_log (run (Some [42; 5])%N 2 (start 2) case_steps)) = case_traffic) by (vm_compute; reflexivity).
    assert (E2 : forwarded 0 1 (b_log (run (Some [42; 5])%N 2 (start 2) case_steps)) = case_traffic) by (vm_compute; reflexivity).
    rewrite E1, E2 in B. apply B; [lia|discriminate| |].
    - exists (Thread Top 5). split; vm_compute; reflexivity.
    - apply Forall_forall. intros x Hx. vm_compute in Hx. repeat (destruct Hx as [<-|Hx]; [vm_compute; tauto|]). destruct Hx. }
  destruct (slcan_takes slcan_params case_traffic case_sendable) as (gs & lines & reads & H & _).
  pose proof (hop_same _ _ case_sendable H) as S.
  assert (L : length gs = 5%nat) by (clear -S; pose proof (WireFacts.Forall2_length _ _ _ S) as E; vm_compute in E; symmetry; exact E).
  assert (K : map (fun x => has_key (sending_key (example_sending 20 false)) (as_heard x)) gs = [true; true; false; true; true]).
  { transitivity (map (fun x => has_key (sending_key (example_sending 20 false)) (as_heard x)) case_traffic); [|vm_compute; reflexivity].
    clear -S. apply heard_same in S. rewrite <- !(map_map as_heard). induction S as [|f g fs gs' E S IH]; [reflexivity|].
    cbn [map]. rewrite IH. unfold has_key at 1 3. rewrite (same_key f g E). reflexivity. }
  destruct gs as [|g gs _] using rev_ind; [discriminate|].
  exists (gs ++ [g]), (map (fun x => IFrame true (as_heard x)) gs), (as_heard g). split; [|split; [|split; [|split]]].
  - eapply route_on; [exact B|]. eapply route_on; [exact H|]. constructor.
  - rewrite map_app. f_equal. clear. induction gs as [|x gs IH]; [reflexivity|]. cbn [map]. rewrite IH. reflexivity.
  - vm_compute. reflexivity.
  - rewrite map_app in K. exact (proj2 (app_inj_tail _ [true; true; false; true] _ _ K)).
  - exact L.
Qed.

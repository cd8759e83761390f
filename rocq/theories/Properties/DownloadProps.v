(** Reading a file of another node, end to end: C128. *)
From Verif.Base Require Import Prelude Bits.
From Verif.Model Require Import BitCodec Types Codec MsgId Frames TransferManager FileServer Node FileNode.
From Verif.Spec Require Import CodecSpec NodeSpec MsgIdSpec FrameSpec ReassemblySpec SendingSpec CallSpec DownloadSpec.
From Verif.Proofs Require Import NodeFacts NodeRequests NodeTop NodeCallTop DownloadFacts.
From Verif.Properties Require Import NodeProps CallProps.
Local Open Scope Z_scope.

(** C128: one request for the bytes from [off] on is answered with the next
    256 bytes of the file, or what is left of it. *)
Theorem C128_chunk : forall isfile abspath contents decode lookup path_map A B hd id crc a dest off raw path out data x,
  file_service isfile abspath contents decode lookup path_map A B hd id crc a dest ->
  (off < 2 ^ 40)%N -> (length raw <= 200)%nat -> Forall (fun b => (b < 256)%N) raw ->
  decode raw = Some path -> resolve_path isfile abspath lookup path_map path = Ok out ->
  contents out = Some data -> Forall (fun b => (b < 256)%N) data ->
  exchanged A B hd (read_type id crc) a dest (asks off raw) x ->
  exists t, answered A (read_type id crc) dest (asks off raw) x t /\
    data_of (rx_value t) = Some (firstn 256 (skipn (N.to_nat off) data)).
Proof. exact chunk_read. Qed.
Print Assumptions C128_chunk.

(** A path that leads to no file, or to one that cannot be read, is answered
    with an error. *)
Theorem C128_missing : forall isfile abspath contents decode lookup path_map A B hd id crc a dest off raw path x,
  file_service isfile abspath contents decode lookup path_map A B hd id crc a dest ->
  (off < 2 ^ 40)%N -> (length raw <= 200)%nat -> Forall (fun b => (b < 256)%N) raw ->
  decode raw = Some path ->
  (forall out, resolve_path isfile abspath lookup path_map path = Ok out -> contents out = None) ->
  exchanged A B hd (read_type id crc) a dest (asks off raw) x ->
  exists t, answered A (read_type id crc) dest (asks off raw) x t /\
    data_of (rx_value t) = None /\ error_of (rx_value t) = Some 32767%N.
Proof. exact missing_read. Qed.
Print Assumptions C128_missing.

(** Requests for offset 0, 256, 512 and so on give the beginning of the file,
    and all of it when the last chunk is short. *)
Theorem C128_download : forall isfile abspath contents decode lookup path_map A B hd id crc a dest raw path out data xs,
  file_service isfile abspath contents decode lookup path_map A B hd id crc a dest ->
  (length raw <= 200)%nat -> Forall (fun b => (b < 256)%N) raw ->
  decode raw = Some path -> resolve_path isfile abspath lookup path_map path = Ok out ->
  contents out = Some data -> Forall (fun b => (b < 256)%N) data ->
  (256 * N.of_nat (length xs) <= 2 ^ 40)%N ->
  (forall i x, nth_error xs i = Some x ->
     exchanged A B hd (read_type id crc) a dest (asks (256 * N.of_nat i) raw) x) ->
  exists ts chunks, length ts = length xs /\
    (forall i x t, nth_error xs i = Some x -> nth_error ts i = Some t ->
       answered A (read_type id crc) dest (asks (256 * N.of_nat i) raw) x t) /\
    map (fun t => data_of (rx_value t)) ts = map Some chunks /\
    concat chunks = firstn (256 * length xs) data /\
    (chunks <> [] -> (length (last chunks []) < 256)%nat -> concat chunks = data).
Proof. exact download. Qed.
Print Assumptions C128_download.

(** Node 5 reads the file "a", 258 bytes, from node 42, in two requests; a
    frame of someone else's arrives in between. *)
Definition dl_data : list N := map (fun i => N.of_nat i mod 256)%N (seq 0 258).
Definition dl_contents (p : str) : option (list N) := if str_eqb p [97]%N then Some dl_data else None.
Definition dl_type := read_type 48 0x8DCD.
Definition dl_types : datatypes := fun id svc => if (id =? 48)%N && svc then Some dl_type else None.
Definition dl_hd := Handler 1 (Some (48%N, true)) false.
Definition dl_beh (l : list nobs) : list (nop * bool) * outcome :=
  match last l (ONodeId 0) with
  | OHandled _ q => ([], file_outcome (fun _ => true) (fun p => p) dl_contents Some [] [([97], [97])]%N dl_type (rx_value q))
  | _ => ([], Returns None)
  end.
Definition dl_client := Station ex_clk quiet good_driver (fun _ => ex_value) ex_message dl_types 1000
  (Some 5%N) false true 100000 (2%N, true) 20.
Definition dl_server := Station ex_clk dl_beh good_driver (fun _ => ex_value) ex_message dl_types 1000
  (Some 42%N) false true 100000 (2%N, true) 20.
Definition dl_op (off : N) := IOp (NRequest dl_type (asks off [97%N]) 42 None (Some 100000) None).
(** The exchange for [off] when [before] and [callee] happened. *)
Definition dl_exchange (before callee : list ninput) (off : N) : exchange :=
  let fs := new_frames dl_client before [dl_op off] in
  let f := last fs (Frame 0 [] false None None) in
  let callee' := callee ++ map (IFrame true) (removelast fs) in
  let rs := new_frames dl_server callee' [IFrame true f] in
  let r := last rs f in
  Exchange before (map (IFrame true) (removelast rs)) callee' None 20 (Some 100000) None
    fs (removelast fs) f [] rs (removelast rs) r [].
Definition dl_after (x : exchange) (off : N) : list ninput :=
  x_before x ++ [dl_op off] ++ x_between x ++ [IFrame true (x_reply_last x); ex_foreign 3].
Definition dl_first := Eval vm_compute in dl_exchange [] [IOp (NAddHandler (Some (48%N, true)) false)] 0.
Definition dl_second := Eval vm_compute in
  dl_exchange (dl_after dl_first 0) (x_callee dl_first ++ [IFrame true (x_request_last dl_first)]) 256.

Example C128_service :
  file_service (fun _ => true) (fun p => p) dl_contents Some [] [([97], [97])]%N dl_client dl_server dl_hd 48 0x8DCD 5 42.
Proof.
  constructor; try reflexivity; try lia.
  - intros l r t. cbn. split; [intros op c []|discriminate].
  - intros l q. cbn [st_beh dl_server]. unfold dl_beh. rewrite last_last. reflexivity.
Qed.
Lemma same_frames fs : Forall2 same_frame fs fs.
Proof. induction fs; constructor; [repeat split|assumption]. Qed.
Lemma no_requests (l : list nat) (P : nat -> Prop) : l = [] -> forall r, In r l -> P r.
Proof. intros -> r []. Qed.
Lemma one_request (l : list nat) n : l = [n] -> forall r, In r l -> (r <= n)%nat.
Proof. intros -> r [->|[]]. lia. Qed.
Lemma not_done r l : (responses r l + timeouts r l)%nat = 0%nat -> ~ done r l.
Proof. unfold done. lia. Qed.
Example C128_first : exchanged dl_client dl_server dl_hd dl_type 5 42 (asks 0 [97%N]) dl_first.
Proof.
  split; [reflexivity|]. split; [vm_compute; reflexivity|].
  do 4 (split; [vm_compute; reflexivity|]). split; [apply same_frames|]. do 2 (split; [vm_compute; reflexivity|]).
  split; [vm_compute; lia|]. split; [vm_compute; reflexivity|]. split; [apply same_frames|].
  split; [vm_compute; reflexivity|]. split; [apply no_requests; vm_compute; reflexivity|].
  split; [apply one_request; vm_compute; reflexivity|apply not_done; vm_compute; reflexivity].
Qed.
Example C128_second : exchanged dl_client dl_server dl_hd dl_type 5 42 (asks 256 [97%N]) dl_second.
Proof.
  split; [reflexivity|]. split; [vm_compute; reflexivity|].
  do 4 (split; [vm_compute; reflexivity|]). split; [apply same_frames|]. do 2 (split; [vm_compute; reflexivity|]).
  split; [vm_compute; lia|]. split; [vm_compute; reflexivity|]. split; [apply same_frames|].
  split; [vm_compute; reflexivity|]. split; [apply no_requests; vm_compute; reflexivity|].
  split; [apply one_request; vm_compute; reflexivity|apply not_done; vm_compute; reflexivity].
Qed.
Example C128_case : length (x_reply dl_first) = 38%nat /\ length (x_reply dl_second) = 1%nat /\
  exists ts chunks, map (fun t => data_of (rx_value t)) ts = map Some chunks /\ length ts = 2%nat /\ concat chunks = dl_data.
Proof.
  split; [vm_compute; reflexivity|]. split; [vm_compute; reflexivity|].
  destruct (C128_download (fun _ => true) (fun p => p) dl_contents Some [] [([97], [97])]%N dl_client dl_server dl_hd
    48 0x8DCD 5 42 [97%N] [97%N] [97%N] dl_data [dl_first; dl_second]) as (ts & chunks & H1 & _ & H2 & H3 & _).
  - exact C128_service.
  - cbn; lia.
  - repeat constructor.
  - reflexivity.
  - reflexivity.
  - reflexivity.
  - apply Forall_forall. intros b Hb. apply in_map_iff in Hb as (i & <- & _). apply N.mod_lt. discriminate.
  - cbn. lia.
  - intros [|[|[|i]]] x H; try discriminate; injection H as <-; [exact C128_first|exact C128_second].
  - exists ts, chunks. split; [exact H2|]. split; [exact H1|]. rewrite H3. vm_compute. reflexivity.
Qed.
Print Assumptions C128_case.

(** The same request for a file that is not there. *)
Definition dl_op_b := IOp (NRequest dl_type (asks 0 [98%N]) 42 None (Some 100000) None).
Definition dl_absent := Eval vm_compute in
  let callee := [IOp (NAddHandler (Some (48%N, true)) false)] in
  let fs := new_frames dl_client [] [dl_op_b] in
  let f := last fs (Frame 0 [] false None None) in
  let rs := new_frames dl_server callee [IFrame true f] in
  Exchange [] (map (IFrame true) (removelast rs)) callee None 20 (Some 100000) None
    fs (removelast fs) f [] rs (removelast rs) (last rs f) [].
Example C128_absent : exchanged dl_client dl_server dl_hd dl_type 5 42 (asks 0 [98%N]) dl_absent.
Proof.
  split; [reflexivity|]. split; [vm_compute; reflexivity|].
  do 4 (split; [vm_compute; reflexivity|]). split; [apply same_frames|]. do 2 (split; [vm_compute; reflexivity|]).
  split; [vm_compute; lia|]. split; [vm_compute; reflexivity|]. split; [apply same_frames|].
  split; [vm_compute; reflexivity|]. split; [apply no_requests; vm_compute; reflexivity|].
  split; [apply one_request; vm_compute; reflexivity|apply not_done; vm_compute; reflexivity].
Qed.
Example C128_missing_case : exists t, answered dl_client dl_type 42 (asks 0 [98%N]) dl_absent t /\
  data_of (rx_value t) = None /\ error_of (rx_value t) = Some 32767%N.
Proof.
  apply (C128_missing (fun _ => false) (fun p => p) dl_contents Some [] [([97], [97])]%N dl_client dl_server dl_hd 48 0x8DCD 5 42 0 [98%N] [98%N]).
  - constructor; try reflexivity; try lia.
    + intros l r t. cbn. split; [intros op c []|discriminate].
    + intros l q. cbn [st_beh dl_server]. unfold dl_beh. rewrite last_last. reflexivity.
  - reflexivity.
  - cbn; lia.
  - repeat constructor.
  - reflexivity.
  - intros out H. discriminate H.
  - exact C128_absent.
Qed.
Print Assumptions C128_missing_case.

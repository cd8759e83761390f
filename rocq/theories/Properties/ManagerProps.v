(** Reassembly of interleaved and damaged traffic: C17, C18, C19, C22. *)
From Verif.Base Require Import Prelude Bits.
From Verif.Model Require Import BitCodec Types Codec Crc MsgId Frames TransferManager.
From Verif.Spec Require Import CodecSpec CrcSpec MsgIdSpec FrameSpec ReassemblySpec SendingSpec.
From Verif.Proofs Require Import ManagerFacts TransferTop.
From Verif.Properties Require Import FrameProps.
Local Open Scope N_scope.

(** C17, for frames: transfers with different keys, merged in any way, mixed
    with frames of other keys. *)
Theorem C17_interleaved_delivery : forall ks tss foreign arr,
  Forall2 one_transfer ks tss -> NoDup ks ->
  Forall (fun f => ~ In (transfer_key f) ks) foreign ->
  interleaving (foreign :: tss) (map fst arr) ->
  forall i k ts, nth_error ks i = Some k -> nth_error tss i = Some ts ->
  delivered k arr = [ts].
Proof. exact interleaved_delivered. Qed.
Print Assumptions C17_interleaved_delivery.

(** C17, for messages: what is delivered decodes to what was sent. *)
Theorem C17_interleaved_messages : forall types ss foreign received arr,
  Forall (proper types) ss -> NoDup (map sending_key ss) ->
  Forall (fun f => ~ In (transfer_key f) (map sending_key ss)) foreign ->
  Forall2 (fun s fs' => exists fs, sent s fs /\ Forall2 same_frame fs fs') ss received ->
  interleaving (foreign :: received) (map fst arr) ->
  forall i s fs', nth_error ss i = Some s -> nth_error received i = Some fs' ->
  delivered (sending_key s) arr = [fs'] /\
  exists r, from_frames types fs' = Ok r /\ faithful s r.
Proof. exact network_delivery. Qed.
Print Assumptions C17_interleaved_messages.

(** Several transfers of the same key one after the other. *)
Theorem C17_successive_delivery : forall k arr tss,
  frames_with k arr = concat tss -> Forall (one_transfer k) tss -> delivered k arr = tss.
Proof. exact delivered_in_order. Qed.
Print Assumptions C17_successive_delivery.

(** Two senders of four frames each, fully interleaved, and one foreign frame. *)
Definition other_sending : sending :=
  Sending (Header 16 false false (Some 43) None 341 None) 5 example_datatype (example_value 19) false.
Definition foreign_frame : frame := Frame 0x1001552C [1; 2; 3; 0xC0] false None None.
Definition merged : list frame :=
  foreign_frame ::
  concat (map (fun p => [fst p; snd p])
            (combine (frames_of (example_sending 20 false)) (frames_of other_sending))).
Definition timed (fs : list frame) : list (frame * Z) := map (fun f => (f, 0%Z)) fs.
Lemma timed_fst fs : map fst (timed fs) = fs.
Proof. unfold timed. rewrite map_map. apply map_id. Qed.

Lemma merged_interleaving : interleaving
  [[foreign_frame]; frames_of (example_sending 20 false); frames_of other_sending] merged.
Proof.
  assert (exists a b c d e f g h, frames_of (example_sending 20 false) = [a; b; c; d] /\
            frames_of other_sending = [e; f; g; h]) as (a & b & c & d & e & f & g & h & E1 & E2).
  { vm_compute. do 8 eexists. split; reflexivity. }
  unfold merged. rewrite E1, E2. cbn [combine map concat app fst snd].
  apply (inter_cons [] _ [] [_; _]). cbn [app].
  do 4 (apply (inter_cons [[]] _ _ [_]); cbn [app]; apply (inter_cons [[]; _] _ _ []); cbn [app]).
  apply inter_nil. repeat constructor.
Qed.

Example C17_case :
  Forall (proper example_types) [example_sending 20 false; other_sending] /\
  NoDup (map sending_key [example_sending 20 false; other_sending]) /\
  interleaving [[foreign_frame]; frames_of (example_sending 20 false); frames_of other_sending]
    (map fst (timed merged)) /\
  length merged = 9%nat.
Proof.
  split; [|split; [|split]].
  - constructor; [apply example_proper; lia|]. constructor; [|constructor].
    destruct (example_proper 19 false ltac:(lia)). split; try assumption. constructor; lia.
  - vm_compute. repeat constructor; cbn; intuition discriminate.
  - rewrite timed_fst. exact merged_interleaving.
  - vm_compute. reflexivity.
Qed.

(** C18: a delivery consists of the latest frames of its key, starting with
    the only start frame among them and ending with the only end frame; and it
    is made whenever there are such frames. *)
Theorem C18_delivery_exact : forall arr f now fs,
  snd (receive_frame (fst (feed new_manager arr)) f now) = Some fs <->
  one_transfer (transfer_key f) fs /\
  exists earlier, frames_with (transfer_key f) arr ++ [f] = earlier ++ fs.
Proof. exact receive_exact. Qed.
Print Assumptions C18_delivery_exact.

(** Nothing is delivered twice: the frames of all deliveries of a key are, in
    order, some of the received frames of that key. *)
Theorem C18_nothing_twice : forall k arr,
  subsequence (concat (delivered k arr)) (frames_with k arr).
Proof. exact delivered_subsequence. Qed.
Print Assumptions C18_nothing_twice.

(** A restarted transfer: the first, incomplete attempt is forgotten. *)
Example C18_case :
  let fr b := Frame 7 b false None None in
  snd (receive_frame (fst (feed new_manager
         (timed [fr [1; 0x83]; fr [2; 0x83]; fr [3; 0x23]; fr [9; 0x44]])))
       (fr [4; 0x43]) 0) = Some [fr [2; 0x83]; fr [3; 0x23]; fr [4; 0x43]].
Proof. reflexivity. Qed.

(** C19 *)
Theorem C19_fault_noticed : forall types s fs fs' K arr,
  proper types s -> sent s fs -> Forall2 same_frame fs fs' -> (2 <= length fs)%nat ->
  fault fs' K -> frames_with (sending_key s) arr = K ->
  forall o, In o (delivered (sending_key s) arr) ->
    o = fs' \/ from_frames types o = Err TransferError.
Proof. exact sent_faulty. Qed.
Print Assumptions C19_fault_noticed.

(** The second of four frames lost: the rest is delivered, and rejected. *)
Example C19_case : exists a b c d,
  frames_of (example_sending 20 false) = [a; b; c; d] /\
  fault [a; b; c; d] [a; c; d] /\
  frames_with (sending_key (example_sending 20 false)) (timed [a; c; d]) = [a; c; d] /\
  delivered (sending_key (example_sending 20 false)) (timed [a; c; d]) = [[a; c; d]].
Proof.
  vm_compute frames_of. do 4 eexists. split; [reflexivity|].
  split; [apply (fault_drop [_] _ [_; _])|]. split; vm_compute; reflexivity.
Qed.

(** C22: false. The first expired transfer is removed from the dictionary that
    is being iterated over, which makes the iteration fail; other expired
    transfers stay. *)
Theorem C22_cleanup_refuted : exists arr now timeout,
  let m := fst (feed new_manager arr) in
  let '(m', r) := remove_inactive_transfers m now timeout in
  r = Err RuntimeError /\
  exists k, is_stale arr now timeout k = true /\ In k (pending_keys m').
Proof.
  exists [(Frame 1 [5; 0x80] false None None, 0%Z); (Frame 2 [6; 0x80] false None None, 1%Z)], 10%Z, 2%Z.
  split; [reflexivity|]. exists (2, Some 0). split; [reflexivity|]. cbn. auto.
Qed.
Print Assumptions C22_cleanup_refuted.

(** What it does do: nothing if nothing has expired; otherwise it removes the
    first expired transfer and no other, and raises. *)
Theorem C22_cleanup_partial : forall arr now timeout,
  let m := fst (feed new_manager arr) in
  let '(m', r) := remove_inactive_transfers m now timeout in
  match find (is_stale arr now timeout) (pending_keys m) with
  | None => m' = m /\ r = Ok tt
  | Some k => r = Err RuntimeError /\ dget key_eqb (m_active m') k = None /\
      forall k', k' <> k -> dget key_eqb (m_active m') k' = dget key_eqb (m_active m) k'
  end.
Proof. exact cleanup_exact. Qed.
Print Assumptions C22_cleanup_partial.

Example C22_case :
  let arr := [(Frame 1 [5; 0x80] false None None, 0%Z); (Frame 2 [6; 0x80] false None None, 9%Z);
              (Frame 1 [5; 0x20] false None None, 8%Z)] in
  pending_keys (fst (feed new_manager arr)) = [(1, Some 0); (2, Some 0)] /\
  find (is_stale arr 10 2) (pending_keys (fst (feed new_manager arr))) = None /\
  find (is_stale arr 11 2) (pending_keys (fst (feed new_manager arr))) = Some (1, Some 0).
Proof. repeat split. Qed.

(** CAN identifiers and frames: C12-C16, C20 (receiver), C71. *)
From Verif.Base Require Import Prelude Bits.
From Verif.Model Require Import BitCodec Types Codec Crc MsgId Frames TransferManager.
From Verif.Spec Require Import CodecSpec CrcSpec MsgIdSpec FrameSpec SendingSpec.
From Verif.Proofs Require Import MsgIdFacts FrameFacts ReassemblyFacts TransferTop.
Local Open Scope N_scope.

(** C12: the identifier has the specified layout; decoding inverts encoding on
    every legal header; encoding inverts decoding on every 29-bit number that
    does not decode to a service transfer to node 0 (which is refused). *)
Theorem C12_id_layout : forall h, legal h -> message_id h = Ok (can_id h).
Proof. exact message_id_layout. Qed.
Print Assumptions C12_id_layout.

Theorem C12_decode_encode : forall h, legal h ->
  exists id, message_id h = Ok id /\ set_message_id fresh_header id = h.
Proof. exact id_roundtrip. Qed.
Print Assumptions C12_decode_encode.

Theorem C12_encode_decode : forall v, v < 2 ^ 29 ->
  let h := set_message_id fresh_header v in
  (legal h /\ message_id h = Ok v) \/
  (h_service h = true /\ h_dest h = Some 0 /\ exists e, message_id h = Err e).
Proof. exact id_back. Qed.
Print Assumptions C12_encode_decode.

Example C12_case_service : legal (Header 30 true true (Some 127) (Some 42) 1 None) /\
  message_id (Header 30 true true (Some 127) (Some 42) 1 None) = Ok 0x1E01AAFF.
Proof. split; [constructor; lia|reflexivity]. Qed.
Example C12_case_anonymous : legal (Header 31 false false (Some 0) None 1 (Some 12345)) /\
  message_id (Header 31 false false (Some 0) None 1 (Some 12345)) = Ok 0x1FC0E500.
Proof. split; [constructor; lia|reflexivity]. Qed.
Example C12_case_back : message_id (set_message_id fresh_header 0x1401557F) = Ok 0x1401557F.
Proof. reflexivity. Qed.

(** C13 *)
Theorem C13_ids_differ : forall h1 h2, legal h1 -> legal h2 ->
  message_id h1 = message_id h2 -> h1 = h2.
Proof. exact can_id_injective. Qed.
Print Assumptions C13_ids_differ.

Theorem C13_id_range : forall h, legal h -> can_id h < 2 ^ 29.
Proof. exact message_id_range. Qed.
Print Assumptions C13_id_range.

Example C13_case :
  message_id (Header 16 false false (Some 1) None 341 None) <>
  message_id (Header 16 true true (Some 1) (Some 1) 85 None) /\
  message_id (Header 31 true true (Some 127) (Some 127) 255 None) = Ok (2 ^ 29 - 1).
Proof. split; [vm_compute; discriminate|reflexivity]. Qed.

(** C14: [carries] says everything about the frames; the body is the payload
    (padded with zeros on CAN FD), preceded by its CRC when it does not fit a
    single frame. *)
Theorem C14_splitting_well_formed : forall t id, message_id (tx_header t) = Ok id ->
  exists fs padded, to_frames t = Ok (fs, padded) /\
    (exists zeros, padded = tx_payload t ++ repeat 0 zeros /\ (zeros < 16)%nat /\
       (tx_canfd t = false -> zeros = 0%nat)) /\
    ((length (tx_payload t) <= capacity (tx_canfd t))%nat ->
       length fs = 1%nat /\ carries id (tx_canfd t) (tx_tid t) padded fs) /\
    ((capacity (tx_canfd t) < length (tx_payload t))%nat ->
       (2 <= length fs)%nat /\
       exists lo hi, lo + 256 * hi = crc16_from_bytes padded (tx_crc t) /\ lo < 256 /\ hi < 256 /\
         carries id (tx_canfd t) (tx_tid t) (lo :: hi :: padded) fs).
Proof. exact to_frames_wf. Qed.
Print Assumptions C14_splitting_well_formed.

Definition example_header := Header 16 false false (Some 42) None 341 None.
Definition example_tx (canfd : bool) (payload : list N) := Tx example_header 37 payload 0xD654 canfd.

Example C14_case : exists fs padded,
  to_frames (example_tx false [1; 2; 3; 4; 5; 6; 7; 8]) = Ok (fs, padded) /\
  map f_bytes fs = [[0xD3; 0xEB; 1; 2; 3; 4; 5; 0x85]; [6; 7; 8; 0x65]].
Proof. eexists. eexists. split; [vm_compute; reflexivity|reflexivity]. Qed.
Example C14_case_empty : exists fs padded,
  to_frames (example_tx false []) = Ok (fs, padded) /\ map f_bytes fs = [[0xC5]].
Proof. eexists. eexists. split; [vm_compute; reflexivity|reflexivity]. Qed.

(** C15: false; a payload of 62 bytes makes a frame of 63, one of 123 bytes
    ends with a frame of 2 bytes after padding it to the wrong multiple. *)
Theorem C15_fd_length_refuted : exists t fs padded f,
  tx_canfd t = true /\ to_frames t = Ok (fs, padded) /\ In f fs /\
  ~ In (length (f_bytes f)) fd_lengths.
Proof.
  exists (example_tx true (repeat 1 62)). do 2 eexists.
  exists (Frame 0x1001552A (repeat 1 62 ++ [0xC5]) true None None).
  split; [reflexivity|]. split; [vm_compute; reflexivity|]. split; [left; reflexivity|].
  intros H. cbn in H. repeat (destruct H as [H|H]; [discriminate|]). destruct H.
Qed.
Print Assumptions C15_fd_length_refuted.

(** The lengths for which it goes wrong, exactly. *)
Theorem C15_fd_length_partial : forall t id fs padded,
  tx_canfd t = true -> message_id (tx_header t) = Ok id -> to_frames t = Ok (fs, padded) ->
  (Forall (fun f => In (length (f_bytes f)) fd_lengths) fs <->
   ~ (length (tx_payload t) = 62 \/
      (123 <= length (tx_payload t) /\ length (tx_payload t) mod 63 = 60))%nat).
Proof. exact fd_legal_lengths. Qed.
Print Assumptions C15_fd_length_partial.

Example C15_case : exists fs padded, to_frames (example_tx true (repeat 7 70)) = Ok (fs, padded) /\
  map (fun f => length (f_bytes f)) fs = [64; 12]%nat.
Proof. eexists. eexists. split; [vm_compute; reflexivity|reflexivity]. Qed.
Example C15_case_bad : exists fs padded, to_frames (example_tx true (repeat 7 123)) = Ok (fs, padded) /\
  map (fun f => length (f_bytes f)) fs = [64; 63]%nat.
Proof. eexists. eexists. split; [vm_compute; reflexivity|reflexivity]. Qed.

(** C16 *)
Theorem C16_split_reassemble : forall types s, proper types s ->
  exists fs, sent s fs /\
  forall fs', Forall2 same_frame fs fs' ->
  exists r, from_frames types fs' = Ok r /\ faithful s r /\
    rx_ts_monotonic r = f_ts_monotonic (hd (Frame 0 [] false None None) fs') /\
    rx_ts_real r = f_ts_real (hd (Frame 0 [] false None None) fs').
Proof. exact sent_received. Qed.
Print Assumptions C16_split_reassemble.

(** A type with a counter and a byte array of at most 90 items. *)
Definition example_fields : dtype :=
  TComp false [TPrim KUint 32 Saturated; TArr true (TPrim KUint 8 Saturated) 90].
Definition example_datatype := Datatype 341 false 0xD654 example_fields (TComp false []).
Definition example_types : datatypes := fun id svc =>
  if (id =? 341) && negb svc then Some example_datatype else None.
Definition example_value (n : nat) : value :=
  VComp [VPrim (bits_of_N 32 0xCAFE); VArr (repeat (VPrim (bits_of_N 8 0x5A)) n)] None.
Definition example_sending (n : nat) (canfd : bool) : sending :=
  Sending example_header 37 example_datatype (example_value n) canfd.

Lemma example_proper n canfd : (n <= 90)%nat -> proper example_types (example_sending n canfd).
Proof.
  intros Hn. split; cbn [s_header s_datatype s_value example_sending].
  - constructor; lia.
  - reflexivity.
  - reflexivity.
  - reflexivity.
  - cbn. repeat split; lia.
  - cbn. constructor. constructor; [|constructor; [|constructor]].
    + constructor. apply bits_of_N_length.
    + constructor; [|rewrite repeat_length; exact Hn].
      apply Forall_forall. intros v Hv. apply repeat_spec in Hv. subst v. constructor. apply bits_of_N_length.
Qed.

Definition frames_of (s : sending) : list frame :=
  match make_tx (s_header s) (s_tid s) (s_datatype s) (s_value s) (s_canfd s) with
  | Ok t => match to_frames t with Ok (fs, _) => fs | Err _ => [] end
  | Err _ => []
  end.
Lemma frames_of_sent s : frames_of s <> [] -> sent s (frames_of s).
Proof.
  unfold sent, frames_of.
  destruct (make_tx _ _ _ _ _) as [t|e]; [|intros []; reflexivity].
  destruct (to_frames t) as [[fs padded]|e] eqn:E; [|intros []; reflexivity].
  intros _. exists t, padded. auto.
Qed.
Definition received_value (types : datatypes) (fs : list frame) : option value :=
  match from_frames types fs with Ok r => Some (rx_value r) | Err _ => None end.

Example C16_case : sent (example_sending 20 false) (frames_of (example_sending 20 false)) /\
  length (frames_of (example_sending 20 false)) = 4%nat /\
  received_value example_types (frames_of (example_sending 20 false)) = Some (example_value 20).
Proof.
  split; [apply frames_of_sent; vm_compute; discriminate|]. split; vm_compute; reflexivity.
Qed.
Example C16_case_fd : sent (example_sending 80 true) (frames_of (example_sending 80 true)) /\
  length (frames_of (example_sending 80 true)) = 2%nat /\
  received_value example_types (frames_of (example_sending 80 true)) = Some (example_value 80).
Proof.
  split; [apply frames_of_sent; vm_compute; discriminate|]. split; vm_compute; reflexivity.
Qed.

(** C20, at the receiver: the frames keep identifiers and tail bytes, the
    payload is hit by a burst, or the CRC bytes are changed in any way. *)
Theorem C20_burst_reported : forall types s fs fs' lo hi p p',
  proper types s -> sent s fs -> (2 <= length fs)%nat ->
  Forall2 same_envelope fs fs' ->
  frames_body fs = lo :: hi :: p -> frames_body fs' = lo :: hi :: p' -> byte_string p' ->
  burst 16 (bit_string p) (bit_string p') ->
  from_frames types fs' = Err TransferError.
Proof. exact sent_burst. Qed.
Print Assumptions C20_burst_reported.

Theorem C20_changed_crc_reported : forall types s fs fs' lo hi p lo' hi',
  proper types s -> sent s fs -> (2 <= length fs)%nat ->
  Forall2 same_envelope fs fs' ->
  frames_body fs = lo :: hi :: p -> frames_body fs' = lo' :: hi' :: p ->
  lo' < 256 -> hi' < 256 -> (lo', hi') <> (lo, hi) ->
  from_frames types fs' = Err TransferError.
Proof. exact sent_crc_bytes. Qed.
Print Assumptions C20_changed_crc_reported.

(** Two bytes damaged, across a frame border. *)
Definition damaged_frames : list frame :=
  let fr b := Frame 0x1001552A b false None None in
  [fr [14; 24; 254; 202; 0; 0; 91; 133]; fr [218; 90; 90; 90; 90; 90; 90; 37];
   fr [90; 90; 90; 90; 90; 90; 90; 5]; fr [90; 90; 90; 90; 90; 101]].
Example C20_receiver_case :
  sent (example_sending 20 false) (frames_of (example_sending 20 false)) /\
  Forall2 same_envelope (frames_of (example_sending 20 false)) damaged_frames /\
  frames_body (frames_of (example_sending 20 false)) = [14; 24] ++ [254; 202; 0; 0] ++ repeat 90 20 /\
  frames_body damaged_frames = [14; 24] ++ [254; 202; 0; 0] ++ [91; 218] ++ repeat 90 18 /\
  burst 16 (bit_string ([254; 202; 0; 0] ++ repeat 90 20))
           (bit_string ([254; 202; 0; 0] ++ [91; 218] ++ repeat 90 18)).
Proof.
  split; [apply frames_of_sent; vm_compute; discriminate|].
  assert (frames_of (example_sending 20 false) =
    let fr b := Frame 0x1001552A b false None None in
    [fr [14; 24; 254; 202; 0; 0; 90; 133]; fr [90; 90; 90; 90; 90; 90; 90; 37];
     fr [90; 90; 90; 90; 90; 90; 90; 5]; fr [90; 90; 90; 90; 90; 101]]) as ->
    by (vm_compute; reflexivity).
  split; [repeat constructor|]. split; [reflexivity|]. split; [reflexivity|].
  split; [vm_compute; discriminate|].
  exists (bit_string [254; 202; 0; 0]), (bits_of_N 16 0x5A5A), (bits_of_N 16 0x5BDA),
    (bit_string (repeat 90 18)).
  repeat split; cbn; lia.
Qed.

(** C71: sending the same transfer object again sends the same frames,
    although the first call may have extended its payload. *)
Theorem C71_sending_again : forall t id fs padded,
  message_id (tx_header t) = Ok id -> to_frames t = Ok (fs, padded) ->
  to_frames (Tx (tx_header t) (tx_tid t) padded (tx_crc t) (tx_canfd t)) = Ok (fs, padded).
Proof. exact to_frames_again. Qed.
Print Assumptions C71_sending_again.

Example C71_case : exists fs padded, to_frames (example_tx true (repeat 7 70)) = Ok (fs, padded) /\
  length padded = 72%nat /\ to_frames (example_tx true padded) = Ok (fs, padded).
Proof. eexists. eexists. split; [vm_compute; reflexivity|]. split; vm_compute; reflexivity. Qed.

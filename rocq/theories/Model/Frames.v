(** Frames and transfers: dronecan/transport.py 626-866. *)
From Verif.Base Require Import Prelude Bits.
From Verif.Model Require Import BitCodec Types Codec Crc MsgId.
Local Open Scope N_scope.

(** transport.py 626-651: [Frame]. Timestamps are opaque. *)
Record frame := Frame {
  f_id : N;
  f_bytes : list N;
  f_canfd : bool;
  f_ts_monotonic : option Z;
  f_ts_real : option Z
}.

(** [bytes[-1]]; [None] when there are no bytes. *)
Definition last_byte (b : list N) : option N :=
  match b with [] => None | x :: l => Some (last l x) end.

(** transport.py 634-638: [transfer_key]. *)
Definition transfer_key (f : frame) : N * option N :=
  (f_id f, match last_byte (f_bytes f) with
           | Some t => Some (N.land t 0x1F) | None => None end).

(** transport.py 640-650: [toggle], [end_of_transfer], [start_of_transfer]. *)
Definition frame_flag (m : N) (f : frame) : bool :=
  match last_byte (f_bytes f) with Some t => flag t m | None => false end.
Definition toggle := frame_flag 0x20.
Definition end_of_transfer := frame_flag 0x40.
Definition start_of_transfer := frame_flag 0x80.

(** transport.py 657-674: [datalength_roundup]. *)
Definition datalength_roundup (n : nat) : nat :=
  if (n <=? 8)%nat then n
  else if (n <=? 12)%nat then 12
  else if (n <=? 16)%nat then 16
  else if (n <=? 20)%nat then 20
  else if (n <=? 24)%nat then 24
  else if (n <=? 32)%nat then 32
  else if (n <=? 48)%nat then 48
  else 64.

(** A transfer to be sent: the attributes that [to_frames] reads. *)
Record tx := Tx {
  tx_header : header;
  tx_tid : N;
  tx_payload : list N;
  tx_crc : N;                  (* data_type_crc *)
  tx_canfd : bool
}.

(** Registered data types ([dronecan.DATATYPES], keyed by id and kind; [true]
    is the service kind) with what transfers need of them: [default_dtid],
    [base_crc], and the field lists. *)
Record datatype := Datatype {
  dt_id : N;
  dt_service : bool;
  dt_crc : N;
  dt_fields : dtype;           (* message fields, or request fields *)
  dt_response : dtype
}.
Definition datatypes := N -> bool -> option datatype.

(** transport.py 698-703: the payload bytes of a message object. *)
Definition payload_bytes (t : dtype) (canfd : bool) (v : value) : res (list N) :=
  b <- pack t (negb canfd) v ;;
  let b := if negb (N.land (N.of_nat (length b)) 7 =? 0)
           then b ++ repeat false (8 - N.to_nat (N.land (N.of_nat (length b)) 7))
           else b in
  Ok (bytes_from_bits b).

(** transport.py 678-706: [Transfer(payload=..., ...)]. The data type id of
    the header is the default id of the payload's type. *)
Definition make_tx (h : header) (tid : N) (dt : datatype) (v : value) (canfd : bool)
    : res tx :=
  let t := if h_service h && negb (h_request h) then dt_response dt else dt_fields dt in
  p <- payload_bytes t canfd v ;;
  Ok (Tx (Header (h_priority h) (h_service h) (h_request h) (h_source h)
                 (h_dest h) (dt_id dt) (h_discriminator h))
         tid p (dt_crc dt) canfd).

(** transport.py 765-779: padding of CAN FD payloads. [payload += ...] changes
    the transfer's own [payload] object. *)
Definition pad_payload (canfd : bool) (payload : list N) : list N :=
  let frame_max := if canfd then 64%nat else 8%nat in
  if canfd && (7 <? length payload)%nat then
    let total_len := (length payload + 1)%nat in
    let total_len := if (frame_max <? total_len)%nat then (total_len + 2)%nat else total_len in
    let mod_len := (total_len mod (frame_max - 1))%nat in
    let rounded_length := datalength_roundup mod_len in
    payload ++ repeat 0 (rounded_length - mod_len)
  else payload.

(** transport.py 791-802: the frame loop. [index] is [len(out_frames)]. The
    loop ends after a frame once nothing remains; fuel exhaustion is
    [RuntimeError] and does not happen. *)
Fixpoint frame_loop (fuel : nat) (frame_max : nat) (id : N) (canfd : bool) (tid : N)
    (tail : N) (index : nat) (remaining : list N) : res (list frame) :=
  match fuel with
  | O => Err RuntimeError
  | S fuel' =>
      let tail :=
        N.lor (N.lor (N.lor (if Nat.eqb index 0 then 0x80 else 0)
                            (if (length remaining <=? frame_max - 1)%nat then 0x40 else 0))
                     (N.land (N.lxor tail 0x20) 0x20))
              (N.land tid 0x1F) in
      let this_data := firstn (frame_max - 1) remaining ++ [tail] in
      let fr := Frame id this_data canfd None None in
      let remaining' := skipn (frame_max - 1) remaining in
      match remaining' with
      | [] => Ok [fr]
      | _ =>
          rest <- frame_loop fuel' frame_max id canfd tid tail (S index) remaining' ;;
          Ok (fr :: rest)
      end
  end.

(** transport.py 765-804: [to_frames]: the frames, and the transfer's payload
    afterwards. *)
Definition to_frames (t : tx) : res (list frame * list N) :=
  let frame_max := if tx_canfd t then 64%nat else 8%nat in
  let payload := pad_payload (tx_canfd t) (tx_payload t) in
  let remaining :=
    if (frame_max - 1 <? length payload)%nat then
      let crc := crc16_from_bytes payload (tx_crc t) in
      [N.land crc 0xFF; N.shiftr crc 8] ++ payload
    else payload in
  id <- message_id (tx_header t) ;;
  fs <- frame_loop (S (length remaining)) frame_max id (tx_canfd t) (tx_tid t)
                   0x20 0 remaining ;;
  Ok (fs, payload).

(** A received transfer. *)
Record rx := Rx {
  rx_header : header;          (* with the data type's default id *)
  rx_tid : N;
  rx_datatype : datatype;
  rx_value : value;
  rx_canfd : bool;
  rx_ts_monotonic : option Z;
  rx_ts_real : option Z
}.

(** transport.py 811-831: the check of the tail bytes. [n] is [len(frames)]. *)
Fixpoint check_tails (frames : list frame) (n idx : nat) (expected_toggle expected_tid : N)
    : res unit :=
  match frames with
  | [] => Ok tt
  | f :: frames' =>
      match last_byte (f_bytes f) with
      | None => Err IndexError
      | Some tail =>
          if negb (N.land tail 0x1F =? expected_tid) then Err TransferError
          else if Nat.eqb idx 0 && negb (flag tail 0x80) then Err TransferError
          else if (0 <? idx)%nat && flag tail 0x80 then Err TransferError
          else if Nat.eqb idx (n - 1) && negb (flag tail 0x40) then Err TransferError
          else if (idx <? n - 1)%nat && flag tail 0x40 then Err TransferError
          else if negb (N.land tail 0x20 =? expected_toggle) then Err TransferError
          else check_tails frames' n (S idx) (N.lxor expected_toggle 0x20) expected_tid
      end
  end.

(** transport.py 806-866: [Transfer().from_frames(frames)]. [frames[0]] of an
    empty list raises [IndexError]. *)
Definition from_frames (types : datatypes) (frames : list frame) : res rx :=
  match frames with
  | [] => Err IndexError
  | f0 :: _ =>
      tid <- match last_byte (f_bytes f0) with
             | None => Err IndexError
             | Some t => Ok (N.land t 0x1F) end ;;
      _ <- check_tails frames (length frames) 0 0 tid ;;
      let h := set_message_id fresh_header (f_id f0) in
      let payload := concat (map (fun f => removelast (f_bytes f)) frames) in
      match types (h_dtid h) (h_service h) with
      | None => Err TransferError
      | Some dt =>
          payload <-
            (if (1 <? length frames)%nat then
               match payload with
               | lo :: hi :: rest =>
                   if crc16_from_bytes rest (dt_crc dt) =? lo + N.shiftl hi 8
                   then Ok rest else Err TransferError
               | _ => Err IndexError
               end
             else Ok payload) ;;
          let t := if h_service h && negb (h_request h) then dt_response dt
                   else dt_fields dt in
          let canfd := existsb f_canfd frames in
          '(v, _) <- unpack t (negb canfd) (bits_from_bytes payload) ;;
          Ok (Rx (Header (h_priority h) (h_service h) (h_request h) (h_source h)
                         (h_dest h) (dt_id dt) (h_discriminator h))
                 tid dt v canfd (f_ts_monotonic f0) (f_ts_real f0))
      end
  end.

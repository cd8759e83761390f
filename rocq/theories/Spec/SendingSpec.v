(** Sending a message value, end to end. *)
From Verif.Base Require Import Prelude.
From Verif.Model Require Import Types Codec MsgId Frames TransferManager.
From Verif.Spec Require Import CodecSpec MsgIdSpec FrameSpec.
Local Open Scope N_scope.

Record sending := Sending {
  s_header : header; s_tid : N; s_datatype : datatype; s_value : value; s_canfd : bool
}.

(** The fields a transfer carries: responses have their own. *)
Definition transfer_type (h : header) (dt : datatype) : dtype :=
  if h_service h && negb (h_request h) then dt_response dt else dt_fields dt.

(** A legal transfer of a valid value of a known data type. *)
Record proper (types : datatypes) (s : sending) : Prop := {
  p_legal : legal (s_header s);
  p_dtid : h_dtid (s_header s) = dt_id (s_datatype s);
  p_known : types (dt_id (s_datatype s)) (h_service (s_header s)) = Some (s_datatype s);
  p_crc : dt_crc (s_datatype s) < 2 ^ 16;
  p_type : wf_type (transfer_type (s_header s) (s_datatype s));
  p_value : valid (transfer_type (s_header s) (s_datatype s)) (s_value s)
}.

(** What is put on the bus for it. *)
Definition sent (s : sending) (fs : list frame) : Prop :=
  exists t padded,
    make_tx (s_header s) (s_tid s) (s_datatype s) (s_value s) (s_canfd s) = Ok t /\
    to_frames t = Ok (fs, padded).

Definition sending_key (s : sending) : key := (can_id (s_header s), Some (s_tid s mod 32)).

(** The received transfer says what was sent. *)
Record faithful (s : sending) (r : rx) : Prop := {
  f_header : rx_header r = s_header s;
  f_tid : rx_tid r = s_tid s mod 32;
  f_datatype : rx_datatype r = s_datatype s;
  f_mode : rx_canfd r = s_canfd s;
  f_content : content (transfer_type (s_header s) (s_datatype s)) (rx_value r) =
              content (transfer_type (s_header s) (s_datatype s)) (s_value s)
}.

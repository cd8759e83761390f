(** What it means to read a file of another node. *)
From Verif.Base Require Import Prelude Bits.
From Verif.Model Require Import Types Codec MsgId Frames TransferManager FileServer Node FileNode.
From Verif.Spec Require Import CodecSpec MsgIdSpec FrameSpec ReassemblySpec SendingSpec NodeSpec CallSpec.
Local Open Scope Z_scope.

(** A request and the reply to it: what the caller does before ([x_before])
    and between the request and the last frame of the reply ([x_between]), what
    the callee does before the last frame of the request; the arguments; the
    frames as they arrive, and those with the same identifier and transfer id
    that were heard before. *)
Record exchange := Exchange {
  x_before : list ninput;
  x_between : list ninput;
  x_callee : list ninput;
  x_prio : option N;
  x_used : N;
  x_timeout : option Z;
  x_canfd : option bool;
  x_request : list frame;
  x_request_pre : list frame;
  x_request_last : frame;
  x_request_earlier : list frame;
  x_reply : list frame;
  x_reply_pre : list frame;
  x_reply_last : frame;
  x_reply_earlier : list frame
}.

Section Exchange.
  Variables (A B : station) (hd : handler) (dt : datatype) (a dest : N) (v : value) (x : exchange).
  Let call := x_before x ++ [IOp (NRequest dt v dest (x_prio x) (x_timeout x) (x_canfd x))].
  Let s0 := ran A (x_before x).
  Let s1 := ran A call.
  Let s2 := ran A (call ++ x_between x).
  Let s3 := ran A ((call ++ x_between x) ++ [IFrame true (x_reply_last x)]).
  Let b0 := ran B (x_callee x).
  Let b1 := ran B (x_callee x ++ [IFrame true (x_request_last x)]).
  Let tid := (N.of_nat (length (attempted (dt_id dt, Some dest) (n_log s0))) mod 32)%N.

  (** Node [a], at station [A], sends [v] to service [dt] of node [dest], at
      station [B]; all frames arrive, each way in order, with anything before
      and in between; no other request with the same transfer id waits for an
      answer; the request does not time out. [hd] is the only handler of [B]
      for the service. *)
  Definition exchanged : Prop :=
    asked_priority (x_prio x) (x_used x) /\ (x_used x < 32)%N /\
    n_id s0 = Some a /\
    snd (request (st_clk A) (st_drv A) (st_second A) s0 dt v dest (x_prio x) (x_timeout x) (x_canfd x)) = None /\
    bus (n_log s1) = bus (n_log s0) ++ x_request x /\
    n_id b0 = Some dest /\
    Forall2 same_frame (x_request x) (x_request_pre x ++ [x_request_last x]) /\
    filter (has_key (can_id (request_head (x_used x) a dest (dt_id dt)), Some tid)) (heard (x_callee x)) =
      x_request_earlier x ++ x_request_pre x /\
    filter (serves (dt_id dt)) (handlers_of b0) = [hd] /\
    (length (handlers_of b0) < st_fuel B)%nat /\
    bus (n_log b1) = bus (n_log b0) ++ x_reply x /\
    Forall2 same_frame (x_reply x) (x_reply_pre x ++ [x_reply_last x]) /\
    filter (has_key (can_id (response_head (x_used x) a dest (dt_id dt)), Some tid)) (heard (call ++ x_between x)) =
      x_reply_earlier x ++ x_reply_pre x /\
    (forall r, In r (requests_with dest (dt_id dt) tid (n_log s0)) -> done r (n_log s0)) /\
    (forall r, In r (requests_with dest (dt_id dt) tid (n_log s2)) -> (r <= n_reqs s0)%nat) /\
    ~ done (n_reqs s0) (n_log s2).

  (** The callback of the request gets [t] with the last frame of the reply,
      and is called only then. *)
  Definition answered (t : rx) : Prop :=
    (exists l, n_log s3 = n_log s2 ++ OResponse (n_reqs s0) t :: l) /\
    responses (n_reqs s0) (n_log s3) = 1%nat /\ timeouts (n_reqs s0) (n_log s3) = 0%nat.
End Exchange.

(** The request for the bytes from [offset] on of the file with path [raw]. *)
Definition asks (offset : N) (raw : list N) : value :=
  VComp [VPrim (bits_of_N 40 offset); VComp [VArr (map (fun n => VPrim (bits_of_N 8 n)) raw)] None] None.
(** The data in a response, if it reports no error. *)
Definition data_of (v : value) : option (list N) :=
  match v with
  | VComp (VComp (VPrim e :: _) _ :: VArr items :: _) _ =>
      if (N_of_bits e =? 0)%N then Some (map (fun i => match i with VPrim b => N_of_bits b | _ => 0%N end) items) else None
  | _ => None
  end.
(** The code of the error that a response reports. *)
Definition error_of (v : value) : option N :=
  match v with VComp (VComp (VPrim e :: _) _ :: _) _ => Some (N_of_bits e) | _ => None end.

Section Service.
  Variable isfile : str -> bool.
  Variable abspath : str -> str.
  Variable contents : str -> option (list N).
  Variable decode : list N -> option str.
  Variables (lookup : list str) (path_map : list (str * str)).
  Variables (A B : station) (hd : handler) (id crc a dest : N).
  Let dt := read_type id crc.

  (** Both stations know the type; the handler is [FileServer._read]. *)
  Record file_service : Prop := {
    fs_id : (id < 256)%N;
    fs_crc : (crc < 2 ^ 16)%N;
    fs_caller : st_types A id true = Some dt;
    fs_callee : st_types B id true = Some dt;
    fs_ends : (1 <= a < 128 /\ 1 <= dest < 128)%N;
    fs_calm : calm (st_beh A);
    fs_driver : forall l fs, st_drv B l fs = None;
    fs_type : hd_type hd = Some (id, true);
    fs_sniff : hd_sniff hd = false;
    fs_handler : forall l q, st_beh B (l ++ [OHandled hd q]) =
      ([], file_outcome isfile abspath contents decode lookup path_map dt (rx_value q))
  }.
End Service.

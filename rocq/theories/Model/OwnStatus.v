(** What a node says about itself: dronecan/node.py 275-294 and 364-376. The
    definitions of the types are not in /repo; they are those of the DSDL
    standard: NodeStatus is [uint32 uptime_sec], [uint2 health], [uint3 mode],
    [uint3 sub_mode], [uint16 vendor_specific_status_code], and
    GetNodeInfo.Response begins with [NodeStatus status]. *)
From Verif.Base Require Import Prelude Bits.
From Verif.Model Require Import Types Prim Codec Frames Node.
Local Open Scope Z_scope.

Definition status_type : dtype :=
  TComp false [TPrim KUint 32 Saturated; TPrim KUint 2 Saturated; TPrim KUint 3 Saturated; TPrim KUint 3 Saturated;
               TPrim KUint 16 Saturated].
(** NodeStatus and GetNodeInfo, with their ids and the CRCs of their
    signatures; [rest]: the other fields of GetNodeInfo.Response. *)
Definition status_datatype (id crc : N) : datatype := Datatype id false crc status_type (TComp false []).
Definition info_datatype (id crc : N) (rest : list dtype) : datatype :=
  Datatype id true crc (TComp false []) (TComp false (status_type :: rest)).

(** 275, 281-283: the attributes [start_time_monotonic], [health], [mode],
    [vendor_specific_status_code], as integers. *)
Record self := Self { me_start : Z; me_health : Z; me_mode : Z; me_code : Z }.
(** The constructor: HEALTH_OK is 0, MODE_INITIALIZATION is 1. *)
Definition new_self (start : Z) (mode : option Z) : self :=
  Self start 0 (match mode with None => 1 | Some m => m end) 0.

Section Clock.
  (** The clock counts parts of a second. *)
  Variable second : Z.

  (** 365: [int(time.monotonic() - self.start_time_monotonic + 0.5)], with
      exact arithmetic. The clock is monotonic: the operand is positive. *)
  Definition uptime (start now : Z) : Z := (2 * (now - start) + second) / (2 * second).

  (** 364-368: [_fill_node_status]. *)
  Definition fill_node_status (me : self) (now : Z) (msg : value) : res value :=
    match msg with
    | VComp [VPrim _; VPrim _; VPrim _; sub_mode; VPrim _] active =>
        u <- set_int KUint 32 Saturated (uptime (me_start me) now) ;;
        h <- set_int KUint 2 Saturated (me_health me) ;;
        m <- set_int KUint 3 Saturated (me_mode me) ;;
        c <- set_int KUint 16 Saturated (me_code me) ;;
        Ok (VComp [VPrim u; VPrim h; VPrim m; sub_mode; VPrim c] active)
    | _ => Err AttributeError
    end.
  (** 374-375: the message that is broadcast. *)
  Definition node_status (me : self) (now : Z) : res value := fill_node_status me now (default status_type).

  (** 289-292: [on_get_node_info]. The object is changed in place and is the
      result. *)
  Definition on_get_node_info (me : self) (now : Z) (node_info : value) : res value :=
    match node_info with
    | VComp (st :: rest) active =>
        st <- fill_node_status me now st ;; Ok (VComp (st :: rest) active)
    | _ => Err AttributeError
    end.
  Definition info_outcome (dt : datatype) (me : self) (now : Z) (node_info : value) : outcome :=
    match on_get_node_info me now node_info with Ok v => Returns (Some (dt, v)) | Err _ => Raises end.
End Clock.

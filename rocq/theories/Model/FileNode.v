(** dronecan/app/file_server.py: the handler of uavcan.protocol.file.Read, on
    message objects. The definition of the type is not in /repo; it is the one
    of the DSDL standard: [uint40 offset], [Path path] (with [uint8[<=200] path]),
    and in the response [Error error] (with [int16 value]), [uint8[<=256] data]. *)
From Verif.Base Require Import Prelude Bits.
From Verif.Model Require Import Types Codec Frames FileServer Node.

Definition byte_type : dtype := TPrim KUint 8 Saturated.
Definition read_request : dtype := TComp false [TPrim KUint 40 Saturated; TComp false [TArr true byte_type 200]].
Definition read_response : dtype := TComp false [TComp false [TPrim KInt 16 Saturated]; TArr true byte_type 256].
(** uavcan.protocol.file.Read, with its id and the CRC of its signature. *)
Definition read_type (id crc : N) : datatype := Datatype id true crc read_request read_response.

Definition byte (n : N) : value := VPrim (bits_of_N 8 n).
Definition byte_of (v : value) : N := match v with VPrim b => N_of_bits b | _ => 0 end.
Definition response (error : N) (data : list N) : value :=
  VComp [VComp [VPrim (bits_of_N 16 error)] None; VArr (map byte data)] None.
(** [Error.UNKNOWN_ERROR] *)
Definition unknown_error : N := 32767.

Section Handler.
  Variable isfile : str -> bool.
  Variable abspath : str -> str.
  Variable contents : str -> option (list N).
  Variable decode : list N -> option str.
  Variables (lookup : list str) (path_map : list (str * str)).

  (** 90-105: [_read]. *)
  Definition handle_read (request : value) : res value :=
    match request with
    | VComp (VPrim offset :: VComp (VArr path :: _) _ :: _) _ =>
        r <- read isfile abspath contents decode lookup path_map (map byte_of path) (N_of_bits offset) ;;
        Ok match r with Some data => response 0 data | None => response unknown_error [] end
    | _ => Err TypeError
    end.
  (** The same as a behaviour of the node: the handler's result is sent. *)
  Definition file_outcome (dt : datatype) (request : value) : outcome :=
    match handle_read request with Ok v => Returns (Some (dt, v)) | Err _ => Raises end.
End Handler.

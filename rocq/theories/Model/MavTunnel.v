(** examples/mavlink_tunnel.py: a TCP client joined to a node's serial device,
    and the message it uses, uavcan.tunnel.Targetted, as it is built by
    dronecan/utility.py 66-72 as well. *)
From Verif.Base Require Import Prelude Bits.
From Verif.Model Require Import Types Prim Codec Frames Serial.
Local Open Scope Z_scope.

(** The definition of the type is not in /repo. Its fields are
    [protocol.protocol], [target_node], [serial_id] (signed: "-1 for automatic
    selection", utility.py 16), [options], [baudrate] and [buffer]; the widths
    of the integers are left open. *)
Record widths := Widths { w_protocol : nat; w_target : nat; w_serial : nat; w_options : nat; w_baud : nat }.
Definition targetted_type (w : widths) : dtype :=
  TComp false [TComp false [TPrim KUint (w_protocol w) Saturated]; TPrim KUint (w_target w) Saturated;
               TPrim KInt (w_serial w) Saturated; TPrim KUint (w_options w) Saturated; TPrim KUint (w_baud w) Saturated;
               TArr true (TPrim KUint 8 Saturated) 120].
Definition targetted_datatype (id crc : N) (w : widths) : datatype :=
  Datatype id false crc (targetted_type w) (TComp false []).

(** transport.py 588-598: the items are appended one by one; any exception
    becomes an AttributeError. *)
Fixpoint byte_items (bs : list N) : res (list value) :=
  match bs with
  | [] => Ok []
  | b :: bs => x <- set_int KUint 8 Saturated (Z.of_N b) ;; xs <- byte_items bs ;; Ok (VPrim x :: xs)
  end.
(** utility.py 66-72, mavlink_tunnel.py 54-60: the object that is broadcast. The
    order of the assignments, which cannot fail but for the last, is that of
    the fields. *)
Definition targetted (w : widths) (m : tmsg) : res value :=
  p <- set_int KUint (w_protocol w) Saturated (Z.of_N (m_protocol m)) ;;
  t <- set_int KUint (w_target w) Saturated (Z.of_N (m_target m)) ;;
  s <- set_int KInt (w_serial w) Saturated (m_serial m) ;;
  o <- set_int KUint (w_options w) Saturated (Z.of_N (m_options m)) ;;
  b <- set_int KUint (w_baud w) Saturated (m_baud m) ;;
  if (120 <? length (m_buffer m))%nat then Err AttributeError else
  items <- byte_items (m_buffer m) ;;
  Ok (VComp [VComp [VPrim p] None; VPrim t; VPrim s; VPrim o; VPrim b; VArr items] None).

(** The attributes of a received message, as a handler reads them. *)
Definition get_byte (v : value) : option N :=
  match v with VPrim b => option_map Z.to_N (get_int KUint 8 b) | _ => None end.
Fixpoint get_bytes (vs : list value) : option (list N) :=
  match vs with
  | [] => Some []
  | v :: vs => match get_byte v, get_bytes vs with Some b, Some bs => Some (b :: bs) | _, _ => None end
  end.
Definition message_in (w : widths) (r : rx) : option tmsg :=
  match rx_value r, MsgId.h_source (rx_header r) with
  | VComp (VComp (VPrim p :: _) _ :: VPrim t :: VPrim s :: VPrim o :: VPrim b :: VArr items :: _) _, Some src =>
      match get_int KUint (w_protocol w) p, get_int KUint (w_target w) t, get_int KInt (w_serial w) s,
            get_int KUint (w_options w) o, get_int KUint (w_baud w) b, get_bytes items with
      | Some p, Some t, Some s, Some o, Some b, Some bytes =>
          Some {| m_source := src; m_target := Z.to_N t; m_serial := s; m_protocol := Z.to_N p;
                  m_options := Z.to_N o; m_baud := b; m_buffer := bytes |}
      | _, _, _, _, _, _ => None
      end
  | _, _ => None
  end.

(** OPTION_LOCK_PORT is 1. *)
Definition lock_port : N := 1.

(** mavlink_tunnel.py 49-64: [publish_MavlinkMsg], the messages for [mav_pkt];
    [own]: the node's id. *)
Definition publish (own : N) (mav_pkt : list N) : list tmsg :=
  map (fun chunk => {| m_source := own; m_target := 10; m_serial := 1; m_protocol := 1; m_options := lock_port;
                       m_baud := 115200; m_buffer := chunk |})
      (chunks 120 mav_pkt).

(** Where the thread of [tcp_server_loop] (66-83) is: in [accept], in the loop
    around [recv], or ended by an exception, after it has closed the
    connection. The variable [connection] is None in the first case, and
    refers to a closed socket in the last one. Not modelled: an exception of
    [accept]; the thread and the node's loop (102-107) are taken to use the
    node one at a time. *)
Inductive place := Accepting | Serving | Ended.
(** A client connects; [recv] returns bytes, none if the client has closed, and
    of the broadcasts number [k] raises, if any does; [recv] raises; the handler
    is called, and [sendall], if called, succeeds or raises. *)
Inductive event :=
| Connects
| Receives (data : list N) (fails : option nat)
| Breaks
| Hears (m : tmsg) (sent : bool).
(** What was done, the latest last. *)
Inductive sight :=
| Accepted
| Broadcast (m : tmsg)
| Gave (b : list N)
| Raised.
Record tunnel := Tunnel { tn_place : place; tn_log : list sight }.

Section Tunnel.
  (** [args.node_id] *)
  Variable own : N.

  Definition tunnel_step (s : tunnel) (e : event) : tunnel :=
    match e with
    | Connects =>
        match tn_place s with
        | Accepting => Tunnel Serving (tn_log s ++ [Accepted])
        | _ => s
        end
    | Receives data fails =>
        match tn_place s, data with
        | Serving, _ :: _ =>
            let ms := publish own data in
            match fails with
            | Some k => if (k <? length ms)%nat
                        then Tunnel Ended (tn_log s ++ map Broadcast (firstn k ms) ++ [Raised])
                        else Tunnel Serving (tn_log s ++ map Broadcast ms)
            | None => Tunnel Serving (tn_log s ++ map Broadcast ms)
            end
        | _, _ => s
        end
    | Breaks =>
        match tn_place s with
        | Serving => Tunnel Ended (tn_log s ++ [Raised])
        | _ => s
        end
    | Hears m sent =>
        (* 26-36: [handle_Targetted] *)
        if (m_target m =? own)%N && negb (match m_buffer m with [] => true | _ => false end) then
          match tn_place s with
          | Accepting => s
          | Serving => Tunnel Serving (tn_log s ++ [if sent then Gave (m_buffer m) else Raised])
          | Ended => Tunnel Ended (tn_log s ++ [Raised])
          end
        else s
    end.
  Definition new_tunnel : tunnel := Tunnel Accepting [].
  Definition tunnel_run (es : list event) : tunnel := fold_left tunnel_step es new_tunnel.
End Tunnel.

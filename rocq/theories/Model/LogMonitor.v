(** app/log_message_monitor.py on a node.
    Simplifications: the level, source and text are the fields 0, 1 and 2 of
    the message (uavcan.protocol.debug.LogMessage); what is given to the logger
    is read off the calls of the handler. *)
From Coq Require Import String.
From Verif.Base Require Import Prelude Bits.
From Verif.Model Require Import Types Prim Codec Utf8 MsgId Frames TransferManager Node.
Open Scope list_scope.
Local Open Scope N_scope.

(** ASCII text as code points. *)
Definition ascii_codes (s : string) : list N := map Ascii.N_of_ascii (list_ascii_of_string s).
(** [{0:03d}] *)
Definition three_digits (n : N) : list N :=
  if n <? 1000 then [48 + n / 100; 48 + n / 10 mod 10; 48 + n mod 10] else [].

(** transport.py 470-473: [decode]; elements without a value are left out. *)
Fixpoint item_bytes (items : list value) : list N :=
  match items with
  | VPrim b :: items' => match get_int KUint 8 b with Some z => Z.to_N z :: item_bytes items' | None => item_bytes items' end
  | _ => []
  end.
Definition text_of (v : value) : res (list N) :=
  match v with VArr items => utf8_decode (item_bytes items) | _ => Err AttributeError end.

(** 24-27: [_on_message]: the level (0 for [logger.debug] to 3 for
    [logger.error]) and the text given to the logger. A message of the type has
    the three fields. *)
Definition on_log_message (t : rx) : res (N * list N) :=
  match rx_value t with
  | VComp (VComp (VPrim level :: _) _ :: source :: text :: _) _ =>
      s <- text_of source ;;
      m <- text_of text ;;
      match h_source (rx_header t) with
      | None => Err TypeError
      | Some n =>
          let line := ascii_codes "LogMessageMonitor [#" ++ three_digits n ++ ascii_codes ":" ++ s ++ ascii_codes "] " ++ m in
          match get_int KUint (List.length level) level with
          | None => Err TypeError
          | Some l => if (0 <=? l)%Z && (l <? 4)%Z then Ok (Z.to_N l, line) else Err IndexError
          end
      end
  | _ => Err AttributeError
  end.
(** The handler number [h] is that of the monitor (18-19); the node catches
    what it raises. *)
Definition monitor_outcome (h : nat) (l : list nobs) : list (nop * bool) * outcome :=
  match last l (ONodeId 0) with
  | OHandled hd t =>
      if Nat.eqb (hd_id hd) h
      then ([], match on_log_message t with Ok _ => Returns None | Err _ => Raises end)
      else ([], Returns None)
  | _ => ([], Returns None)
  end.
(** What is given to the logger in these calls of handlers. *)
Definition logged (h : nat) (calls : list (handler * rx)) : list (N * list N) :=
  flat_map (fun p => if Nat.eqb (hd_id (fst p)) h then match on_log_message (snd p) with Ok e => [e] | Err _ => [] end else []) calls.

(** A sequence of transfers from one node, as another node hears it. *)
From Verif.Base Require Import Prelude.
From Verif.Model Require Import Types Codec MsgId Frames TransferManager Node.
From Verif.Spec Require Import CodecSpec FrameSpec MsgIdSpec SendingSpec NodeSpec.
Local Open Scope N_scope.

(** The source is in the low seven bits of the identifier. *)
Definition from_node (a : N) (f : frame) : bool := f_id f mod 128 =? a.

(** A call of a handler with a message from node [a]. *)
Definition said_by (a : N) (p : handler * rx) : bool :=
  negb (h_service (rx_header (snd p))) && optN_eqb (h_source (rx_header (snd p))) (Some a).

Definition is_message (sd : sending) : bool := negb (h_service (s_header sd)).

(** No handler is added or removed. *)
Definition keeps_handlers (op : nop) : Prop :=
  match op with NAddHandler _ _ | NRemoveHandler _ | NRemoveHandlers _ => False | _ => True end.
Definition steady (beh : list nobs -> list (nop * bool) * outcome) (ins : list ninput) : Prop :=
  (forall l op c, In (op, c) (fst (beh l)) -> keeps_handlers op) /\
  (forall i, In i ins -> match i with IOp op => keeps_handlers op | ITransfer _ => False | _ => True end).

(** [fs'] are the frames of [sd], a transfer of node [a] of a type in [types],
    with any time stamps. *)
Definition heard_as (types : datatypes) (a : N) (sd : sending) (fs' : list frame) : Prop :=
  proper types sd /\ h_source (s_header sd) = Some a /\ exists fs, sent sd fs /\ Forall2 same_frame fs fs'.

(** Every handler that accepts [r] is called with it, in order. *)
Definition to_all (hs : list handler) (r : rx) : list (handler * rx) :=
  map (fun hd => (hd, r)) (filter (fun hd => accepts hd r) hs).

(** Arguments of a broadcast that can be sent and received. *)
Record bcast := Bcast { b_type : datatype; b_value : value; b_prio : option N; b_canfd : option bool }.
Definition broadcasting (b : bcast) : nop := NBroadcast (b_type b) (b_value b) (b_prio b) (b_canfd b).
Definition fit (types : datatypes) (b : bcast) : Prop :=
  dt_id (b_type b) < 2 ^ 16 /\ dt_crc (b_type b) < 2 ^ 16 /\ types (dt_id (b_type b)) false = Some (b_type b) /\
  wf_type (dt_fields (b_type b)) /\ valid (dt_fields (b_type b)) (b_value b) /\
  match b_prio b with Some p => p < 32 | None => True end.
(** One broadcast after another. *)
Definition broadcast_all (bs : list bcast) : list ninput := map (fun b => IOp (broadcasting b)) bs.
(** The transfer is the broadcast. *)
Definition conveys (a : N) (b : bcast) (r : rx) : Prop :=
  h_service (rx_header r) = false /\ h_source (rx_header r) = Some a /\ rx_datatype r = b_type b /\
  content (dt_fields (b_type b)) (rx_value r) = content (dt_fields (b_type b)) (b_value b).

(** Messages of one type: bits 8 to 23 of the identifier, and bit 7 is clear. *)
Definition of_type (a d : N) (f : frame) : bool :=
  (f_id f mod 128 =? a) && ((f_id f / 128) mod 2 =? 0) && ((f_id f / 256) mod 2 ^ 16 =? d).
Definition said_of (a d : N) (p : handler * rx) : bool := said_by a p && (h_dtid (rx_header (snd p)) =? d).
(** The calls of [broadcast] for the type among the inputs. *)
Definition casts (d : N) (ins : list ninput) : list bcast :=
  flat_map (fun i => match i with
                     | IOp (NBroadcast dt v p c) => if dt_id dt =? d then [Bcast dt v p c] else []
                     | _ => [] end) ins.
(** No callback broadcasts a message of the type. *)
Definition leaves_type (d : N) (beh : list nobs -> list (nop * bool) * outcome) : Prop :=
  forall l dt v p c b, In (NBroadcast dt v p c, b) (fst (beh l)) -> dt_id dt <> d.
(** The types are found by their ids. *)
Definition by_id (types : datatypes) : Prop := forall id svc dt, types id svc = Some dt -> dt_id dt = id.

(** How the broadcasts of the type ended, in order. *)
Definition outcomes (d : N) (l : list nobs) : list bool :=
  flat_map (fun o => match o with
                     | OSend (Some (x, None)) _ _ _ err => if x =? d then [match err with None => true | Some _ => false end] else []
                     | _ => [] end) l.
(** Those of [xs] that ended well. *)
Definition those {X} (xs : list X) (oks : list bool) : list X := map fst (filter snd (combine xs oks)).

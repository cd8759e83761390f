(** What a tunnel is for. *)
From Verif.Base Require Import Prelude.
From Verif.Model Require Import Types Codec Frames Node Serial MavTunnel.
From Verif.Spec Require Import PrimSpec FrameSpec SendingSpec NodeSpec CallSpec SerialSpec StreamSpec.
Local Open Scope Z_scope.

(** The numbers of the message fit into the fields. *)
Definition sound (w : widths) : Prop :=
  int_type KUint (w_protocol w) /\ int_type KUint (w_target w) /\ int_type KInt (w_serial w) /\
  int_type KUint (w_options w) /\ int_type KUint (w_baud w).
Definition is_byte (b : N) : Prop := (b < 256)%N.
Definition fits (w : widths) (m : tmsg) : Prop :=
  representable KUint (w_protocol w) (Z.of_N (m_protocol m)) /\ representable KUint (w_target w) (Z.of_N (m_target m)) /\
  representable KInt (w_serial w) (m_serial m) /\ representable KUint (w_options w) (Z.of_N (m_options m)) /\
  representable KUint (w_baud w) (m_baud m) /\ Forall is_byte (m_buffer m) /\ (length (m_buffer m) <= 120)%nat.

(** The message with the source that the transfer tells. *)
Definition from_source (a : N) (m : tmsg) : tmsg :=
  {| m_source := a; m_target := m_target m; m_serial := m_serial m; m_protocol := m_protocol m;
     m_options := m_options m; m_baud := m_baud m; m_buffer := m_buffer m |}.
(** The broadcast is that of the message. *)
Definition broadcasts (w : widths) (dt : datatype) (m : tmsg) (b : bcast) : Prop :=
  b_type b = dt /\ targetted w m = Ok (b_value b) /\ match b_prio b with Some p => (p < 32)%N | None => True end.

(** The calls of one handler. *)
Definition calls (hd : handler) (l : list (handler * rx)) : list rx :=
  map snd (filter (fun p => Nat.eqb (hd_id (fst p)) (hd_id hd)) l).
(** The handler is there, once. *)
Definition registered (hd : handler) (hs : list handler) : Prop :=
  filter (fun h => Nat.eqb (hd_id h) (hd_id hd)) hs = [hd].

(** What the client of a tunnel got, and what was broadcast for it. *)
Definition gave (l : list sight) : list N := flat_map (fun o => match o with Gave b => b | _ => [] end) l.
Definition put_out (l : list sight) : list tmsg := flat_map (fun o => match o with Broadcast m => [m] | _ => [] end) l.
Definition clients (l : list sight) : nat := length (filter (fun o => match o with Accepted => true | _ => false end) l).
(** What came from the client, and the messages that came. *)
Definition typed (es : list event) : list N := flat_map (fun e => match e with Receives b _ => b | _ => [] end) es.
Definition came (es : list event) : list tmsg := flat_map (fun e => match e with Hears m _ => [m] | _ => [] end) es.
(** Nothing raises. *)
Definition smooth (e : event) : Prop :=
  match e with Receives _ (Some _) | Breaks | Hears _ false => False | _ => True end.
(** The bytes in the messages for node [own]. *)
Definition bytes_for (own : N) (ms : list tmsg) : list N :=
  flat_map (fun m => if (m_target m =? own)%N then m_buffer m else []) ms.

(** The broadcasts of type [d] of node [A], whose id is [a], from its state after
    [insA] until after [insA1], reach node [B] between its states after [ins0]
    and after [ins1]: only [insA1] broadcasts the type, and what frames of the
    type the driver takes arrive, in order, in whatever company. *)
Definition linked (A : station) (insA insA1 : list ninput) (a d : N) (B : station) (ins0 ins1 : list ninput) : Prop :=
  n_id (ran A insA) = Some a /\ (1 <= a < 128)%N /\
  leaves_type d (st_beh A) /\ dt_id (st_status_dt A) <> d /\
  st_catch B = true /\ steady (st_beh B) ins1 /\ (length (handlers_of (ran B ins0)) < st_fuel B)%nat /\ by_id (st_types B) /\
  exists out, bus (n_log (ran A (insA ++ insA1))) = bus (n_log (ran A insA)) ++ out /\
    Forall2 same_frame (filter (of_type a d) out) (filter (of_type a d) (heard ins1)).
(** Broadcasts of type [d] are called for; some succeed, those of [ms]. The others
    are of messages that are sent later, or fit into the fields as well. *)
Definition puts_out (A : station) (insA insA1 : list ninput) (w : widths) (d crc : N) (ms : list tmsg) : Prop :=
  exists tries oks, Forall2 (broadcasts w (targetted_datatype d crc w)) tries (casts d insA1) /\
    outcomes d (n_log (ran A (insA ++ insA1))) = outcomes d (n_log (ran A insA)) ++ oks /\
    those tries oks = ms /\ Forall (fun m => In m ms \/ fits w m) tries.
(** Node [B] knows the type, and the handler is for it. *)
Definition listens (B : station) (ins0 : list ninput) (w : widths) (d crc : N) (hd : handler) : Prop :=
  (d < 2 ^ 16)%N /\ (crc < 2 ^ 16)%N /\ sound w /\ st_types B d false = Some (targetted_datatype d crc w) /\
  registered hd (handlers_of (ran B ins0)) /\ hd_type hd = Some (d, false).
(** Between two states the handler is called, for messages of type [d] from node
    [a], with [ms]. *)
Definition heard_from (w : widths) (hd : handler) (a d : N) (before after : list nobs) (ms : list tmsg) : Prop :=
  exists rs, calls hd (filter (said_of a d) (handled after)) = calls hd (filter (said_of a d) (handled before)) ++ rs /\
    map (message_in w) rs = map Some ms.

(** The messages given to the handler of a port, and those from one node. *)
Definition recv_in (log : list sevent) : list tmsg :=
  flat_map (fun e => match e with ERecv m => [m] | _ => [] end) log.
Definition coming_from (a : N) (ms : list tmsg) : list tmsg := filter (fun m => (m_source m =? a)%N) ms.
(** The parameters of a port, and the speeds asked for, fit into the fields. *)
Definition port_fits (w : widths) (target : N) (dev : Z) (lock : N) (baud : Z) (ops : list sop) : Prop :=
  representable KUint (w_protocol w) 2 /\ representable KUint (w_target w) (Z.of_N target) /\
  representable KInt (w_serial w) dev /\ representable KUint (w_options w) (Z.of_N lock) /\
  representable KUint (w_baud w) baud /\
  Forall (fun o => match o with OSetBaud b => representable KUint (w_baud w) b | _ => True end) ops.
(** And those of the tunnel. *)
Definition tunnel_fits (w : widths) : Prop :=
  representable KUint (w_protocol w) 1 /\ representable KUint (w_target w) 10 /\ representable KInt (w_serial w) 1 /\
  representable KUint (w_options w) 1 /\ representable KUint (w_baud w) 115200.

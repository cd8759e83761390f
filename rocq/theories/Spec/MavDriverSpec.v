(** What user code is to get of a CAN link over MAVLink. *)
From Verif.Base Require Import Prelude.
From Verif.Model Require Import CanFrame Packets Mavcan MavDriver.
From Verif.Spec Require Import PacketSpec MavcanSpec.
Local Open Scope Z_scope.

Section Told.
  Variable K : Type.
  Variable sha256 : list N -> K.
  (** After these calls: the key of the last passphrase set, and the bus and the
      filter set last, where calls that raised do not count. *)
  Definition key_told (l : list (dcall * danswer)) : option K :=
    fold_left (fun k c => match c with (DPass p, Done) => Some (sha256 p) | _ => k end) l None.
  Definition bus_told (bus : Z) (l : list (dcall * danswer)) : Z :=
    fold_left (fun b c => match c with (DBus n, Done) => n - 1 | _ => b end) l bus.
  Definition filter_told (l : list (dcall * danswer)) : option (list Z) :=
    fold_left (fun f c => match c with (DFilter g, Done) => g | _ => f end) l None.

  (** A frame with the key and the bus set when it was given. *)
  Definition frames_told (bus : Z) (l : list (dcall * danswer)) : list (option K * Z * cframe) :=
    snd (fold_left (fun a c =>
      let '(before, out) := a in
      (before ++ [c], out ++ match c with (DSend f, Done) => [(key_told before, bus_told bus before, f)] | _ => [] end)) l ([], [])).

  (** Frames among what was written, with the key they were signed with. *)
  Definition frames_out (l : list (option K * sending)) : list (option K * mavmsg) :=
    flat_map (fun x => match snd x with CanSent _ m => [(fst x, m)] | _ => [] end) l.
  (** The message has the key and the bus, and is read as the frame. *)
  Definition as_told (x : option K * Z * cframe) (y : option K * mavmsg) : Prop :=
    let '(k, b, f) := x in
    fst y = k /\ Z.of_N (mv_bus (snd y)) = b /\ forall now, received_at now f (mav_parse now (snd y)).

  (** Frames that wait in the queue. *)
  Definition waiting (q : list (qitem K)) : nat := length (filter (fun i => match i with QItem (Frame _) => true | _ => false end) q).
End Told.
(** Calls that are within bounds: buses of 8 bits, and frames that can be on a bus. *)
Definition call_ok (c : dcall) : Prop :=
  match c with DSend f => on_bus f | DBus n => n <= 256 | _ => True end.
Definition calls_ok (l : list devent) : Prop := forall c, In (ECall c) l -> call_ok c.

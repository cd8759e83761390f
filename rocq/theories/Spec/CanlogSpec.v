(** What converting a log promises. *)
From Verif.Base Require Import Prelude Bits.
From Verif.Model Require Import Types Codec MsgId Frames TransferManager Node CanFrame FileLog Canlog.
From Verif.Spec Require Import CodecSpec FrameSpec NodeSpec CallSpec StreamSpec LogSpec LinkSpec.
Local Open Scope N_scope.

(** The program as a node with its surroundings. *)
Definition converter (clk : nat -> Z) (status : list nobs -> value) (status_dt : datatype) (types : datatypes) (second : Z)
    (node_info : option (datatype * value)) (pos : option nat) (interval : Z) (info : typeid) (fuel : nat) : station :=
  Station clk (callbacks node_info pos) discards status status_dt types second (Some 10) false true interval info fuel.
(** All it does besides adding its handler is to read frames and to poll. *)
Definition just_spins (ins : list ninput) : Prop :=
  Forall (fun i => match i with IFrame _ _ | IPoll | IRead => True | _ => False end) ins.

(** Messages of type [d] in the log come from node [a] only. *)
Definition only_speaker (a d : N) (gs : list cframe) : Prop :=
  forall g, In g gs -> c_ext g = true -> of_type (c_id g mod 128) d (as_heard g) = true -> c_id g mod 128 = a.
(** The types are found by their ids and kinds. *)
Definition by_key (types : datatypes) : Prop :=
  forall id svc dt, types id svc = Some dt -> dt_id dt = id /\ dt_service dt = svc.
(** The field number [pos] of the type is an array of bytes. *)
Definition data_field (pos : nat) (dt : datatype) : Prop :=
  exists ts dyn cm mx, dt_fields dt = TComp false ts /\ nth_error ts pos = Some (TArr dyn (TPrim KUint 8 cm) mx).
(** The bytes in that field. *)
Definition holds (pos : nat) (v : value) (bytes : list N) : Prop :=
  exists vs act items, v = VComp vs act /\ nth_error vs pos = Some (VArr items) /\
    Forall2 (fun b x => exists w, x = VPrim w /\ length w = 8%nat /\ N_of_bits w = b) bytes items.
(** The log has the frames of the messages of type [d] that node [a] broadcast
    by direct calls, and none of other nodes; [blocks] are the data of the
    broadcasts that returned. *)
Definition on_record (types : datatypes) (pos : nat) (A : station) (insA insA1 : list ninput) (a d : N) (gs : list cframe)
    (blocks : list (list N)) : Prop :=
  n_id (ran A insA) = Some a /\ 1 <= a < 128 /\ 4 <= d /\
  leaves_type d (st_beh A) /\ dt_id (st_status_dt A) <> d /\ Forall (fit types) (casts d insA1) /\
  Forall loggable gs /\ gs <> [] /\ only_speaker a d gs /\
  exists out oks, bus (n_log (ran A (insA ++ insA1))) = bus (n_log (ran A insA)) ++ out /\
    outcomes d (n_log (ran A (insA ++ insA1))) = outcomes d (n_log (ran A insA)) ++ oks /\
    Forall2 same_frame (filter (of_type a d) out) (filter (of_type a d) (map as_heard (filter c_ext gs))) /\
    Forall2 (fun b bytes => data_field pos (b_type b) /\ holds pos (b_value b) bytes) (those (casts d insA1) oks) blocks.

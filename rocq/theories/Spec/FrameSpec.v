(** Frames of a transfer, described without the splitting code. *)
From Verif.Base Require Import Prelude.
From Verif.Model Require Import Types Codec MsgId Frames.
Local Open Scope N_scope.

(** Start of transfer (bit 7), end of transfer (bit 6), toggle (bit 5),
    transfer id modulo 32. *)
Definition tail_byte (sot eot tog : bool) (tid : N) : N :=
  (if sot then 128 else 0) + (if eot then 64 else 0) + (if tog then 32 else 0) + tid mod 32.

Definition capacity (canfd : bool) : nat := if canfd then 63 else 7.

(** The frame sequence [fs] carries [body]: frame [i] holds a piece of it and
    the tail byte; all pieces but the last are full, no piece of a sequence of
    several frames is empty. *)
Record carries (id : N) (canfd : bool) (tid : N) (body : list N) (fs : list frame) : Prop := {
  c_nonempty : fs <> [];
  c_body : concat (map (fun f => removelast (f_bytes f)) fs) = body;
  c_frame : forall i f, nth_error fs i = Some f ->
    f_id f = id /\ f_canfd f = canfd /\
    exists piece,
      f_bytes f = piece ++ [tail_byte (Nat.eqb i 0) (Nat.eqb (S i) (length fs)) (Nat.odd i) tid] /\
      (length piece <= capacity canfd)%nat /\
      ((S i < length fs)%nat -> length piece = capacity canfd) /\
      ((1 < length fs)%nat -> piece <> [])
}.

(** Lengths a CAN FD frame can have. *)
Definition fd_lengths : list nat :=
  [0; 1; 2; 3; 4; 5; 6; 7; 8; 12; 16; 20; 24; 32; 48; 64]%nat.

(** The same frame up to reception time stamps. *)
Definition same_frame (a b : frame) : Prop :=
  f_id a = f_id b /\ f_bytes a = f_bytes b /\ f_canfd a = f_canfd b.

(** The frames of one transfer as a receiver sees them: all with one key, the
    start flag on the first only, the end flag on the last only. *)
Definition one_transfer (k : N * option N) (fs : list frame) : Prop :=
  fs <> [] /\
  forall i f, nth_error fs i = Some f ->
    transfer_key f = k /\
    start_of_transfer f = Nat.eqb i 0 /\
    end_of_transfer f = Nat.eqb (S i) (length fs).

(** What a sequence of frames carries besides its tail bytes. *)
Definition frames_body (fs : list frame) : list N :=
  concat (map (fun f => removelast (f_bytes f)) fs).

(** A frame whose data may have been altered but not its identifier, kind or
    tail byte. *)
Definition same_envelope (a b : frame) : Prop :=
  f_id a = f_id b /\ f_canfd a = f_canfd b /\ last_byte (f_bytes a) = last_byte (f_bytes b).

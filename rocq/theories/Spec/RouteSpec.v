(** Frames of one node that come to another through links and bridges. *)
From Verif.Base Require Import Prelude.
From Verif.Model Require Import Types Codec MsgId Frames TransferManager Node CanFrame.
From Verif.Spec Require Import MsgIdSpec FrameSpec ReassemblySpec SendingSpec NodeSpec CallSpec DownloadSpec LinkSpec.
Local Open Scope Z_scope.

(** A node has put the frames [fs], all with identifier and transfer id [k], on
    its bus. They are among the traffic there, in their order, the last of
    those with [k]. Through any number of links and bridges the traffic comes
    to the bus of another node. That node has heard what the inputs [ins] hold,
    and [f] is the last frame of all: the last of [fs] as it arrives. *)
Definition carried (k : key) (fs : list frame) (ins : list ninput) (f : frame) : Prop :=
  exists traffic gs earlier fs',
    fs <> [] /\ Forall sendable traffic /\
    filter (has_key k) (map as_heard traffic) = earlier ++ fs' /\ Forall2 same_frame fs fs' /\
    route traffic gs /\ map as_heard gs = heard ins ++ [f] /\ has_key k f = true.

Section Exchange.
  Variables (A B : station) (hd : handler) (dt : datatype) (a dest : N) (v : value) (x : exchange).
  Let call := x_before x ++ [IOp (NRequest dt v dest (x_prio x) (x_timeout x) (x_canfd x))].
  Let s0 := ran A (x_before x).
  Let s1 := ran A call.
  Let s2 := ran A (call ++ x_between x).
  Let b0 := ran B (x_callee x).
  Let b1 := ran B (x_callee x ++ [IFrame true (x_request_last x)]).
  Let tid := (N.of_nat (length (attempted (dt_id dt, Some dest) (n_log s0))) mod 32)%N.

  (** As [exchanged] in DownloadSpec.v, with links and bridges between the two
      nodes, any for the request and any for the reply. *)
  Definition exchanged_over : Prop :=
    asked_priority (x_prio x) (x_used x) /\ (x_used x < 32)%N /\
    n_id s0 = Some a /\
    snd (request (st_clk A) (st_drv A) (st_second A) s0 dt v dest (x_prio x) (x_timeout x) (x_canfd x)) = None /\
    bus (n_log s1) = bus (n_log s0) ++ x_request x /\
    n_id b0 = Some dest /\
    carried (can_id (request_head (x_used x) a dest (dt_id dt)), Some tid) (x_request x) (x_callee x) (x_request_last x) /\
    filter (serves (dt_id dt)) (handlers_of b0) = [hd] /\
    (length (handlers_of b0) < st_fuel B)%nat /\
    bus (n_log b1) = bus (n_log b0) ++ x_reply x /\
    carried (can_id (response_head (x_used x) a dest (dt_id dt)), Some tid) (x_reply x) (call ++ x_between x) (x_reply_last x) /\
    (forall r, In r (requests_with dest (dt_id dt) tid (n_log s0)) -> done r (n_log s0)) /\
    (forall r, In r (requests_with dest (dt_id dt) tid (n_log s2)) -> (r <= n_reqs s0)%nat) /\
    ~ done (n_reqs s0) (n_log s2).
End Exchange.

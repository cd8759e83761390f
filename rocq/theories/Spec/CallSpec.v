(** Service calls between two nodes. *)
From Verif.Base Require Import Prelude.
From Verif.Model Require Import Types Codec MsgId Frames TransferManager Node.
From Verif.Spec Require Import CodecSpec NodeSpec.
Local Open Scope Z_scope.

(** The header of a request, and the one of the response to it: source and
    destination are exchanged, the priority and the service are the same. *)
Definition request_head (prio a dest service : N) : header := Header prio true true (Some a) (Some dest) service None.
Definition response_head (prio a dest service : N) : header := Header prio true false (Some dest) (Some a) service None.

(** The priority of a request for which [prio] was asked: 20 by default. *)
Definition asked_priority (prio : option N) (p : N) : Prop :=
  match prio with None => p = 20%N | Some q => if N.eqb q 0 then p = 20%N else p = q end.

(** The numbers of the requests in [l] for a service of node [dest] that carry
    transfer id [tid]. *)
Fixpoint requests_with (dest service tid : N) (l : list nobs) : list nat :=
  match l with
  | [] => []
  | ORequest r h t _ :: l' =>
      if optN_eqb (h_dest h) (Some dest) && N.eqb (h_dtid h) service && N.eqb t tid
      then r :: requests_with dest service tid l' else requests_with dest service tid l'
  | _ :: l' => requests_with dest service tid l'
  end.

(** The callback of request [r] has been called. *)
Definition done (r : nat) (l : list nobs) : Prop := (0 < responses r l + timeouts r l)%nat.

(** A node with its surroundings: clock, callbacks, driver, node status, data
    types, and the arguments of its constructor. *)
Record station := Station {
  st_clk : nat -> Z;
  st_beh : list nobs -> list (nop * bool) * outcome;
  st_drv : list nobs -> list frame -> option exn;
  st_status : list nobs -> value;
  st_status_dt : datatype;
  st_types : datatypes;
  st_second : Z;
  st_id : option N;
  st_canfd : bool;
  st_catch : bool;
  st_interval : Z;
  st_info : typeid;
  st_fuel : nat
}.
(** The node after some inputs. *)
Definition ran (x : station) (ins : list ninput) : node :=
  node_history (st_clk x) (st_beh x) (st_drv x) (st_status x) (st_status_dt x) (st_types x) (st_second x) (st_fuel x)
    (new_node (st_clk x) (st_id x) (st_canfd x) (st_catch x) (st_interval x) (st_info x)) ins.

(** The handlers of a node, and the ones that requests for a service go to. *)
Definition handlers_of (s : node) : list handler := handler_list s (n_cur s).
Definition serves (service : N) (hd : handler) : bool :=
  match hd_type hd with None => true | Some ty => N.eqb (fst ty) service && snd ty end.

(** A service that both ends know, and what it is called with. *)
Record callable (A B : station) (dt : datatype) (a dest p : N) (v : value) (answer : value -> value) : Prop := {
  c_kind : dt_service dt = true;
  c_number : (dt_id dt < 256)%N;
  c_crc : (dt_crc dt < 2 ^ 16)%N;
  c_caller : st_types A (dt_id dt) true = Some dt;
  c_callee : st_types B (dt_id dt) true = Some dt;
  c_request : wf_type (dt_fields dt);
  c_response : wf_type (dt_response dt);
  c_value : valid (dt_fields dt) v;
  c_answer : forall w, content (dt_fields dt) w = content (dt_fields dt) v -> valid (dt_response dt) (answer w);
  c_ends : (1 <= a < 128 /\ 1 <= dest < 128 /\ p < 32)%N
}.

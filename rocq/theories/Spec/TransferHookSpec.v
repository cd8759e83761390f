(** What the monitor of a node's transfers ought to see. *)
From Verif.Base Require Import Prelude.
From Verif.Model Require Import Types Codec MsgId Frames TransferManager Hooks TransferHooks.

(** The transfers that hook [h] was called with. *)
Definition shown_to (h : nat) (l : list tevent) : list shown :=
  flat_map (fun e => match e with THook h' x => if Nat.eqb h' h then [x] else [] | _ => [] end) l.
(** The transfers whose handling began, and the frames that were sent. *)
Definition dispatched (l : list tevent) : list rx :=
  flat_map (fun e => match e with TDispatched t => [t] | _ => [] end) l.
Definition sent_out (l : list tevent) : list frame :=
  flat_map (fun e => match e with TSent f => [f] | _ => [] end) l.
Definition incoming (l : list shown) : list rx :=
  flat_map (fun x => match x with Incoming t => [t] | _ => [] end) l.
Definition outgoing (l : list shown) : list tx :=
  flat_map (fun x => match x with Outgoing t => [t] | _ => [] end) l.

(** No hook removes one; no hook adds one. *)
Definition leaves_hooks (beh : list tevent -> list hook_op * bool) : Prop :=
  forall log h, ~ In (HRemove h) (fst (beh log)).
Definition adds_none (beh : list tevent -> list hook_op * bool) : Prop :=
  forall log, ~ In HAdd (fst (beh log)).

(** The transfers of a history without regard to hooks: those that could be
    made, and those that the received frames make up. *)
Fixpoint flow (types : datatypes) (m : manager) (l : list taction) : list shown :=
  match l with
  | [] => []
  | DoTransfer h tid dt v c :: r =>
      match make_tx h tid dt v c with Ok t => [Outgoing t] | Err _ => [] end ++ flow types m r
  | DoFrame true f now :: r =>
      let (m', done) := receive_frame m f now in
      match done with
      | Some fs => match from_frames types fs with Ok t => [Incoming t] | Err _ => [] end
      | None => []
      end ++ flow types m' r
  | _ :: r => flow types m r
  end.

(** The extended frames of a history, with the times of their reading. *)
Definition frames_in (l : list taction) : list (frame * Z) :=
  flat_map (fun a => match a with DoFrame true f now => [(f, now)] | _ => [] end) l.

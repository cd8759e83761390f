(** Which handlers a node has. *)
From Coq Require Import Sorted.
From Verif.Base Require Import Prelude.
From Verif.Model Require Import Types MsgId Frames Sched Node.
From Verif.Spec Require Import NodeSpec CallSpec.

(** The operations among the inputs. *)
Definition ops_of (ins : list ninput) : list nop :=
  flat_map (fun i => match i with IOp op => [op] | _ => [] end) ins.
(** How many handlers they add. *)
Definition additions (ops : list nop) : nat :=
  length (filter (fun op => match op with NAddHandler _ _ => true | _ => false end) ops).

(** [op] adds [hd], with number [n]; only handlers of services can sniff. *)
Definition adds (op : nop) (n : nat) (hd : handler) : Prop :=
  match op with
  | NAddHandler ty sniff => hd_id hd = n /\ hd_type hd = ty /\
      (hd_sniff hd = true <-> sniff = true /\ exists id, ty = Some (id, true))
  | _ => False
  end.
(** [op] removes [hd], by its handle or with all others for its type. *)
Definition takes_away (op : nop) (hd : handler) : Prop :=
  match op with
  | NRemoveHandler i => i = hd_id hd
  | NRemoveHandlers ty => ty = hd_type hd
  | _ => False
  end.

(** [hd] was there at the start ([own] has number 0) or was added, the first
    with number 1, and has not been removed since. *)
Definition registered (own : handler) (ops : list nop) (hd : handler) : Prop :=
  hd = own /\ (forall op, In op ops -> ~ takes_away op hd) \/
  exists ops1 op ops2, ops = ops1 ++ op :: ops2 /\ adds op (S (additions ops1)) hd /\
    forall op', In op' ops2 -> ~ takes_away op' hd.

(** By number, that is, in the order in which they were added. *)
Definition in_order (hds : list handler) : Prop := StronglySorted lt (map hd_id hds).

(** User code that leaves the handlers alone. *)
Definition leaves_handlers (beh : list nobs -> list (nop * bool) * outcome) : Prop :=
  forall l op c, In (op, c) (fst (beh l)) ->
    match op with NAddHandler _ _ | NRemoveHandler _ | NRemoveHandlers _ => False | _ => True end.

(** User code is called. *)
Definition is_user_call (o : nobs) : bool :=
  match o with OResponse _ _ | OTimeout _ _ | OHandled _ _ | OTask _ _ => true | _ => false end.

(** [o] is the call that event [e] is for. *)
Definition call_for (e : event nact) (o : nobs) : Prop :=
  match ev_act e, o with
  | ATask h, OTask h' _ | AEvery h _, OTask h' _ => h' = h
  | ATimeout r _, OTimeout r' _ => r' = r
  | _, _ => False
  end.
(** User code that removes no tasks. *)
Definition removes_no_task (beh : list nobs -> list (nop * bool) * outcome) : Prop :=
  forall l op c, In (op, c) (fst (beh l)) -> match op with NRemoveTask _ => False | _ => True end.

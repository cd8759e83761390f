(** What the node monitor promises, in terms of what came in and went out. *)
From Coq Require Import Sorted.
From Verif.Base Require Import Prelude.
From Verif.Model Require Import Monitor.
Local Open Scope Z_scope.

(** When node [n] was heard, with a NodeStatus, a GetNodeInfo response or a
    GetNodeInfo request; most recent message last. *)
Definition heard_in (n : N) (e : mevent) : list Z :=
  match e with
  | MStatus n' _ ts _ _ | MInfo n' _ _ ts _ _ | MRequest n' ts _ => if (n' =? n)%N then [ts] else []
  | _ => []
  end.
Definition heard (n : N) (evs : list mevent) : list Z := flat_map (heard_in n) evs.
Fixpoint last_opt {A} (l : list A) : option A :=
  match l with [] => None | [x] => Some x | _ :: l' => last_opt l' end.

(** The same without the requests. *)
Definition announced_in (n : N) (e : mevent) : list Z :=
  match e with
  | MStatus n' _ ts _ _ | MInfo n' _ _ ts _ _ => if (n' =? n)%N then [ts] else []
  | _ => []
  end.
Definition announced (n : N) (evs : list mevent) : list Z := flat_map (announced_in n) evs.

(** The clock as it was read about node [n]. *)
Definition reading_in (n : N) (e : mevent) : list Z :=
  match e with
  | MStatus n' _ _ now _ | MInfo n' _ _ _ now _ | MRequest n' _ now | MGet n' now =>
      if (n' =? n)%N then [now] else []
  | MTick now => [now n]
  end.
Definition readings (n : N) (evs : list mevent) : list Z := flat_map (reading_in n) evs.

(** The events reported about node [n]. *)
Inductive report := RNew | RUpdate | ROffline.
Definition report_in (n : N) (o : mobs) : list report :=
  match o with
  | MNew n' => if (n' =? n)%N then [RNew] else []
  | MUpdate n' => if (n' =? n)%N then [RUpdate] else []
  | MOffline n' => if (n' =? n)%N then [ROffline] else []
  | _ => []
  end.
Definition story (n : N) (l : list mobs) : list report := flat_map (report_in n) l.

(** A coherent story: new, then updates, then offline, and over again. *)
Fixpoint coherent (online : bool) (l : list report) : bool :=
  match l with
  | [] => true
  | RNew :: l' => negb online && coherent true l'
  | RUpdate :: l' => online && coherent true l'
  | ROffline :: l' => online && coherent false l'
  end.

(** A node is reported new again only after offline. *)
Fixpoint new_once (known : bool) (l : list report) : bool :=
  match l with
  | [] => true
  | RNew :: l' => negb known && new_once true l'
  | RUpdate :: l' => new_once known l'
  | ROffline :: l' => new_once false l'
  end.

(** The requests for info sent to node [n]. *)
Definition ask_in (n : N) (o : mobs) : list Z :=
  match o with MAsk n' ts => if (n' =? n)%N then [ts] else [] | _ => [] end.
Definition asks (n : N) (l : list mobs) : list Z := flat_map (ask_in n) l.

(** The uptimes node [n] reported. *)
Definition uptime_in (n : N) (e : mevent) : list N :=
  match e with MStatus n' u _ _ _ => if (n' =? n)%N then [u] else [] | _ => [] end.
Definition uptimes (n : N) (evs : list mevent) : list N := flat_map (uptime_in n) evs.

(** The same with those in info responses. *)
Definition told_in (n : N) (e : mevent) : list N :=
  match e with MStatus n' u _ _ _ | MInfo n' u _ _ _ _ => if (n' =? n)%N then [u] else [] | _ => [] end.
Definition told (n : N) (evs : list mevent) : list N := flat_map (told_in n) evs.

(** Nothing but status messages and overheard traffic of others: no answer,
    and no request, from [n]. *)
Definition unanswered (n : N) (evs : list mevent) : Prop :=
  forall e, In e evs ->
    match e with MInfo n' _ _ _ _ _ | MRequest n' _ _ => n' <> n | _ => True end.

(** Time stamps of messages from [n] do not go back, and lag behind the clock
    by no more than [lag]. *)
Definition orderly (lag : Z) (n : N) (evs : list mevent) : Prop :=
  forall a e b ts, evs = a ++ e :: b -> In ts (heard_in n e) ->
    (forall ts', In ts' (heard n a) -> ts' <= ts) /\ (forall r, In r (readings n (a ++ [e])) -> r <= ts + lag).

(** Info responses come from nodes heard within the timeout only (as told by
    the clock, which does not go back), and there are no requests. *)
Definition introduced (timeout : Z) (n : N) (evs : list mevent) : Prop :=
  forall a e b, evs = a ++ e :: b ->
    match e with
    | MInfo n' _ _ _ now _ => n' = n ->
        (exists ts, last_opt (heard n a) = Some ts /\ now <= ts + timeout) /\
        (forall r, In r (readings n a) -> r <= now)
    | MRequest n' _ _ => n' <> n
    | _ => True
    end.

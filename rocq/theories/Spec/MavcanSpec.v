(** What a CAN link over MAVLink is to do, said without the program. *)
From Coq Require Import Sorting.Sorted Sorting.Permutation.
From Verif.Base Require Import Prelude.
From Verif.Model Require Import CanFrame Packets Mavcan.
From Verif.Spec Require Import PacketSpec.
Local Open Scope Z_scope.

(** The bus selected last. *)
Fixpoint bus_after (bus : Z) (l : list mav_event) : Z :=
  match l with
  | [] => bus
  | Take _ (BusNum b) :: r => bus_after b r
  | _ :: r => bus_after bus r
  end.
(** The system addressed: the given one, or else the first one heard. *)
Fixpoint target_after (target : Z) (l : list mav_event) : Z :=
  match l with
  | [] => target
  | Recv _ (Message system _) :: r => target_after (if target =? 0 then system else target) r
  | _ :: r => target_after target r
  end.
(** The filter asked for last. *)
Fixpoint filter_after (f : option (list Z)) (l : list mav_event) : option (list Z) :=
  match l with
  | [] => f
  | Take _ (FilterList g) :: r => filter_after g r
  | _ :: r => filter_after f r
  end.

(** The frames given to the link, each with what came before it. *)
Fixpoint given_after (before l : list mav_event) : list (list mav_event * cframe) :=
  match l with
  | [] => []
  | e :: r => match e with Take _ (Frame f) => [(before, f)] | _ => [] end ++ given_after (before ++ [e]) r
  end.
Definition frames_given (l : list mav_event) : list (list mav_event * cframe) := given_after [] l.
Definition can_sent (l : list sending) : list (Z * mavmsg) := flat_map (fun x => match x with CanSent t m => [(t, m)] | _ => [] end) l.
(** The message carries the frame, on a bus, to a system. *)
Definition carries (bus target : Z) (x : list mav_event * cframe) (y : Z * mavmsg) : Prop :=
  fst y = target_after target (fst x) /\ Z.of_N (mv_bus (snd y)) = bus_after bus (fst x) /\
  mv_fd (snd y) = c_fd (snd x) /\ length (mv_data (snd y)) = (if c_fd (snd x) then 64%nat else 8%nat) /\
  forall now, received_at now (snd x) (mav_parse now (snd y)).

(** Buses are unsigned numbers of 8 bits. *)
Definition bus_ok (b : Z) : Prop := 0 <= b < 256.
Definition buses_ok (l : list mav_event) : Prop := forall now b, In (Take now (BusNum b)) l -> bus_ok b.
Definition frames_ok (l : list mav_event) : Prop := forall now f, In (Take now (Frame f)) l -> on_bus f.

(** The messages that came. *)
Definition messages (l : list mav_event) : list (Z * mavmsg) :=
  flat_map (fun e => match e with Recv now (Message _ m) => [(now, m)] | _ => [] end) l.

(** Times do not go back. *)
Definition time_of (e : mav_event) : Z := match e with Take now _ | Recv now _ => now end.
Definition in_order (start : Z) (l : list mav_event) : Prop := Sorted Z.le (start :: map time_of l).

(** What an event has added to what is sent. *)
Definition added (bus target : Z) (start : Z) (l : list mav_event) (e : mav_event) (new : list sending) : Prop :=
  v_sent (mav_run (mav_new bus target false start) (l ++ [e])) = v_sent (mav_run (mav_new bus target false start) l) ++ new.
(** A request to forward the selected bus. *)
Definition requests (bus target : Z) (l : list mav_event) (new : list sending) : Prop :=
  In (Forward (target_after target l) (bus_after bus l + 1)) new.
Definition is_forward (x : sending) : Prop := match x with Forward _ _ => True | _ => False end.
(** Times at which forwarding was requested: the start, and the events that
    added a request. *)
Definition requested_at (bus target start : Z) (l : list mav_event) (t : Z) : Prop :=
  t = start \/ exists a e b new, l = a ++ e :: b /\ added bus target start a e new /\ Exists is_forward new /\ t = time_of e.
(** Events at which the process looks whether a request is due. *)
Definition checks (e : mav_event) : Prop := match e with Take _ (Frame _) | Recv _ NoMessage => True | _ => False end.

(** The filter as it is sent. *)
Definition filter_of (ids : list Z) (num : Z) (out : list Z) : Prop :=
  exists l, Permutation l ids /\ Sorted Z.le l /\ num = Z.of_nat (length ids) /\ out = l ++ repeat 0 (16 - length ids)%nat.

(** The filter that the other side has: the one it got last, if any. *)
Definition remote_filter (l : list sending) : option (Z * list Z) :=
  fold_left (fun f x => match x with Filter _ _ num ids => Some (num, ids) | _ => f end) l None.

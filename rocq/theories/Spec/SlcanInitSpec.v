(** What opening a channel is to achieve, said without the program. *)
From Verif.Base Require Import Prelude.
From Verif.Model Require Import Slcan SlcanInit.
Local Open Scope N_scope.

(** ** What is seen at the port *)

Inductive op := Wrote (l : list N) | Got (g : got) | Dropped.

(** A port with a record of the calls. *)
Definition traced {W} (p : port W) : port (W * list op) := {|
  p_write := fun l s => let (ok, w) := p_write p l (fst s) in (ok, (w, snd s ++ [Wrote l]));
  p_flush := fun s => let (ok, w) := p_flush p (fst s) in (ok, (w, snd s));
  p_read := fun s => let (g, w) := p_read p (fst s) in (g, (w, snd s ++ [Got g]));
  p_drop := fun s => let (ok, w) := p_drop p (fst s) in (ok, (w, snd s ++ [Dropped])) |}.

(** Bytes that mean nothing, then an acknowledgement. *)
Definition acked (l : list op) : Prop := exists junk, ~ In 13 junk /\ ~ In 7 junk /\ l = map (fun b => Got (Byte b)) junk ++ [Got (Byte 13)].
(** Any reply or none. *)
Definition replied (l : list op) : Prop := exists junk e, ~ In 13 junk /\ ~ In 7 junk /\ (e = Byte 13 \/ e = Byte 7 \/ e = Nothing) /\
  l = map (fun b => Got (Byte b)) junk ++ [Got e].

(** The calls of an attempt that ends well: the speed is set and the channel
    opened, both acknowledged before the next command is sent. *)
Definition went_well (digit : N) (l : list op) : Prop := exists a b c d e, replied a /\ replied b /\ acked c /\ acked d /\ replied e /\
  l = Wrote [13] :: a ++ Dropped :: Wrote [67; 13] :: b ++ Wrote [83; 48 + digit; 13] :: c ++ Wrote [79; 13] :: d ++ Wrote [70; 13] :: e.

Definition wrote (l : list op) : list (list N) := flat_map (fun o => match o with Wrote x => [x] | _ => [] end) l.
(** What an attempt writes, to the end or not. *)
Definition attempt_writes (digit : N) (l : list (list N)) : Prop :=
  exists rest, [[13]; [67; 13]; [83; 48 + digit; 13]; [79; 13]; [70; 13]] = l ++ rest /\ l <> [].

(** The bit rates and their codes. *)
Definition rates : list (N * N) :=
  [(10000, 0); (20000, 1); (50000, 2); (100000, 3); (125000, 4); (250000, 5); (500000, 6); (800000, 7); (1000000, 8)].

(** ** Adapters *)

(** Commands with what the adapter did: acknowledged, refused, or nothing. *)
Definition history := list (list N * option bool).

(** The channel after that: closed ([None]) or open with some speed. *)
Record channel := { ch_speed : option N; ch_open : bool }.
Definition obey (c : channel) (x : list N * option bool) : channel :=
  match x with
  | ([83; d], Some true) => {| ch_speed := Some (d - 48); ch_open := ch_open c |}
  | ([79], Some true) => {| ch_speed := ch_speed c; ch_open := true |}
  | ([67], Some true) => {| ch_speed := ch_speed c; ch_open := false |}
  | _ => c
  end.
Definition channel_after (h : history) : channel := fold_left obey h {| ch_speed := None; ch_open := false |}.

(** An adapter. Its reply to a command may depend on all that was before,
    and it may send something else before the reply: frames, or a reply to an
    earlier command. *)
Record adapter := { ad_history : history; ad_sent : list N }.
Definition reply_bytes (r : option bool) : list N := match r with Some true => [13] | Some false => [7] | None => [] end.
Definition adapter_port (reply : history -> list N -> option bool) (traffic : history -> list N -> list N) : port adapter := {|
  p_write := fun l a => let cmd := removelast l in let r := reply (ad_history a) cmd in
    (true, {| ad_history := ad_history a ++ [(cmd, r)]; ad_sent := ad_sent a ++ traffic (ad_history a) cmd ++ reply_bytes r |});
  p_flush := fun a => (true, a);
  p_read := fun a => match ad_sent a with b :: r => (Byte b, {| ad_history := ad_history a; ad_sent := r |}) | [] => (Nothing, a) end;
  p_drop := fun a => (true, {| ad_history := ad_history a; ad_sent := [] |}) |}.

(** Only the first and the last command of an attempt meet traffic. *)
Definition quiet (traffic : history -> list N -> list N) : Prop :=
  forall h cmd, cmd <> [] -> cmd <> [70] -> ~ In 13 (traffic h cmd) /\ ~ In 7 (traffic h cmd).

(** An attempt in which the adapter set the speed and opened the channel, and
    one in which it did not. *)
Definition accepted (digit : N) (h : history) : Prop :=
  exists a b c, h = [([], a); ([67], b); ([83; 48 + digit], Some true); ([79], Some true); ([70], c)].
Definition not_accepted (digit : N) (h : history) : Prop :=
  exists a b r, r <> Some true /\
    (h = [([], a); ([67], b); ([83; 48 + digit], r)] \/ h = [([], a); ([67], b); ([83; 48 + digit], Some true); ([79], r)]).

(** ** Lost ports *)

(** A port that fails for a number of calls, and always when it is closed.
    When it is opened again, the adapter starts anew. *)
Record device := { dv_adapter : adapter; dv_open : bool; dv_down : nat }.
Definition device_call {A} (failed : A) (f : adapter -> A * adapter) (d : device) : A * device :=
  match dv_down d with
  | S n => (failed, {| dv_adapter := dv_adapter d; dv_open := dv_open d; dv_down := n |})
  | O => if dv_open d then let (v, a) := f (dv_adapter d) in (v, {| dv_adapter := a; dv_open := true; dv_down := O |}) else (failed, d)
  end.
Definition device_port (q : port adapter) : port device := {|
  p_write := fun l => device_call false (p_write q l);
  p_flush := device_call false (p_flush q);
  p_read := device_call Fault (p_read q);
  p_drop := device_call false (p_drop q) |}.
Definition device_close (d : device) : device := {| dv_adapter := dv_adapter d; dv_open := false; dv_down := dv_down d |}.
Definition device_open (d : device) : bool * device :=
  match dv_down d with
  | S n => (false, {| dv_adapter := dv_adapter d; dv_open := dv_open d; dv_down := n |})
  | O => (true, {| dv_adapter := {| ad_history := []; ad_sent := [] |}; dv_open := true; dv_down := O |})
  end.

(** At most so many attempts. *)
Definition tries (digit : N) (n : nat) (l : list (list N)) : Prop :=
  exists parts, (length parts <= n)%nat /\ Forall (attempt_writes digit) parts /\ l = concat parts.

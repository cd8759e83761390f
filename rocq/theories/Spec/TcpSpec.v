(** What a link between a socket and a serial port promises. *)
From Verif.Base Require Import Prelude.
From Verif.Model Require Import Serial TcpLink.
From Verif.Spec Require Import SerialSpec.

(** [send] takes all the bytes it is given. *)
Definition takes_all (r : round) : Prop := exists k, r_send r = Took k /\ (1024 <= k)%nat.
(** The bytes of [a] and of [b], each in order, mixed. *)
Inductive mixed : list N -> list N -> list N -> Prop :=
| mixed_none : mixed [] [] []
| mixed_left x a b c : mixed a b c -> mixed (x :: a) b (x :: c)
| mixed_right x a b c : mixed a b c -> mixed a (x :: b) (x :: c).
(** All messages from node [target] for node [i] are of device [dev]. *)
Definition one_device (i : N) (target : N) (dev : Z) (log : list sevent) : Prop :=
  forall m, In (ERecv m) log -> m_source m = target -> m_target m = i -> m_serial m = dev.
(** The bytes that [recv] returned. *)
Definition from_socket (rs : list round) : list N :=
  flat_map (fun r => match r_recv r with Got b => b | _ => [] end) rs.

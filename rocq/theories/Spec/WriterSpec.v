(** What a writer thread is to do with the frames given to it. *)
From Verif.Base Require Import Prelude.
From Verif.Model Require Import CanFrame Writer.

Definition accepted {W} (l : list (sight W)) : list cframe :=
  flat_map (fun o => match o with Accepted f => [f] | _ => [] end) l.
Definition wrote {W} (l : list (sight W)) : list W :=
  flat_map (fun o => match o with Wrote w => [w] | _ => [] end) l.
(** What the caller learned of the writer: hook calls and exceptions. *)
Definition learned {W} (l : list (sight W)) : list (cframe + exn) :=
  flat_map (fun o => match o with Shown f => [inl f] | Raised x => [inr x] | _ => [] end) l.

(** Up to the time. *)
Definition same (f g : cframe) : Prop :=
  c_id g = c_id f /\ c_data g = c_data f /\ c_ext g = c_ext f /\ c_fd g = c_fd f.

(** The frames [fs] were treated one by one: each was written as the message
    made of it and is reported, or it was not written and an exception is. *)
Inductive treated {W} (encode : cframe -> res W) : list cframe -> list W -> list (cframe + exn) -> Prop :=
| tr_none : treated encode [] [] []
| tr_sent f g w fs ws rs : treated encode fs ws rs -> encode f = Ok w -> same f g ->
    treated encode (fs ++ [f]) (ws ++ [w]) (rs ++ [inl g])
| tr_failed f x fs ws rs : treated encode fs ws rs ->
    treated encode (fs ++ [f]) ws (rs ++ [inr x]).

(** All that was accepted has been treated. *)
Definition finished {W} (s : state W) : Prop := w_queue s = [] /\ (w_place s = AtTop \/ w_place s = AtGet).

Definition never_stopped (acts : list act) : Prop := ~ In AStop acts.
(** No system call fails for good. *)
Definition never_wrong (acts : list act) : Prop := forall x now, ~ In (AWriter (Wrong x) now) acts.
(** The number of steps of the writer. *)
Definition turns (acts : list act) : nat :=
  length (filter (fun a => match a with AWriter _ _ => true | _ => false end) acts).
(** Calls of the driver that look at the answers of the writer. *)
Definition looks (refuses : cframe -> bool) (acts : list act) : nat :=
  length (filter (fun a => match a with ASend f => negb (refuses f) | AReceive => true | _ => false end) acts).
(** Frames given to [send_frame]. *)
Definition handed (acts : list act) : list cframe :=
  flat_map (fun a => match a with ASend f => [f] | _ => [] end) acts.
(** Flushing does not fail. *)
Definition gentle {W} (encode : cframe -> res W) (flushes : bool) (refuses : cframe -> bool) (capacity : nat)
    (s : state W) (acts : list act) : Prop := forall pre a now post f,
  acts = pre ++ AWriter a now :: post -> w_place (run encode flushes refuses capacity s pre) = AtFlush f -> a = Fine.

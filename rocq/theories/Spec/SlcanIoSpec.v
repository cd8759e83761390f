(** What the IO process of the SLCAN driver is to do with what is given to it,
    and [receive] with what comes from it. *)
From Verif.Base Require Import Prelude.
From Verif.Model Require Import CanFrame TsEst Slcan SlcanCli SlcanIo.

(** What the main process put into the queue. *)
Definition taken_jobs (l : list note) : list job :=
  flat_map (fun o => match o with Took j => [j] | _ => [] end) l.
(** The exceptions of the worker, told to the main process or not. *)
Definition complaints (l : list note) : list exn :=
  flat_map (fun o => match o with Told x | Untold x => [x] | _ => [] end) l.
(** The frames shown to the hooks. *)
Definition hooked (l : list note) : list cframe :=
  flat_map (fun o => match o with Hooked f => [f] | _ => [] end) l.

(** What writing [line] leaves behind when it is tried again and again: a part
    of the line and what opens the port, each time. *)
Definition junk (line : list N) (pieces : list (nat * list N)) : list N :=
  flat_map (fun p => firstn (fst p) line ++ snd p) pieces.

(** The jobs were treated one by one, in order: the line of each was written
    whole; or it was, but flushing failed; or only a part of it was; or it has
    no line. In the last three cases there is an exception. [trouble]: the
    port failed. *)
Inductive served (retry : bool) (trouble : Prop) : list job -> list N -> list exn -> Prop :=
| sv_none : served retry trouble [] [] []
| sv_sent j line pieces after js out xs : served retry trouble js out xs -> job_line j = Ok line ->
    (pieces = [] /\ after = [] \/ retry = true /\ trouble) ->
    served retry trouble (js ++ [j]) (out ++ junk line pieces ++ line ++ after) xs
| sv_flush j line x js out xs : served retry trouble js out xs -> job_line j = Ok line ->
    retry = false -> trouble -> served retry trouble (js ++ [j]) (out ++ line) (xs ++ [x])
| sv_cut j line n x js out xs : served retry trouble js out xs -> job_line j = Ok line ->
    retry = false -> trouble -> served retry trouble (js ++ [j]) (out ++ firstn n line) (xs ++ [x])
| sv_bad j x js out xs : served retry trouble js out xs -> job_line j = Err x ->
    served retry trouble (js ++ [j]) out (xs ++ [x]).

(** All lines that jobs have, and the exceptions for those that have none. *)
Definition lines_of (js : list job) : list N :=
  flat_map (fun j => match job_line j with Ok l => l | Err _ => [] end) js.
Definition faults_of (js : list job) : list exn :=
  flat_map (fun j => match job_line j with Ok _ => [] | Err x => [x] end) js.

(** Nothing is left to be done. *)
Definition idle_io (s : io) : Prop := i_spot s = OnGet /\ i_tx s = [].

(** The port never fails; the process is not killed; it does not lose its
    parent or the receiving thread. *)
Definition smooth (l : list happening) : Prop := forall n x again over, ~ In (HWorker (Broken n x again) over) l.
Definition unharmed (l : list happening) : Prop := ~ In HKill l.
Definition attended (l : list happening) : Prop := forall a, ~ In (HWorker a true) l.

(** Frames given to [send_frame] and accepted, of some jobs. *)
Definition frame_jobs (fs : list cframe) : list job := map JFrame fs.

(** ** [receive] *)

(** What an object in the queue is for the program, if it is anything. *)
Definition meaning (o : rxobj) : list (cframe + exn) :=
  match o with
  | XFrame f => [inl f]
  | XError x => [inr x]
  | XOther => [inr DriverError]
  | XAnswer _ => []
  end.
(** What the calls of [receive] gave. *)
Definition given_by (c : call) : list (cframe + exn) :=
  match c_end c with Gave f => [inl f] | Threw x => [inr x] | _ => [] end.
Definition is_answer (o : rxobj) : bool := match o with XAnswer _ => true | _ => false end.
(** Objects arrive one after the other. *)
Fixpoint in_order (t : Z) (q : arrivals) : Prop :=
  match q with [] => True | (t', _) :: r => (t <= t')%Z /\ in_order t' r end.
(** What is left after the last call. *)
Definition left_after (q : arrivals) (cs : list call) : arrivals := last (map c_left cs) q.

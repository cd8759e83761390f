(** tools/dronecan_tcplink.py: a TCP connection joined to a serial port over
    DroneCAN. The socket is modelled by what its calls return. Counting and
    printing (39-41, 51, 57, 62-68) are left out: the counts are divided by at least
    one second. *)
From Verif.Base Require Import Prelude.
From Verif.Model Require Import Serial.
Local Open Scope Z_scope.

(** What [recv] does (45-49): it returns bytes, raises [socket.error], or
    returns no bytes because the peer has closed. *)
Inductive got := Got (b : list N) | Nothing | Closed.
(** What [send] does (60): it takes the first [k] bytes, or raises. *)
Inductive took := Took (k : nat) | Refuses (e : exn).
(** What happens in one turn of the loop: what [recv] does; the turns of the
    node while the bytes are written; for [read], the messages that come, how
    [spin] ends, the time, and the turns of the node; what [send] does. *)
Record round := {
  r_recv : got; r_write : list turn;
  r_arrive : list tmsg; r_spin : outcome; r_now : Z; r_alive : list turn;
  r_send : took
}.

(** The link: the port, the bytes that [recv] returned, the bytes that [send]
    took, the log file, and how the program ended, if it has. *)
Inductive ending := Stopped (e : exn) | Stuck.
Record link := Link {
  l_port : port; l_in : list N; l_out : list N; l_file : list N; l_end : option ending
}.

Section Link.
  Variables (own : option N) (target : N) (dev : Z) (lock : N).
  (** Whether there is a log file (22, 42). *)
  Variable logging : bool.

  (** 27-42 *)
  Definition open_link (baud : Z) : link := Link (fresh baud) [] [] [] None.

  (** [logfile.write(buf)] (54, 59) *)
  Definition note (l : link) (b : list N) : link :=
    Link (l_port l) (l_in l) (l_out l) (if logging then l_file l ++ b else l_file l) (l_end l).
  Definition finished (l : link) (e : ending) : link :=
    Link (l_port l) (l_in l) (l_out l) (l_file l) (Some e).

  (** 45-54: from the socket to the port. *)
  Definition inward (l : link) (r : round) : link :=
    match r_recv r with
    | Got [] | Nothing | Closed => l
    | Got b =>
        let '(p, w) := write own target dev lock (l_port l) b (r_write r) in
        let l := Link p (l_in l ++ b) (l_out l) (l_file l) (l_end l) in
        match w with
        | Returns _ => note l b
        | Raises e => finished l (Stopped e)
        | Waits => finished l Stuck
        end
    end.
  (** 55-60: from the port to the socket. *)
  Definition outward (l : link) (r : round) : link :=
    let '(p, w) := read own target dev lock (l_port l) 1024 (r_arrive r) (r_spin r) (r_now r) (r_alive r) in
    let l := Link p (l_in l) (l_out l) (l_file l) (l_end l) in
    match w with
    | Returns [] => l
    | Returns b =>
        let l := note l b in
        match r_send r with
        | Took k => Link (l_port l) (l_in l) (l_out l ++ firstn k b) (l_file l) (l_end l)
        | Refuses e => finished l (Stopped e)
        end
    | Raises e => finished l (Stopped e)
    | Waits => finished l Stuck
    end.
  (** 44-68: one turn of the loop. *)
  Definition round_step (l : link) (r : round) : link :=
    match l_end l with
    | Some _ => l
    | None => let l := inward l r in
              match l_end l with Some _ => l | None => outward l r end
    end.
  Definition run_link (baud : Z) (rs : list round) : link := fold_left round_step rs (open_link baud).
End Link.

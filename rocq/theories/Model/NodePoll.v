(** examples/get_nodeinfo.py: requests for the info of a node at a rate. *)
From Verif.Base Require Import Prelude Bits.
From Verif.Model Require Import Types Codec MsgId Frames TransferManager Sched Node.
Local Open Scope Z_scope.

Section NodePoll.
  (** As in Model/Node, with what the driver gives for each turn of the loop. *)
  Variable clk : nat -> Z.
  Variable beh : list nobs -> list (nop * bool) * outcome.
  Variable drv : list nobs -> list frame -> option exn.
  Variable status : list nobs -> value.
  Variable status_dt : datatype.
  Variable types : datatypes.
  Variable second : Z.
  Variable receive : nat -> list nobs -> nat -> Z -> res (option (bool * frame)).
  (** [time.time()] as read in each turn, and [last_req]; [1.0/args.rate] in
      ticks; the request, the node, and the option for CAN FD. *)
  Variable wall : nat -> Z.
  Variables last period : Z.
  Variable dt : datatype.
  Variable v : value.
  Variable dest : N.
  Variable canfd : bool.
  Variables turns fuel : nat.

  (** get_nodeinfo.py 30-38: turn [k] of the loop; with a call of [request],
      how often the clock has been read before. What is raised is printed.
      Simplifications: printing is left out, and running out of [turns] or
      [fuel] in [spin] is taken for an exception. The argument [timeout_sec]
      of the message is an attribute that nothing reads. *)
  Definition poll_turn (k : nat) (s : node) : node * list nat :=
    match spin clk beh drv status status_dt types second (receive k) turns fuel s (Some period) with
    | (s, _, Err _) => (s, [])
    | (s, _, Ok _) =>
        if period <? wall k - last
        then (fst (request clk drv second s dt v dest None None (Some canfd)), [n_reads s])
        else (s, [])
    end.
  (** The first [n] turns from [k] on. *)
  Fixpoint poll_loop (n k : nat) (s : node) : node * list nat :=
    match n with
    | O => (s, [])
    | S n =>
        let '(s, l) := poll_turn k s in
        let '(s, l') := poll_loop n (S k) s in (s, l ++ l')
    end.
End NodePoll.

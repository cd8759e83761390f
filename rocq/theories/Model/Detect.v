(** examples/esc_enumeration.py: [detect_esc_nodes]. *)
From Verif.Base Require Import Prelude Bits.
From Verif.Model Require Import Types Codec MsgId Frames TransferManager Sched Node.
Local Open Scope Z_scope.

(** 21: what [esc_nodes.add] of handler [i] is called with. A set: only what it
    contains counts. *)
Definition noticed (i : nat) (l : list nobs) : list (option N) :=
  flat_map (fun o => match o with
                     | OHandled hd t => if Nat.eqb (hd_id hd) i then [h_source (rx_header t)] else []
                     | _ => []
                     end) l.

Section Detect.
  (** As in Model/Node. *)
  Variable clk : nat -> Z.
  Variable beh : list nobs -> list (nop * bool) * outcome.
  Variable drv : list nobs -> list frame -> option exn.
  Variable status : list nobs -> value.
  Variable status_dt : datatype.
  Variable types : datatypes.
  Variable second : Z.
  Variable receive : list nobs -> nat -> Z -> res (option (bool * frame)).
  Variables turns fuel : nat.

  (** 19-27, for the type [esc] and the timeout [t] (three seconds). What
      [remove] raises replaces what [spin] raised. *)
  Definition detect (esc : typeid) (t : Z) (s : node) : node * res (list (option N)) :=
    let i := n_hds s in
    let s := fst (apply_nop clk drv second s (NAddHandler (Some esc) false)) in
    let '(s', _, r) := spin clk beh drv status status_dt types second receive turns fuel s (Some t) in
    let '(s'', e) := apply_nop clk drv second s' (NRemoveHandler i) in
    (s'', match e, r with
          | Some x, _ => Err x
          | None, Err x => Err x
          | None, Ok _ => Ok (noticed i (skipn (length (n_log s)) (n_log s')))
          end).
End Detect.

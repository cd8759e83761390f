(** What the scheduler promises, in terms of what happened: creations, runs
    and cancellations of tasks. *)
From Verif.Base Require Import Prelude.
From Verif.Model Require Import Sched.
Local Open Scope Z_scope.

(** The runs of a task: when each was due and what the clock showed. *)
Fixpoint runs (h : nat) (l : list obs) : list (Z * Z) :=
  match l with
  | [] => []
  | ORun h' due _ _ now :: l' => if Nat.eqb h' h then (due, now) :: runs h l' else runs h l'
  | _ :: l' => runs h l'
  end.

(** The clock never goes back. *)
Definition monotone (clk : nat -> Z) : Prop := forall i j, (i <= j)%nat -> clk i <= clk j.

(** Delays are not negative and periods are positive. *)
Definition sane_op (op : uop) : Prop :=
  match op with Defer d => 0 <= d | Periodic p => 0 < p | _ => True end.
Definition sane_hop (o : hop) : Prop := match o with HUser op => sane_op op | _ => True end.

(** The order in which due tasks run: by due time, then priority, then the
    order in which they were put into the queue. *)
Record run_key := RunKey { rk_due : Z; rk_prio : Z; rk_seq : nat; rk_task : nat }.
Definition before (a b : run_key) : Prop :=
  rk_due a < rk_due b \/
  rk_due a = rk_due b /\
  (rk_prio a < rk_prio b \/ rk_prio a = rk_prio b /\ (rk_seq a < rk_seq b)%nat).
Fixpoint run_keys (l : list obs) : list run_key :=
  match l with
  | [] => []
  | ORun h due prio seq _ :: l' => RunKey due prio seq h :: run_keys l'
  | _ :: l' => run_keys l'
  end.

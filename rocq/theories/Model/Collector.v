(** dronecan/app/message_collector.py: [MessageCollector].
    Simplification: a message is a number, a key is a number ([_key_function]
    has been applied and returned). *)
From Verif.Base Require Import Prelude.
Local Open Scope Z_scope.

(** The storage: key to time stamp and message. *)
Definition storage := list (N * (Z * N)).

Section Collector.
  Variable timeout : option Z.

  (** 47: a message. *)
  Definition receive (s : storage) (k : N) (ts : Z) (m : N) : storage := dset N.eqb s k (ts, m).

  (** 55-59: [__getitem__]; [now] is the reading of the clock, if there is a
      timeout. *)
  Definition getitem (s : storage) (k : N) (now : Z) : storage * res N :=
    let s' := match timeout, dget N.eqb s k with
              | Some t, Some (ts, _) => if ts + t <? now then ddel N.eqb s k else s
              | _, _ => s
              end in
    (s', match dget N.eqb s' k with Some (_, m) => Ok m | None => Err KeyError end).

  (** 61-67: [__iter__]; the clock is read for each key. *)
  Definition iterate (s : storage) (now : N -> Z) : storage * list N :=
    let s' := fold_left (fun s k => fst (getitem s k (now k))) (map fst s) s in (s', map fst s').

  (** 69-70: [__len__]. *)
  Definition size (s : storage) : nat := length s.

  Inductive cevent :=
  | CReceive (k : N) (ts : Z) (m : N)
  | CGet (k : N) (now : Z)
  | CIter (now : N -> Z).
  Definition cstep (s : storage) (e : cevent) : storage :=
    match e with
    | CReceive k ts m => receive s k ts m
    | CGet k now => fst (getitem s k now)
    | CIter now => fst (iterate s now)
    end.
  Definition collected_by (evs : list cevent) : storage := fold_left cstep evs [].
End Collector.

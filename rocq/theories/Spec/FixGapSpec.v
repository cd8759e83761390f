(** What the gap detector promises. *)
From Verif.Base Require Import Prelude.
From Verif.Model Require Import FixGap.
Local Open Scope Z_scope.

Definition wanted (only : option N) (m : fix2) : bool := match only with Some n => N.eqb (f_node m) n | None => true end.
(** The times of the fixes of one node. *)
Definition times_of (n : N) (ms : list fix2) : list Z := map f_ts (filter (fun m => N.eqb (f_node m) n) ms).
(** The differences between neighbours. *)
Fixpoint steps (l : list Z) : list Z :=
  match l with
  | a :: (b :: _) as l' => (b - a) :: steps l'
  | _ => []
  end.
(** The average interval after the fixes at these times. *)
Definition average {F} (fifth : F) (smooth : F -> Z -> F) (l : list Z) : F := fold_left smooth (steps l) fifth.
(** The lines: one for each fix that comes more than the threshold after the
    one before it of the same node; [past] are the fixes before. *)
Fixpoint lines_due {F} (fifth : F) (smooth : F -> Z -> F) (threshold : Z) (past ms : list fix2) : list (N * Z * F) :=
  match ms with
  | [] => []
  | m :: ms' =>
      let ts := times_of (f_node m) past in
      (if negb (Nat.eqb (length ts) 0) && (threshold <? f_ts m - last ts 0)
       then [(f_node m, f_ts m - last ts 0, average fifth smooth (ts ++ [f_ts m]))] else [])
      ++ lines_due fifth smooth threshold (past ++ [m]) ms'
  end.
(** The times of each node do not go back, and positive averages stay so. *)
Definition steady (ms : list fix2) : Prop := forall n, Forall (fun d => 0 <= d) (steps (times_of n ms)).
Definition positive_average {F} (fifth : F) (smooth : F -> Z -> F) (is_zero : F -> bool) : Prop :=
  exists pos : F -> Prop, pos fifth /\ (forall f d, pos f -> 0 <= d -> pos (smooth f d)) /\ (forall f, pos f -> is_zero f = false).

(** What giving indices to motor controllers promises. *)
From Coq Require Export Permutation.
From Verif.Base Require Import Prelude.
From Verif.Model Require Import EscEnum.
Local Open Scope nat_scope.

(** What is asked of a node to give it index [k], and what it confirms. *)
Definition round_asked (k : Z) (n : N) (name : pname) : list entry := [AskBegin n 0; AskSet n name k; AskSave n].
Definition round_told (k : Z) (n : N) (name : pname) : list entry := [Begun n; SetTo n name k; Saved n].
(** The same for nodes that get the indices from [k] on. *)
Fixpoint rounds (f : Z -> N -> pname -> list entry) (k : Z) (ns : list (N * pname)) : list entry :=
  match ns with
  | [] => []
  | (n, name) :: ns => f k n name ++ rounds f (k + 1)%Z ns
  end.

(** The requests and the confirmations of a history. *)
Definition is_ask (l : entry) : bool := match l with AskBegin _ _ | AskSet _ _ _ | AskSave _ => true | _ => false end.
Definition asked (log : list entry) := filter is_ask log.
Definition told (log : list entry) := filter (fun l => negb (is_ask l)) log.
(** The nodes asked to take an index, and the indices. *)
Definition indices (log : list entry) : list (N * Z) :=
  flat_map (fun l => match l with AskSet n _ v => [(n, v)] | _ => [] end) log.
(** What happened in the calls of [spin]. *)
Definition happened (spins : list (list happening * Z)) : list happening := flat_map fst spins.
Definition over (s : enum) : Prop := match e_place s with Returned | Raised _ => True | _ => False end.

(** Nodes that do as they are asked: answers to all begin requests, then for
    each node of [ns] in turn its indication and its three answers. *)
Definition fine : reply := Reply true [] 0.
Definition polite_round (t : Z) (k : Z) (n : N) (name : pname) : list (list happening * Z) :=
  [([Indicated n name], t); ([Answered 0 (Some fine)], t); ([Answered 0 (Some (Reply true name k))], t); ([Answered 0 (Some fine)], t)].
Fixpoint polite_rounds (t : Z) (k : Z) (ns : list (N * pname)) : list (list happening * Z) :=
  match ns with
  | [] => []
  | (n, name) :: ns => polite_round t k n name ++ polite_rounds t (k + 1)%Z ns
  end.
Definition polite (t : Z) (esc : list N) (ns : list (N * pname)) : list (list happening * Z) :=
  map (fun _ => ([Answered 0 (Some fine)], t)) esc ++ polite_rounds t 0 ns.

(** What reading a file and serving a directory mean. *)
From Verif.Base Require Import Prelude.
From Verif.Model Require Import FileServer.
Local Open Scope N_scope.

(** A client that reads chunk after chunk until one is short. [None]: an error
    response, or out of patience. *)
Fixpoint fetch (patience : nat) (read : N -> option (list N)) (n : nat) (offset : N) : option (list N) :=
  match patience with
  | O => None
  | S k => match read offset with
           | None => None
           | Some chunk => if Nat.ltb (length chunk) n then Some chunk
                           else option_map (app chunk) (fetch k read n (offset + N.of_nat n))
           end
  end.

(** Where a path leads, component by component, from the root: ".." leads up,
    and stays at the root. *)
Definition walk (here : list str) (c : str) : list str :=
  if str_eqb c [] || str_eqb c [dot] then here
  else if str_eqb c [dot; dot] then removelast here else here ++ [c].
Definition place (s : str) : list str := fold_left walk (split_slash s) [].

(** A relative path never leads above where it starts. *)
Fixpoint never_above (depth : nat) (l : list str) : bool :=
  match l with
  | [] => true
  | c :: l' => if str_eqb c [] || str_eqb c [dot] then never_above depth l'
               else if str_eqb c [dot; dot] then
                 match depth with O => false | S d => never_above d l' end
               else never_above (S depth) l'
  end.
Definition relative (s : str) : bool := match s with c :: _ => negb (c =? slash) | [] => true end.

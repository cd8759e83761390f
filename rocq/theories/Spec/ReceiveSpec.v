(** What user code sees of messages. *)
From Coq Require Import String.
From Verif.Base Require Import Prelude Bits.
From Verif.Model Require Import Types Codec ObjectApi ObjectUnpack.
From Verif.Spec Require Import ObjectSpec SendableSpec.
Open Scope list_scope.

(** No two fields of a compound type have the same name (the parser sees to
    that, C59). *)
Fixpoint distinct_names (t : atype) : Prop :=
  match t with
  | APrim _ _ _ | AVoid _ => True
  | AArr _ et _ => distinct_names et
  | AComp _ _ fs _ => NoDup (map fst fs) /\ fold_right (fun f acc => distinct_names (snd f) /\ acc) True fs
  end.

(** A walk into a message: attributes and items, as in [m.points[2].x]. *)
Inductive access := Attr (nm : string) | Item (i : Z).

(** What is found at its end: a number (or other value), a list of some
    length with what [decode] gives for it, or an object of some type. *)
Inductive sight := Number (v : pyval) | List_of (n : nat) (text : res (list N)) | Object_of (nm : string) | Nothing.

(** Reading along the path with the operations of the API, from the value
    [v]; an exception ends it. *)
Fixpoint view (h : heap) (v : pyval) (path : list access) : res sight :=
  match path with
  | [] =>
      Ok (match v with
          | PRef a =>
              match nth_error h a with
              | Some (CArr _ _ _ items) => List_of (List.length items) (arr_decode h a)
              | Some (CComp nm _ _ _ _ _ _) => Object_of nm
              | _ => Nothing
              end
          | _ => Number v
          end)
  | Attr nm :: path' =>
      match v with
      | PRef a =>
          match step h (OGet a nm) with
          | (Ok w, h') => view h' w path'
          | (Err e, _) => Err e
          end
      | _ => Err AttributeError
      end
  | Item i :: path' =>
      match v with
      | PRef a =>
          match step h (OGetItem a i) with
          | (Ok w, h') => view h' w path'
          | (Err e, _) => Err e
          end
      | _ => Err TypeError
      end
  end.

(** Every attribute of the path is a field or a constant of the type that has
    it, or the path is in vain from there on because the type does not have
    such things. Attributes that a program adds to an object are not part of
    the message. *)
Fixpoint declared (t : atype) (path : list access) {struct path} : Prop :=
  match path with
  | [] => True
  | Attr nm :: path' =>
      match t with
      | AComp _ _ fs cs =>
          In nm (map fst cs) \/
          exists i ft, find_field fs nm = Some (i, ft) /\ declared ft path'
      | _ => True
      end
  | Item _ :: path' =>
      match t with
      | AArr _ et _ => declared et path'
      | _ => True
      end
  end.

(** Every union in the message has a field selected; fields that are not
    selected do not count. *)
Fixpoint zip_all {A} (ps : list (A -> Prop)) (l : list A) : Prop :=
  match ps, l with
  | [], [] => True
  | p :: ps', x :: l' => p x /\ zip_all ps' l'
  | _, _ => False
  end.
Fixpoint selected (t : dtype) (v : value) : Prop :=
  match t with
  | TPrim _ _ _ | TVoid _ => True
  | TArr _ et _ => match v with VArr items => Forall (selected et) items | _ => False end
  | TComp u fs =>
      let ps := map selected fs in
      match v with
      | VComp vs active =>
          if u then exists i p w, active = Some i /\ nth_error ps i = Some p /\ nth_error vs i = Some w /\ p w
          else zip_all ps vs
      | _ => False
      end
  end.

(** What happens to the objects of a program: it does something, or messages
    arrive for it. *)
Inductive happening := Did (o : op) | Arrived (t : atype) (tao : bool) (s : bits).
Definition happen (h : heap) (e : happening) : heap :=
  match e with
  | Did o => snd (step h o)
  | Arrived t tao s => snd (receive h t tao s)
  end.
Definition history (es : list happening) : heap := fold_left happen es [].
Definition typed_happening (env : catalogue) (e : happening) : Prop :=
  match e with
  | Did o => typed_op env o
  | Arrived t _ _ => known env t
  end.

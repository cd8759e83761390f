(** Comparing message objects with [==] (dronecan/transport.py 385-389, and
    what Python does around it). Only arrays define [__eq__]; compound and void
    objects are compared by identity. [PList] stands for a Python list here. *)
From Coq Require Import String.
From Verif.Base Require Import Prelude Bits.
From Verif.Model Require Import BitCodec Types Codec Prim Float Utf8 ObjectApi.
Open Scope list_scope.

(** Numbers compare by value; NaN is equal to nothing. *)
Definition fin_eq (s1 : bool) (m1 e1 : Z) (s2 : bool) (m2 e2 : Z) : bool :=
  let v (s : bool) m := if s then (- m)%Z else m in
  let e := Z.min e1 e2 in
  (v s1 m1 * 2 ^ (e1 - e) =? v s2 m2 * 2 ^ (e2 - e))%Z.
Definition float_eq (x y : pyfloat) : bool :=
  match x, y with
  | FInf a, FInf b => Bool.eqb a b
  | FFin s1 m1 e1, FFin s2 m2 e2 => fin_eq s1 m1 e1 s2 m2 e2
  | _, _ => false
  end.
Definition int_float (z : Z) : pyfloat := FFin (z <? 0)%Z (Z.abs z) 0.

Fixpoint str_eq (s t : list N) : bool :=
  match s, t with
  | [], [] => true
  | x :: s', y :: t' => N.eqb x y && str_eq s' t'
  | _, _ => false
  end.

(** Comparison of lists: different lengths decide at once, then the items up
    to the first difference, the same object being equal to itself. Numbers
    read from a message are new objects every time. *)
Definition same_object (x y : pyval) : bool :=
  match x, y with PRef a, PRef b => Nat.eqb a b | PNone, PNone => true | _, _ => false end.
Fixpoint items_eq (eq : pyval -> pyval -> res bool) (xs ys : list pyval) : res bool :=
  match xs, ys with
  | x :: xs', y :: ys' =>
      if same_object x y then items_eq eq xs' ys'
      else b <- eq x y ;; if b then items_eq eq xs' ys' else Ok false
  | _, _ => Ok true
  end.
Definition lists_eq (eq : pyval -> pyval -> res bool) (xs ys : list pyval) : res bool :=
  if Nat.eqb (List.length xs) (List.length ys) then items_eq eq xs ys else Ok false.

Definition is_array (h : heap) (a : addr) : bool :=
  match nth_error h a with Some (CArr _ _ _ _) => true | _ => false end.

(** transport.py 385-389: [x == y]. Python asks [x] first and then [y]; [list.__eq__] and the other
    built in ones only know their own kind. Two arrays: [list(x) == y] asks
    [y], which makes it [list(y) == list(x)]. Exhausted fuel is
    [RuntimeError], as Python's [RecursionError] is. *)
Fixpoint py_eq (fuel : nat) (h : heap) (x y : pyval) : res bool :=
  match fuel with
  | O => Err RuntimeError
  | S fuel' =>
      let arr_eq a other :=
        match other with
        | PStr s => t <- arr_decode h a ;; Ok (str_eq t s)
        | _ =>
            vs <- iterate h (PRef a) ;;
            match other with
            | PList ws => lists_eq (py_eq fuel' h) vs ws
            | PRef b => if is_array h b
                        then ws <- iterate h (PRef b) ;; lists_eq (py_eq fuel' h) ws vs
                        else Ok false
            | _ => Ok false
            end
        end in
      match x, y with
      | PRef a, _ => if is_array h a then arr_eq a y
                     else match y with
                          | PRef b => if is_array h b then arr_eq b x else Ok (Nat.eqb a b)
                          | _ => Ok false
                          end
      | _, PRef b => if is_array h b then arr_eq b x else Ok false
      | PNone, PNone => Ok true
      | PInt i, PInt j => Ok (i =? j)%Z
      | PInt i, PFloat g => Ok (float_eq (int_float i) g)
      | PFloat f, PInt j => Ok (float_eq f (int_float j))
      | PFloat f, PFloat g => Ok (float_eq f g)
      | PStr s, PStr t => Ok (str_eq s t)
      | PList xs, PList ys => lists_eq (py_eq fuel' h) xs ys
      | _, _ => Ok false
      end
  end.

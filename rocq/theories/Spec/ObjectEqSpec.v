(** What the properties of comparing message objects mean. *)
From Coq Require Import QArith String.
From Verif.Base Require Import Prelude Bits.
From Verif.Model Require Import Codec Float ObjectApi.

(** An item that was set: [n] bits. *)
Definition full (n : nat) (s : slot) : Prop := exists b, s = SPrim b /\ List.length b = n.

(** The items of an array. *)
Definition items_of (h : heap) (a : addr) : option (list slot) :=
  match nth_error h a with Some (CArr _ _ _ items) => Some items | _ => None end.

(** The numbers that values are; NaN is none. *)
Inductive amount := Finite (q : Q) | Infinite (negative : bool).
Definition amount_of (v : pyval) : option amount :=
  match v with
  | PInt z => Some (Finite (inject_Z z))
  | PFloat (FFin s m e) => Some (Finite ((if s then - inject_Z m else inject_Z m) * 2 ^ e)%Q)
  | PFloat (FInf s) => Some (Infinite s)
  | _ => None
  end.
Definition same_amount (x y : amount) : Prop :=
  match x, y with
  | Finite p, Finite q => (p == q)%Q
  | Infinite a, Infinite b => a = b
  | _, _ => False
  end.
Definition same_number (v w : pyval) : Prop :=
  exists x y, amount_of v = Some x /\ amount_of w = Some y /\ same_amount x y.
(** What fields of primitive types read as. *)
Definition numeric (v : pyval) : Prop := match v with PInt _ | PFloat _ => True | _ => False end.

(** Messages made with keyword arguments. *)
From Coq Require Import String.
From Verif.Base Require Import Prelude.
From Verif.Model Require Import Types ObjectApi.
From Verif.Spec Require Import PrimSpec.
Open Scope list_scope.

Definition underscored (nm : string) : Prop := exists r, nm = ("_" ++ r)%string.

(** One assignment after the other, all accepted, takes the heap from the
    first to the second. *)
Inductive assigned (a : addr) : heap -> list (string * pyval) -> heap -> Prop :=
| Assigned_none h : assigned a h [] h
| Assigned_one h nm v w h1 kw h2 : ~ underscored nm -> step h (OSet a nm v) = (Ok w, h1) ->
    assigned a h1 kw h2 -> assigned a h ((nm, v) :: kw) h2.

(** The argument is an integer for an integer field that can hold it. *)
Definition integer_for (fs : list (string * atype)) (cs : list (string * Z)) (e : string * pyval) : Prop :=
  ~ underscored (fst e) /\ ~ In (fst e) (map fst cs) /\
  exists i k n cm z, find_field fs (fst e) = Some (i, APrim k n cm) /\ int_type k n /\ representable k n z /\ snd e = PInt z.

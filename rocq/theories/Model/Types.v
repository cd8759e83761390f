(** DSDL type descriptions as the codec uses them (dronecan/dsdl/parser.py). *)
From Verif.Base Require Import Prelude Bits.

(** parser.py 82-88: [PrimitiveType] kinds and cast modes. *)
Inductive kind := KBool | KUint | KInt | KFloat.
Inductive cast_mode := Saturated | Truncated.

(** parser.py 74-349: [PrimitiveType], [VoidType], [ArrayType],
    [CompoundType]. Simplifications: a compound type is one section (the
    message fields, or the request or response fields of a service);
    attribute names are dropped because the parser makes them unique, so that
    the ordered dictionary of fields by name is a list by position. *)
Inductive dtype : Type :=
| TPrim (k : kind) (bitlen : nat) (cm : cast_mode)
| TVoid (bitlen : nat)
| TArr (dynamic : bool) (elem : dtype) (max_size : nat)
| TComp (union : bool) (fields : list dtype).

(** Python [int.bit_length()]. *)
Definition bit_length (n : nat) : nat := N.to_nat (N.size (N.of_nat n)).

Definition list_max1 (l : list nat) : nat := fold_right Nat.max 0 l.
(** [min(lens)] of a non-empty list. *)
Definition list_min1 (l : list nat) : nat :=
  match l with [] => 0 | x :: l' => fold_right Nat.min x l' end.

(** parser.py 123-129 (primitive), 154-160 (array), 224-231
    ([compute_max_bitlen]), 342-349 (void). *)
Fixpoint get_max_bitlen (t : dtype) : nat :=
  match t with
  | TPrim _ n _ => n
  | TVoid n => n
  | TArr dyn et mx =>
      if dyn then mx * get_max_bitlen et + bit_length mx
      else mx * get_max_bitlen et
  | TComp u fs =>
      if Nat.eqb (length fs) 0 then 0
      else
        let lens := map get_max_bitlen fs in
        if u then list_max1 lens + bit_length (Nat.max (length fs - 1) 1)
        else list_sum lens
  end.

(** parser.py 127-129, 162-166, 233-240, 347-349. *)
Fixpoint get_min_bitlen (t : dtype) : nat :=
  match t with
  | TPrim _ n _ => n
  | TVoid n => n
  | TArr dyn et mx => if dyn then 0 else get_min_bitlen et * mx
  | TComp u fs =>
      if Nat.eqb (length fs) 0 then 0
      else
        let lens := map get_min_bitlen fs in
        if u then list_min1 lens + bit_length (Nat.max (length fs - 1) 1)
        else list_sum lens
  end.

(** Induction principle with the hypothesis for all fields. *)
Lemma dtype_ind' (P : dtype -> Prop) :
  (forall k n cm, P (TPrim k n cm)) ->
  (forall n, P (TVoid n)) ->
  (forall dyn et mx, P et -> P (TArr dyn et mx)) ->
  (forall u fs, Forall P fs -> P (TComp u fs)) ->
  forall t, P t.
Proof.
  intros Hp Hv Ha Hc. fix IH 1. intros [k n cm|n|dyn et mx|u fs].
  - apply Hp.
  - apply Hv.
  - apply Ha, IH.
  - apply Hc. induction fs as [|f fs IHfs]; constructor; [apply IH|apply IHfs].
Qed.

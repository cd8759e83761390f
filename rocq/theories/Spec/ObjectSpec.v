(** What the properties of message objects mean. *)
From Coq Require Import String.
From Verif.Base Require Import Prelude Bits.
From Verif.Model Require Import Types Codec ObjectApi.
From Verif.Spec Require Import PrimSpec CodecSpec.
Open Scope list_scope.

(** No array holds more items than its type allows. *)
Definition sizes_within (h : heap) : Prop :=
  forall a dyn et mx items,
    nth_error h a = Some (CArr dyn et mx items) -> length items <= mx.

(** The array at [a] reads, item by item, as the list [vs]; negative indices
    count from the end. *)
Definition reads_as (h : heap) (a : addr) (vs : list pyval) : Prop :=
  arr_len h a = Ok (length vs) /\
  forall i : Z, arr_getitem h a i =
    let n := Z.of_nat (length vs) in
    if (- n <=? i)%Z && (i <? n)%Z then Ok (nth (Z.to_nat (i mod n)) vs PNone)
    else Err IndexError.

(** [list.insert] and item replacement and deletion. *)
Definition py_insert (i : Z) (v : pyval) (l : list pyval) : list pyval :=
  let n := Z.of_nat (length l) in
  let p := Z.to_nat (if (i <? 0)%Z then Z.max 0 (i + n) else Z.min i n) in
  firstn p l ++ [v] ++ skipn p l.
Definition py_replace (i : Z) (v : pyval) (l : list pyval) : list pyval :=
  let p := Z.to_nat (i mod Z.of_nat (length l)) in
  firstn p l ++ [v] ++ skipn (S p) l.
Definition py_delete (i : Z) (l : list pyval) : list pyval :=
  let p := Z.to_nat (i mod Z.of_nat (length l)) in
  firstn p l ++ skipn (S p) l.
(** [del l[lo:hi]]: the items from [lo] to before [hi] go. *)
Definition py_bound (l : list pyval) (i : Z) : nat :=
  let n := Z.of_nat (length l) in
  Z.to_nat (if (i <? 0)%Z then Z.max 0 (i + n) else Z.min i n).
Definition py_delete_slice (lo hi : option Z) (l : list pyval) : list pyval :=
  let s := match lo with Some i => py_bound l i | None => 0 end in
  let e := match hi with Some i => py_bound l i | None => length l end in
  if s <=? e then firstn s l ++ skipn e l else l.
Definition in_bounds (i : Z) (l : list pyval) : Prop :=
  (- Z.of_nat (length l) <= i < Z.of_nat (length l))%Z.

(** Values that an array of element type [et] keeps as they are: integers in
    range, and any object if the elements are not primitive. *)
Definition keeps (et : atype) (v : pyval) : Prop :=
  match et with
  | APrim k n _ => int_type k n /\ exists z, v = PInt z /\ representable k n z
  | _ => True
  end.

(** [a] is an array object with the given element type and capacity. *)
Definition array_at (h : heap) (a : addr) (et : atype) (mx : nat) : Prop :=
  exists dyn items, nth_error h a = Some (CArr dyn et mx items).

(** [a] is an object of the compound type [t] with this field active. *)
Definition object_at (h : heap) (a : addr) (t : atype) (active : option string) : Prop :=
  match t with
  | AComp nm u fs cs =>
      exists d extra, nth_error h a = Some (CComp nm u fs cs d active extra)
  | _ => False
  end.

(** The array behind an array field. *)
Definition field_array (h : heap) (a : addr) (nm : string) (b : addr) : Prop :=
  exists full u fs cs d active extra i dyn et mx slots,
    nth_error h a = Some (CComp full u fs cs d active extra) /\
    dget String.eqb cs nm = None /\
    find_field fs nm = Some (i, AArr dyn et mx) /\
    nth_error h d = Some (CDict slots) /\
    nth_error slots i = Some (SObj (PRef b)).

(** Iterating over [v] yields the list [vs]: it is that list, or an array
    that reads as that list. *)
Definition yields (h : heap) (v : pyval) (vs : list pyval) : Prop :=
  v = PList vs \/ exists c et mx, v = PRef c /\ array_at h c et mx /\ reads_as h c vs.

(** Text: Unicode scalar values, and the size of its UTF-8 form. *)
Definition scalar (c : N) : Prop := (c < 0xD800 \/ 0xDFFF < c < 0x110000)%N.
Definition utf8_size (s : list N) : nat :=
  list_sum (map (fun c => if (c <? 0x80)%N then 1 else if (c <? 0x800)%N then 2
                          else if (c <? 0x10000)%N then 3 else 4) s).

(** The single-element operations. *)
Definition element_op (o : op) : bool :=
  match o with
  | OGetItem _ _ | OSetItem _ _ _ | ODel _ _ | OInsert _ _ _ | OAppend _ _ | OPop _ _ => true
  | _ => false
  end.

(** ** The whole content of an object *)

Fixpoint all_some {A} (l : list (option A)) : option (list A) :=
  match l with
  | [] => Some []
  | Some x :: l' => match all_some l' with Some xs => Some (x :: xs) | None => None end
  | None :: _ => None
  end.
Fixpoint zip_some {A B} (fs : list (A -> option B)) (l : list A) : option (list B) :=
  match fs, l with
  | [], [] => Some []
  | f :: fs', x :: l' =>
      match f x, zip_some fs' l' with Some y, Some ys => Some (y :: ys) | _, _ => None end
  | _, _ => None
  end.

(** The position of the active field. *)
Definition active_index (fs : list (string * atype)) (active : option string) : option nat :=
  match active with
  | Some f => match find_field fs f with Some (i, _) => Some i | None => None end
  | None => None
  end.

(** The active field, if there is one, is a field of the type. *)
Definition active_known (fs : list (string * atype)) (active : option string) : bool :=
  match active with
  | Some f => match find_field fs f with Some _ => true | None => false end
  | None => true
  end.

(** The tree of values ([Model/Codec.value]) that an object of type [t]
    stands for; it is what serialisation works on. [None] if an object of
    another kind was put into an array, or the union was switched to a field
    that it does not have. *)
Fixpoint reify (h : heap) (t : atype) (s : slot) {struct t} : option value :=
  match t with
  | APrim _ _ _ => match s with SPrim b => Some (VPrim b) | _ => None end
  | AVoid _ => match s with SVoid => Some VVoid | _ => None end
  | AArr _ et _ =>
      match s with
      | SObj (PRef a) =>
          match nth_error h a with
          | Some (CArr _ _ _ items) =>
              match all_some (map (reify h et) items) with
              | Some vs => Some (VArr vs)
              | None => None
              end
          | _ => None
          end
      | _ => None
      end
  | AComp nm _ fs _ =>
      let rs := map (fun f => reify h (snd f)) fs in
      match s with
      | SObj (PRef a) =>
          match nth_error h a with
          | Some (CComp nm' _ _ _ d active _) =>
              if String.eqb nm nm' && active_known fs active then
                match nth_error h d with
                | Some (CDict slots) =>
                    match zip_some rs slots with
                    | Some vs => Some (VComp vs (active_index fs active))
                    | None => None
                    end
                | _ => None
                end
              else None
          | _ => None
          end
      | _ => None
      end
  end.

(** ** Which objects something refers to *)

Fixpoint val_refs (ok : addr -> Prop) (v : pyval) : Prop :=
  match v with
  | PRef a => ok a
  | PList l => fold_right (fun x acc => val_refs ok x /\ acc) True l
  | _ => True
  end.
Definition slot_refs (ok : addr -> Prop) (s : slot) : Prop :=
  match s with SObj v => val_refs ok v | _ => True end.
Definition cell_refs (ok : addr -> Prop) (c : cell) : Prop :=
  match c with
  | CArr _ _ _ items => Forall (slot_refs ok) items
  | CDict slots => Forall (slot_refs ok) slots
  | CComp _ _ _ _ d _ extra => ok d /\ Forall (fun e => val_refs ok (snd e)) extra
  end.
Definition op_refs (ok : addr -> Prop) (o : op) : Prop :=
  match o with
  | ONew _ kw => Forall (fun e => val_refs ok (snd e)) kw
  | OGet a _ | OCopy a | ODeep a | OGetItem a _ | ODel a _ | ODelAll a | OPop a _
  | OClear a | OFromBytes a _ | OEncode a _ | ODecode a | ONewItem a
  | ODelSlice a _ _ | OReverse a | OSwitch a _ => ok a
  | OSet a _ v | OSetItem a _ v | OInsert a _ v | OAppend a v | OExtend a v =>
      ok a /\ val_refs ok v
  end.

(** References lead to existing objects. *)
Definition no_dangling (h : heap) : Prop :=
  forall a c, nth_error h a = Some c -> cell_refs (fun r => r < length h) c.

(** A program that only uses objects that exist when it uses them. *)
Fixpoint legal_run (h : heap) (ops : list op) : Prop :=
  match ops with
  | [] => True
  | o :: ops' => op_refs (fun r => r < length h) o /\ legal_run (snd (step h o)) ops'
  end.

(** The program switches the active field of the union [a] by hand. *)
Definition switches (a : addr) (ops : list op) : Prop := exists f, In (OSwitch a f) ops.

(** A program all of whose arguments are outside the set [P]. *)
Definition avoids (P : addr -> Prop) (ops : list op) : Prop :=
  Forall (op_refs (fun r => ~ P r)) ops.

(** The set [P] of objects is apart from the others: references neither leave
    nor enter it. *)
Definition apart (h : heap) (P : addr -> Prop) : Prop :=
  forall a c, nth_error h a = Some c ->
    (P a -> cell_refs P c) /\ (~ P a -> cell_refs (fun r => ~ P r) c).

(** What the field [nm] of the object [a] holds. *)
Definition field_slot (h : heap) (a : addr) (nm : string) : option slot :=
  match nth_error h a with
  | Some (CComp _ _ fs _ d _ _) =>
      match find_field fs nm, nth_error h d with
      | Some (i, _), Some (CDict slots) => nth_error slots i
      | _, _ => None
      end
  | _ => None
  end.

(** The field [nm] of [a] may be used: [a] is no union, or no other field of
    it is active. *)
Definition open_field (h : heap) (a : addr) (nm : string) : Prop :=
  forall full u fs cs d active extra,
    nth_error h a = Some (CComp full u fs cs d active extra) ->
    u = true -> active = None \/ active = Some nm.

(** The field [nm] of [a] is a dynamic array [b] of eight-bit elements. *)
Definition text_field (h : heap) (a : addr) (nm : string) (b : addr) (k : kind) (mx : nat) : Prop :=
  field_array h a nm b /\ open_field h a nm /\
  exists cm items, nth_error h b = Some (CArr true (APrim k 8 cm) mx items).

(** The content of a new object: zeros, no items in dynamic arrays, the first
    field of a union. *)
Fixpoint blank (t : atype) : data :=
  match t with
  | APrim _ n _ => DBits (repeat false n)
  | AVoid _ => DVoid
  | AArr dyn et mx => DList (if dyn then [] else repeat (blank et) mx)
  | AComp _ u fs _ =>
      let all := map (fun f => blank (snd f)) fs in
      if u then DUnion 0 (nth 0 all DNone) else DList all
  end.

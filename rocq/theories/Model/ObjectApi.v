(** Message objects as user code sees them: attribute access, array methods,
    copying (dronecan/transport.py 248-623). Objects that can be shared live
    in a heap. *)
From Coq Require Import String Ascii.
From Verif.Base Require Import Prelude Bits.
From Verif.Model Require Import BitCodec Types Codec Prim Float Utf8.
Open Scope list_scope.

(** Types with the names that attribute access uses (parser.py 74-349).
    The fields of a compound type are listed as [_fields] has them, so a void
    field is called "_void_<idx>" (transport.py 509). Names are unique
    (parser, C59). Values of constants are integers here. *)
Inductive atype : Type :=
| APrim (k : kind) (bitlen : nat) (cm : cast_mode)
| AVoid (bitlen : nat)
| AArr (dyn : bool) (et : atype) (max_size : nat)
| AComp (full_name : string) (union : bool) (fields : list (string * atype))
    (consts : list (string * Z)).

(** The same type without the names. *)
Fixpoint erase (t : atype) : dtype :=
  match t with
  | APrim k n cm => TPrim k n cm
  | AVoid n => TVoid n
  | AArr dyn et mx => TArr dyn (erase et) mx
  | AComp _ u fs _ => TComp u (map (fun f => erase (snd f)) fs)
  end.

Definition addr := nat.

(** Python values handed to and returned by the API. [PVoid] is a [VoidValue]
    object, [PRef] an [ArrayValue] or [CompoundValue]; booleans are 0 and 1;
    [PStr] is a [str] as code points; [PList] any other iterable. *)
Inductive pyval : Type :=
| PNone
| PInt (z : Z)
| PFloat (x : pyfloat)
| PStr (s : list N)
| PList (l : list pyval)
| PVoid
| PRef (a : addr).

(** What a field or an array item holds. Primitive objects are not handed out
    by the API (transport.py 363-367, 558-561), except by slices and
    [get_fields], which are left out; so they are stored in place as their
    [_bits]. *)
Inductive slot : Type :=
| SPrim (b : bits)
| SVoid
| SObj (v : pyval).

(** Heap objects: an [ArrayValue]; the [_fields] dictionary of a compound
    object, which copies share; a [CompoundValue] with its [_union_field] and
    the ordinary attributes that user code added. *)
Inductive cell : Type :=
| CArr (dyn : bool) (et : atype) (mx : nat) (items : list slot)
| CDict (slots : list slot)
| CComp (full_name : string) (union : bool) (fields : list (string * atype))
    (consts : list (string * Z)) (dict : addr) (active : option string)
    (extra : list (string * pyval)).

Definition heap := list cell.

Definition put (h : heap) (a : addr) (c : cell) : heap := list_set h a c.

(** ** Construction: transport.py 276-280, 337-349, 477-519 *)

Fixpoint alloc_n (f : heap -> slot * heap) (n : nat) (h : heap) : list slot * heap :=
  match n with
  | O => ([], h)
  | S n' =>
      let '(s, h1) := f h in
      let '(ss, h2) := alloc_n f n' h1 in (s :: ss, h2)
  end.
Fixpoint alloc_all (fs : list (heap -> slot * heap)) (h : heap) : list slot * heap :=
  match fs with
  | [] => ([], h)
  | f :: fs' =>
      let '(s, h1) := f h in
      let '(ss, h2) := alloc_all fs' h1 in (s :: ss, h2)
  end.

Fixpoint alloc (t : atype) (h : heap) {struct t} : slot * heap :=
  match t with
  | APrim _ n _ => (SPrim (repeat false n), h)
  | AVoid _ => (SVoid, h)
  | AArr dyn et mx =>
      let '(items, h1) := if dyn then ([], h) else alloc_n (alloc et) mx h in
      (SObj (PRef (length h1)), h1 ++ [CArr dyn et mx items])
  | AComp nm u fs cs =>
      let '(slots, h1) := alloc_all (map (fun f => alloc (snd f)) fs) h in
      (SObj (PRef (S (length h1))),
       h1 ++ [CDict slots; CComp nm u fs cs (length h1) None []])
  end.

(** ** Primitive values *)

(** transport.py 285-305: the getter. *)
Definition prim_get (k : kind) (n : nat) (b : bits) : res pyval :=
  match k with
  | KFloat =>
      o <- get_float n b ;;
      Ok (match o with Some x => PFloat x | None => PNone end)
  | _ => Ok (match get_int k n b with Some z => PInt z | None => PNone end)
  end.

(** Truth value of an argument, for boolean fields. *)
Definition truth (h : heap) (v : pyval) : bool :=
  match v with
  | PNone => false
  | PInt z => negb (z =? 0)%Z
  | PFloat (FFin _ m _) => negb (m =? 0)%Z
  | PFloat _ => true
  | PStr s => match s with [] => false | _ => true end
  | PList l => match l with [] => false | _ => true end
  | PVoid => true
  | PRef a =>
      match nth_error h a with
      | Some (CArr _ _ _ items) => match items with [] => false | _ => true end
      | _ => true
      end
  end.

(** transport.py 229-245, 316-323: a float assigned to an integer field. Beyond
    the range of a saturated type it becomes the bound, an integer; otherwise
    [format] with ['b'] raises [ValueError]. Truncation is [&], which floats do
    not have. Python compares integers with floats exactly. *)
Definition set_int_of_float (k : kind) (n : nat) (cm : cast_mode) (x : pyfloat) : res bits :=
  match cm with
  | Saturated =>
      '(lo, hi) <- value_range k n ;;
      if flt (FFin (hi <? 0)%Z (Z.abs hi) 0) x then set_int k n cm hi
      else if flt x (FFin (lo <? 0)%Z (Z.abs lo) 0) then set_int k n cm lo
      else Err ValueError
  | Truncated => Err TypeError
  end.

(** transport.py 307-333: the setter, giving the new [_bits]. Anything but a
    number raises on comparison or formatting. Simplification: an integer
    assigned to a float field is taken as exact. *)
Definition prim_set (h : heap) (k : kind) (n : nat) (cm : cast_mode) (v : pyval) : res bits :=
  match v with
  | PNone => Err ValueError
  | _ =>
      match k with
      | KBool => Ok [truth h v]
      | KUint | KInt =>
          match v with
          | PInt z => set_int k n cm z
          | PFloat x => set_int_of_float k n cm x
          | _ => Err TypeError
          end
      | KFloat =>
          match v with
          | PInt z => set_float n cm (FFin (z <? 0)%Z (Z.abs z) 0)
          | PFloat x => set_float n cm x
          | _ => Err TypeError
          end
      end
  end.

(** ** Array methods *)

(** Index of a Python list. *)
Definition norm_index (len : nat) (idx : Z) : option nat :=
  let i := if (idx <? 0)%Z then (idx + Z.of_nat len)%Z else idx in
  if (0 <=? i)%Z && (i <? Z.of_nat len)%Z then Some (Z.to_nat i) else None.

(** Position at which [list.insert] inserts. *)
Definition insert_index (len : nat) (idx : Z) : nat :=
  let i := if (idx <? 0)%Z then (idx + Z.of_nat len)%Z else idx in
  Z.to_nat (Z.min (Z.max i 0) (Z.of_nat len)).

Definition list_insert {A} (i : nat) (x : A) (l : list A) : list A :=
  firstn i l ++ x :: skipn i l.
Definition list_remove {A} (i : nat) (l : list A) : list A :=
  firstn i l ++ skipn (S i) l.

(** transport.py 363-367: what an item reads as. *)
Definition item_value (et : atype) (s : slot) : res pyval :=
  match s with
  | SPrim [] => Ok (PInt 0)
  | SPrim b => match et with APrim k n _ => prim_get k n b | _ => Err TypeError end
  | SVoid => Ok PVoid
  | SObj v => Ok v
  end.

(** transport.py 380-381: [__len__]. *)
Definition arr_len (h : heap) (a : addr) : res nat :=
  match nth_error h a with
  | Some (CArr dyn et mx items) => Ok (length items)
  | _ => Err TypeError
  end.

(** transport.py 363-367: [__getitem__] with an integer. *)
Definition arr_getitem (h : heap) (a : addr) (idx : Z) : res pyval :=
  match nth_error h a with
  | Some (CArr dyn et mx items) =>
      match norm_index (length items) idx with
      | Some i =>
          match nth_error items i with
          | Some s => item_value et s
          | None => Err IndexError
          end
      | None => Err IndexError
      end
  | _ => Err TypeError
  end.

(** transport.py 369-375: [__setitem__] with an integer. *)
Definition arr_setitem (h : heap) (a : addr) (idx : Z) (v : pyval) : res pyval * heap :=
  match nth_error h a with
  | Some (CArr dyn et mx items) =>
      if (Z.of_nat mx <=? idx)%Z then (Err IndexError, h)
      else
        match norm_index (length items) idx with
        | None => (Err IndexError, h)
        | Some i =>
            match et with
            | APrim k n cm =>
                match prim_set h k n cm v with
                | Ok b => (Ok PNone, put h a (CArr dyn et mx (list_set items i (SPrim b))))
                | Err e => (Err e, h)
                end
            | _ => (Ok PNone, put h a (CArr dyn et mx (list_set items i (SObj v))))
            end
        end
  | _ => (Err TypeError, h)
  end.

(** transport.py 377-378: [__delitem__] with an integer. *)
Definition arr_delitem (h : heap) (a : addr) (idx : Z) : res pyval * heap :=
  match nth_error h a with
  | Some (CArr dyn et mx items) =>
      match norm_index (length items) idx with
      | None => (Err IndexError, h)
      | Some i => (Ok PNone, put h a (CArr dyn et mx (list_remove i items)))
      end
  | _ => (Err TypeError, h)
  end.

(** [del self[:]]. *)
Definition arr_delall (h : heap) (a : addr) : res pyval * heap :=
  match nth_error h a with
  | Some (CArr dyn et mx items) => (Ok PNone, put h a (CArr dyn et mx []))
  | _ => (Err TypeError, h)
  end.

(** Bounds of a slice of a Python list: [None] is a missing bound, negative
    ones count from the end, all are limited to the list. *)
Definition slice_bound (len : nat) (b : option Z) (missing : nat) : nat :=
  match b with
  | None => missing
  | Some i => insert_index len i
  end.

(** transport.py 377-378: [__delitem__] with a slice [lo:hi]. *)
Definition arr_delslice (h : heap) (a : addr) (lo hi : option Z) : res pyval * heap :=
  match nth_error h a with
  | Some (CArr dyn et mx items) =>
      let s := slice_bound (length items) lo 0 in
      let e := slice_bound (length items) hi (length items) in
      (Ok PNone, put h a (CArr dyn et mx (firstn s items ++ skipn (Nat.max s e) items)))
  | _ => (Err TypeError, h)
  end.

(** [MutableSequence.reverse]: [for i in range(n//2): self[i], self[n-i-1] =
    self[n-i-1], self[i]]; both items are read before they are written. *)
Fixpoint reverse_loop (h : heap) (a : addr) (n i k : nat) : res pyval * heap :=
  match k with
  | O => (Ok PNone, h)
  | S k' =>
      let lo := Z.of_nat i in
      let hi := (Z.of_nat n - Z.of_nat i - 1)%Z in
      match arr_getitem h a hi with
      | Err e => (Err e, h)
      | Ok x =>
          match arr_getitem h a lo with
          | Err e => (Err e, h)
          | Ok y =>
              match arr_setitem h a lo x with
              | (Err e, h1) => (Err e, h1)
              | (Ok _, h1) =>
                  match arr_setitem h1 a hi y with
                  | (Err e, h2) => (Err e, h2)
                  | (Ok _, h2) => reverse_loop h2 a n (S i) k'
                  end
              end
          end
      end
  end.
Definition arr_reverse (h : heap) (a : addr) : res pyval * heap :=
  match arr_len h a with
  | Ok n => reverse_loop h a n 0 (n / 2)
  | Err e => (Err e, h)
  end.

(** [MutableSequence.pop]: [v = self[index]; del self[index]; return v]. *)
Definition arr_pop (h : heap) (a : addr) (idx : Z) : res pyval * heap :=
  match arr_getitem h a idx with
  | Err e => (Err e, h)
  | Ok v =>
      match arr_delitem h a idx with
      | (Ok _, h1) => (Ok v, h1)
      | (Err e, h1) => (Err e, h1)
      end
  end.

(** transport.py 389-394: [clear] pops the last item until that fails with
    [IndexError]; the value popped is not used, and reading it does not raise
    for the types that the parser builds. *)
Fixpoint clear_loop (fuel : nat) (items : list slot) : list slot :=
  match fuel with
  | O => items
  | S f =>
      match norm_index (length items) (-1) with
      | None => items
      | Some i => clear_loop f (list_remove i items)
      end
  end.
Definition arr_clear (h : heap) (a : addr) : res pyval * heap :=
  match nth_error h a with
  | Some (CArr dyn et mx items) =>
      (Ok PNone, put h a (CArr dyn et mx (clear_loop (S (length items)) items)))
  | _ => (Err TypeError, h)
  end.

(** transport.py 399-409: [insert]. *)
Definition arr_insert (h : heap) (a : addr) (idx : Z) (v : pyval) : res pyval * heap :=
  match nth_error h a with
  | Some (CArr dyn et mx items) =>
      if (Z.of_nat mx <=? idx)%Z then (Err IndexError, h)
      else if Nat.eqb (length items) mx then (Err IndexError, h)
      else
        match et with
        | APrim k n cm =>
            match prim_set h k n cm v with
            | Ok b =>
                (Ok PNone,
                 put h a (CArr dyn et mx
                            (list_insert (insert_index (length items) idx) (SPrim b) items)))
            | Err e => (Err e, h)
            end
        | _ =>
            (Ok PNone,
             put h a (CArr dyn et mx
                        (list_insert (insert_index (length items) idx) (SObj v) items)))
        end
  | _ => (Err TypeError, h)
  end.

(** [MutableSequence.append]: [self.insert(len(self), value)]. *)
Definition arr_append (h : heap) (a : addr) (v : pyval) : res pyval * heap :=
  match nth_error h a with
  | Some (CArr dyn et mx items) => arr_insert h a (Z.of_nat (length items)) v
  | _ => (Err TypeError, h)
  end.

(** [for v in vs: self.append(v)]. *)
Fixpoint append_all (h : heap) (a : addr) (vs : list pyval) : res pyval * heap :=
  match vs with
  | [] => (Ok PNone, h)
  | v :: vs' =>
      match arr_append h a v with
      | (Ok _, h1) => append_all h1 a vs'
      | (Err e, h1) => (Err e, h1)
      end
  end.

Fixpoint mapM {A B} (f : A -> res B) (l : list A) : res (list B) :=
  match l with
  | [] => Ok []
  | x :: l' => y <- f x ;; ys <- mapM f l' ;; Ok (y :: ys)
  end.

(** What iterating over an argument yields. Iterating over an array reads it
    item by item while the loop body runs; the body only changes another
    array, or the array is empty already, so the items are read at once. *)
Definition iterate (h : heap) (v : pyval) : res (list pyval) :=
  match v with
  | PList l => Ok l
  | PStr s => Ok (map (fun c => PStr [c]) s)
  | PRef b =>
      match nth_error h b with
      | Some (CArr dyn et mx items) => mapM (item_value et) items
      | _ => Err TypeError
      end
  | _ => Err TypeError
  end.

(** [MutableSequence.extend]; [list(values)] is taken if [values is self]. *)
Definition arr_extend (h : heap) (a : addr) (v : pyval) : res pyval * heap :=
  match iterate h v with
  | Ok vs => append_all h a vs
  | Err e => (Err e, h)
  end.

(** transport.py 454-457: [from_bytes]. *)
Definition arr_from_bytes (h : heap) (a : addr) (bs : list N) : res pyval * heap :=
  match arr_delall h a with
  | (Ok _, h1) => append_all h1 a (map (fun b => PInt (Z.of_N b)) bs)
  | (Err e, h1) => (Err e, h1)
  end.

(** parser.py 172-175: [is_string_like]. *)
Definition string_like (dyn : bool) (et : atype) : bool :=
  dyn && match et with APrim _ n _ => Nat.eqb n 8 | _ => false end.

(** transport.py 462-468: [encode]. *)
Definition arr_encode (h : heap) (a : addr) (s : list N) : res pyval * heap :=
  match nth_error h a with
  | Some (CArr dyn et mx items) =>
      if negb (string_like dyn et) then (Err ValueError, h)
      else
        match arr_delall h a with
        | (Ok _, h1) =>
            match utf8_encode s with
            | Ok bs => append_all h1 a (map (fun b => PInt (Z.of_N b)) bs)
            | Err e => (Err e, h1)
            end
        | (Err e, h1) => (Err e, h1)
        end
  | _ => (Err TypeError, h)
  end.

(** transport.py 459-460, 473: the bytes of [to_bytes] and [decode]; items
    without bits are left out, numbers that are not bytes raise. *)
Fixpoint item_bytes (et : atype) (items : list slot) : res (list N) :=
  match items with
  | [] => Ok []
  | SPrim [] :: r => item_bytes et r
  | s :: r =>
      v <- item_value et s ;;
      match v with
      | PInt z =>
          if (0 <=? z)%Z && (z <? 256)%Z
          then bs <- item_bytes et r ;; Ok (Z.to_N z :: bs)
          else Err ValueError
      | _ => Err TypeError
      end
  end.

(** transport.py 459-460: [to_bytes]. *)
Definition arr_to_bytes (h : heap) (a : addr) : res (list N) :=
  match nth_error h a with
  | Some (CArr dyn et mx items) => item_bytes et items
  | _ => Err TypeError
  end.

(** transport.py 470-473: [decode]. *)
Definition arr_decode (h : heap) (a : addr) : res (list N) :=
  match nth_error h a with
  | Some (CArr dyn et mx items) =>
      if negb (string_like dyn et) then Err ValueError
      else bs <- item_bytes et items ;; utf8_decode bs
  | _ => Err TypeError
  end.

(** transport.py 396-397: [new_item]. The primitive object that is made for
    primitive elements is good for nothing (no field and no array takes it),
    like a [VoidValue]. *)
Definition arr_new_item (h : heap) (a : addr) : res pyval * heap :=
  match nth_error h a with
  | Some (CArr dyn et mx items) =>
      match et with
      | APrim k n cm => (Ok PVoid, h)
      | AVoid _ => (Err AttributeError, h)
      | _ => let '(s, h1) := alloc et h in
             (match s with SObj v => Ok v | _ => Err TypeError end, h1)
      end
  | _ => (Err TypeError, h)
  end.

(** ** Attribute access *)

(** Position and type of a field. *)
Fixpoint find_field (fs : list (string * atype)) (nm : string) : option (nat * atype) :=
  match fs with
  | [] => None
  | (n, t) :: fs' =>
      if String.eqb nm n then Some (0, t)
      else match find_field fs' nm with Some (i, t') => Some (S i, t') | None => None end
  end.

(** transport.py 551-555, 569-573: may the field be used? *)
Definition union_blocks (u : bool) (active : option string) (nm : string) : bool :=
  u && match active with Some f => negb (String.eqb f nm) | None => false end.

(** transport.py 547-563: [__getattr__]. Python looks for ordinary attributes
    first; they never have the name of a constant or a field, because
    [__setattr__] diverts those, so the order does not matter. *)
Definition getattr (h : heap) (a : addr) (nm : string) : res pyval * heap :=
  match nth_error h a with
  | Some (CComp full u fs cs d active extra) =>
      match dget String.eqb cs nm with
      | Some z => (Ok (PInt z), h)
      | None =>
          match find_field fs nm with
          | None =>
              (match dget String.eqb extra nm with
               | Some v => Ok v
               | None => Err AttributeError
               end, h)
          | Some (i, t) =>
              if union_blocks u active nm then (Err AttributeError, h)
              else
                let h1 := if u then put h a (CComp full u fs cs d (Some nm) extra) else h in
                match nth_error h1 d with
                | Some (CDict slots) =>
                    match nth_error slots i with
                    | Some (SPrim b) =>
                        (match t with APrim k n _ => prim_get k n b | _ => Err TypeError end,
                         h1)
                    | Some SVoid => (Ok PVoid, h1)
                    | Some (SObj v) => (Ok v, h1)
                    | None => (Err KeyError, h1)
                    end
                | _ => (Err KeyError, h1)
                end
          end
      end
  | _ => (Err AttributeError, h)
  end.

(** transport.py 61-65: [switch_union_field]. Names that are empty count as no
    name ([if self._union_field and ...], [self._union_field or ...]); any name
    is taken. *)
Definition switch_union_field (h : heap) (a : addr) (f : option string) : res pyval * heap :=
  match nth_error h a with
  | Some (CComp full true fs cs d active extra) =>
      let f' := match f with Some EmptyString => None | _ => f end in
      (Ok PNone, put h a (CComp full true fs cs d f' extra))
  | _ => (Err ValueError, h)
  end.

(** transport.py 532-537: [copy.copy] of a compound object: a new object with
    the same attributes, so it has the same [_fields] dictionary. *)
Definition copy_comp (h : heap) (b : addr) : res addr * heap :=
  match nth_error h b with
  | Some (CComp full u fs cs d active extra) =>
      (Ok (length h), h ++ [CComp full u fs cs d active extra])
  | _ => (Err TypeError, h)
  end.

(** transport.py 580-586: the value assigned to a compound field. *)
Definition is_comp_named (h : heap) (v : pyval) (nm : string) : bool :=
  match v with
  | PRef b =>
      match nth_error h b with
      | Some (CComp full _ _ _ _ _ _) => String.eqb nm full
      | _ => false
      end
  | _ => false
  end.

(** transport.py 588-598: assignment to an array field; every exception
    becomes [AttributeError]. *)
Definition assign_array (h : heap) (b : addr) (v : pyval) : res pyval * heap :=
  match arr_clear h b with
  | (Err e, h1) => (Err e, h1)
  | (Ok _, h1) =>
      let '(r, h2) :=
        match v with
        | PStr s => arr_encode h1 b s
        | _ => match iterate h1 v with Ok vs => append_all h1 b vs | Err e => (Err e, h1) end
        end in
      (match r with Ok _ => Ok PNone | Err _ => Err AttributeError end, h2)
  end.

(** transport.py 565-603: [__setattr__]. The type of the field object is the
    declared one, since assignment keeps it. *)
Definition setattr (h : heap) (a : addr) (nm : string) (v : pyval) : res pyval * heap :=
  match nth_error h a with
  | Some (CComp full u fs cs d active extra) =>
      match dget String.eqb cs nm with
      | Some z => (Err AttributeError, h)
      | None =>
          match find_field fs nm with
          | None => (Ok PNone, put h a (CComp full u fs cs d active (dset String.eqb extra nm v)))
          | Some (i, t) =>
              if union_blocks u active nm then (Err AttributeError, h)
              else
                let h1 := if u then put h a (CComp full u fs cs d (Some nm) extra) else h in
                match nth_error h1 d with
                | Some (CDict slots) =>
                    match t with
                    | APrim k n cm =>
                        match prim_set h1 k n cm v with
                        | Ok b => (Ok PNone, put h1 d (CDict (list_set slots i (SPrim b))))
                        | Err e => (Err e, h1)
                        end
                    | AComp full' _ _ _ =>
                        if negb (is_comp_named h1 v full') then (Err AttributeError, h1)
                        else
                          match v with
                          | PRef b =>
                              match copy_comp h1 b with
                              | (Ok c, h2) =>
                                  (Ok PNone, put h2 d (CDict (list_set slots i (SObj (PRef c)))))
                              | (Err e, h2) => (Err e, h2)
                              end
                          | _ => (Err AttributeError, h1)
                          end
                    | AArr _ _ _ =>
                        match nth_error slots i with
                        | Some (SObj (PRef b)) => assign_array h1 b v
                        | _ => (Err TypeError, h1)
                        end
                    | AVoid _ => (Err AttributeError, h1)
                    end
                | _ => (Err KeyError, h1)
                end
          end
      end
  | _ => (Err AttributeError, h)
  end.

(** transport.py 477-519: [CompoundValue(type, **kwargs)]. *)
Definition private (nm : string) : bool :=
  match nm with String "_"%char _ => true | _ => false end.
Fixpoint init_fields (h : heap) (a : addr) (kw : list (string * pyval)) : res pyval * heap :=
  match kw with
  | [] => (Ok (PRef a), h)
  | (nm, v) :: kw' =>
      if private nm then (Err NameError, h)
      else match setattr h a nm v with
           | (Ok _, h1) => init_fields h1 a kw'
           | (Err e, h1) => (Err e, h1)
           end
  end.
Definition new_object (h : heap) (t : atype) (kw : list (string * pyval)) : res pyval * heap :=
  match t with
  | AComp _ _ _ _ =>
      match alloc t h with
      | (SObj (PRef a), h1) => init_fields h1 a kw
      | (_, h1) => (Err TypeError, h1)
      end
  | _ => (Err TypeError, h)
  end.

(** ** Deep copies *)

Section Shift.
  Variable n : nat.
  Fixpoint shift_val (v : pyval) : pyval :=
    match v with
    | PRef a => PRef (a + n)
    | PList l => PList (map shift_val l)
    | _ => v
    end.
  Definition shift_slot (s : slot) : slot :=
    match s with SObj v => SObj (shift_val v) | _ => s end.
  Definition shift_cell (c : cell) : cell :=
    match c with
    | CArr dyn et mx items => CArr dyn et mx (map shift_slot items)
    | CDict slots => CDict (map shift_slot slots)
    | CComp full u fs cs d active extra =>
        CComp full u fs cs (d + n) active (map (fun e => (fst e, shift_val (snd e))) extra)
    end.
End Shift.

(** transport.py 539-545: [copy.deepcopy]. The memo makes the copy have the
    same sharing as the original, so it is a copy of the reachable part of the
    heap; the model copies the unreachable part as well, which nobody can
    see. *)
Definition deepcopy (h : heap) (a : addr) : res pyval * heap :=
  match nth_error h a with
  | Some _ => (Ok (PRef (a + length h)), h ++ map (shift_cell (length h)) h)
  | None => (Err TypeError, h)
  end.

(** ** Programs *)

Inductive op : Type :=
| ONew (t : atype) (kw : list (string * pyval))
| OGet (a : addr) (nm : string)
| OSet (a : addr) (nm : string) (v : pyval)
| OCopy (a : addr)
| ODeep (a : addr)
| OGetItem (a : addr) (i : Z)
| OSetItem (a : addr) (i : Z) (v : pyval)
| ODel (a : addr) (i : Z)
| ODelAll (a : addr)
| OInsert (a : addr) (i : Z) (v : pyval)
| OAppend (a : addr) (v : pyval)
| OExtend (a : addr) (v : pyval)
| OPop (a : addr) (i : Z)
| OClear (a : addr)
| OFromBytes (a : addr) (bs : list N)
| OEncode (a : addr) (s : list N)
| ODecode (a : addr)
| ONewItem (a : addr)
| ODelSlice (a : addr) (lo hi : option Z)
| OReverse (a : addr)
| OSwitch (a : addr) (f : option string).

Definition step (h : heap) (o : op) : res pyval * heap :=
  match o with
  | ONew t kw => new_object h t kw
  | OGet a nm => getattr h a nm
  | OSet a nm v => setattr h a nm v
  | OCopy a => match copy_comp h a with (Ok c, h1) => (Ok (PRef c), h1) | (Err e, h1) => (Err e, h1) end
  | ODeep a => deepcopy h a
  | OGetItem a i => (arr_getitem h a i, h)
  | OSetItem a i v => arr_setitem h a i v
  | ODel a i => arr_delitem h a i
  | ODelAll a => arr_delall h a
  | OInsert a i v => arr_insert h a i v
  | OAppend a v => arr_append h a v
  | OExtend a v => arr_extend h a v
  | OPop a i => arr_pop h a i
  | OClear a => arr_clear h a
  | OFromBytes a bs => arr_from_bytes h a bs
  | OEncode a s => arr_encode h a s
  | ODecode a => (match arr_decode h a with Ok s => Ok (PStr s) | Err e => Err e end, h)
  | ONewItem a => arr_new_item h a
  | ODelSlice a lo hi => arr_delslice h a lo hi
  | OReverse a => arr_reverse h a
  | OSwitch a f => switch_union_field h a f
  end.

(** A program; exceptions are caught and ignored. *)
Fixpoint run (h : heap) (ops : list op) : heap :=
  match ops with
  | [] => h
  | o :: ops' => run (snd (step h o)) ops'
  end.

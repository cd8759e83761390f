(** Serialisation of values: the [_pack] and [_unpack] methods of
    dronecan/transport.py. *)
From Verif.Base Require Import Prelude Bits.
From Verif.Model Require Import BitCodec Types.

(** State of the value objects (transport.py 248-623).
    - [VPrim b]: a [PrimitiveValue] whose [_bits] is [b].
    - [VVoid]: a [VoidValue].
    - [VArr items]: an [ArrayValue] with its item list.
    - [VComp fields active]: a [CompoundValue] with its field objects in
      declaration order and the position of [_union_field] ([None] when no
      field is active).
    Objects are values here: sharing is modelled in Model/CompoundApi.v. *)
Inductive value : Type :=
| VPrim (b : bits)
| VVoid
| VArr (items : list value)
| VComp (fields : list value) (active : option nat).

(** The freshly constructed object of a type: transport.py 276-280 (value 0),
    337-349 (static arrays are filled with new items), 477-519. *)
Fixpoint default (t : dtype) : value :=
  match t with
  | TPrim _ n _ => VPrim (repeat false n)
  | TVoid _ => VVoid
  | TArr dyn et mx => if dyn then VArr [] else VArr (repeat (default et) mx)
  | TComp _ fs => VComp (map default fs) None
  end.

(** transport.py 131-149: [enum_mark_last], here together with the mapping
    over the marked elements. *)
Fixpoint mapM_last {A B} (f : bool -> A -> res B) (l : list A) : res (list B) :=
  match l with
  | [] => Ok []
  | x :: l' =>
      y <- f (match l' with [] => true | _ => false end) x ;;
      ys <- mapM_last f l' ;;
      Ok (y :: ys)
  end.

(** transport.py 263-267: [BaseValue._pack]. *)
Definition base_pack (b : bits) (bitlen : nat) : res bits :=
  match b with
  | [] => Ok (repeat false bitlen)
  | _ => le_from_be_bits b bitlen
  end.

(** transport.py 255-261: [BaseValue._unpack]: the new [_bits] and the rest
    of the stream. *)
Definition base_unpack (stream : bits) (bitlen : nat) : res (bits * bits) :=
  if Nat.eqb bitlen 0 then Ok ([], stream)
  else
    b <- be_from_le_bits stream bitlen ;;
    Ok (b, skipn bitlen stream).

(** transport.py 623: packing of consecutive fields, [tao and last]. *)
Fixpoint pack_struct (ps : list (bool -> value -> res bits)) (tao : bool)
    (vs : list value) : res bits :=
  match ps, vs with
  | [], [] => Ok []
  | p :: ps', v :: vs' =>
      b <- p (tao && match ps' with [] => true | _ => false end) v ;;
      r <- pack_struct ps' tao vs' ;;
      Ok (b ++ r)
  | _, _ => Err TypeError
  end.

(** Packing of the [i]-th field of a union. *)
Fixpoint pack_nth (ps : list (bool -> value -> res bits)) (i : nat) (tao : bool)
    (vs : list value) : res bits :=
  match ps, vs with
  | p :: ps', v :: vs' =>
      match i with
      | O => p tao v
      | S i' => pack_nth ps' i' tao vs'
      end
  | _, _ => Err TypeError
  end.

(** transport.py 263-273, 438-452, 615-623: [_pack]. An object whose shape
    does not match its type cannot occur; the model gives [Err TypeError]. *)
Fixpoint pack (t : dtype) (tao : bool) (v : value) {struct t} : res bits :=
  match t with
  | TPrim _ n _ =>
      match v with VPrim b => base_pack b n | _ => Err TypeError end
  | TVoid n => Ok (repeat false n)
  | TArr dyn et mx =>
      match v with
      | VArr items0 =>
          let items := firstn mx items0 in
          if negb dyn then
            let items' := items ++ repeat (default et) (mx - length items) in
            bs <- mapM_last (fun last i => pack et (tao && last) i) items' ;;
            Ok (concat bs)
          else if tao && (8 <=? get_min_bitlen et) then
            bs <- mapM_last (fun _ i => pack et false i) items ;;
            Ok (concat bs)
          else
            let count_width := array_len_bits_from_max_size mx in
            count <- le_from_be_bits
                       (py_format_b count_width (N.of_nat (length items)))
                       count_width ;;
            bs <- mapM_last (fun last i => pack et (tao && last) i) items ;;
            Ok (count ++ concat bs)
      | _ => Err TypeError
      end
  | TComp u fs =>
      let ps := map pack fs in
      match v with
      | VComp vs active =>
          if u then
            let tag := match active with Some i => i | None => 0 end in
            let tag_len := union_tag_bits_from_num_elements (length fs) in
            b <- pack_nth ps tag tao vs ;;
            Ok (py_format_b tag_len (N.of_nat tag) ++ b)
          else pack_struct ps tao vs
      | _ => Err TypeError
      end
  end.

(** Reading of consecutive items, each told whether it is the last one
    (transport.py 415-416 and 430-434 with [enum_mark_last(range(count))]). *)
Fixpoint unpack_n (u : bool -> bits -> res (value * bits)) (count : nat)
    (tao : bool) (s : bits) : res (list value * bits) :=
  match count with
  | O => Ok ([], s)
  | S c =>
      '(v, s1) <- u (tao && match c with O => true | _ => false end) s ;;
      '(vs, s2) <- unpack_n u c tao s1 ;;
      Ok (v :: vs, s2)
  end.

(** transport.py 418-424: the tail-array-optimised loop. Fuel exhaustion
    stands for an endless loop and is reported as [RuntimeError]; it does not
    happen for well-formed types. *)
Fixpoint unpack_tao (u : bits -> res (value * bits)) (fuel : nat) (s : bits)
    : res (list value) :=
  match fuel with
  | O => Err RuntimeError
  | S f =>
      if 8 <=? length s then
        '(v, s1) <- u s ;;
        vs <- unpack_tao u f s1 ;;
        Ok (v :: vs)
      else Ok []
  end.

(** transport.py 612: reading of consecutive fields. *)
Fixpoint unpack_struct (us : list (bool -> bits -> res (value * bits)))
    (tao : bool) (s : bits) : res (list value * bits) :=
  match us with
  | [] => Ok ([], s)
  | u :: us' =>
      '(v, s1) <- u (tao && match us' with [] => true | _ => false end) s ;;
      '(vs, s2) <- unpack_struct us' tao s1 ;;
      Ok (v :: vs, s2)
  end.

(** Replaces the [i]-th element. *)
Fixpoint list_set {A} (l : list A) (i : nat) (a : A) : list A :=
  match l with
  | [] => []
  | x :: l' => match i with O => a :: l' | S i' => x :: list_set l' i' a end
  end.

(** transport.py 255-261, 269-270, 413-436, 605-613: [_unpack] of a freshly
    constructed object. Result: the object after the call and the remaining
    stream. *)
Fixpoint unpack (t : dtype) (tao : bool) (s : bits) {struct t}
    : res (value * bits) :=
  match t with
  | TPrim _ n _ =>
      '(b, s') <- base_unpack s n ;; Ok (VPrim b, s')
  | TVoid n => Ok (VVoid, skipn n s)
  | TArr dyn et mx =>
      if negb dyn then
        '(vs, s') <- unpack_n (unpack et) mx tao s ;; Ok (VArr vs, s')
      else if tao && (8 <=? get_min_bitlen et) then
        vs <- unpack_tao (unpack et false) (S (length s)) s ;; Ok (VArr vs, [])
      else
        let count_width := array_len_bits_from_max_size mx in
        cb <- be_from_le_bits (firstn count_width s) count_width ;;
        let count := N.to_nat (N_of_bits cb) in
        '(vs, s') <- unpack_n (unpack et) count tao (skipn count_width s) ;;
        Ok (VArr vs, s')
  | TComp u fs =>
      let us := map unpack fs in
      if u then
        let tag_len := union_tag_bits_from_num_elements (length fs) in
        match firstn tag_len s with
        | [] => Err ValueError
        | tag_bits =>
            let tag := N.to_nat (N_of_bits tag_bits) in
            match nth_error us tag with
            | None => Err IndexError
            | Some uf =>
                '(v, s') <- uf tao (skipn tag_len s) ;;
                Ok (VComp (list_set (map default fs) tag v) (Some tag), s')
            end
        end
      else
        '(vs, s') <- unpack_struct us tao s ;; Ok (VComp vs None, s')
  end.

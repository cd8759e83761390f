(** How a received message becomes an object: the [_unpack] methods of
    dronecan/transport.py working on the objects of Model/ObjectApi.v, which
    user code then reads. *)
From Coq Require Import String.
From Verif.Base Require Import Prelude Bits.
From Verif.Model Require Import BitCodec Types Codec ObjectApi.
Open Scope list_scope.

(** What [_unpack] does to the object in a slot: the slot afterwards (only
    primitive ones change), the rest of the stream and the heap. An exception
    ends the whole decoding and nobody keeps the object, so its state is
    dropped then. *)
Definition loader := heap -> slot -> bool -> bits -> res (slot * bits * heap).

(** transport.py 415-416: the first [count] items of a static array in place;
    [self.__items[i]] raises when there is none. *)
Fixpoint load_n (l : loader) (count : nat) (h : heap) (items : list slot) (tao : bool) (s : bits)
    : res (list slot * bits * heap) :=
  match count with
  | O => Ok (items, s, h)
  | S c =>
      match items with
      | [] => Err IndexError
      | x :: r =>
          '(x', s1, h1) <- l h x (tao && match c with O => true | _ => false end) s ;;
          '(r', s2, h2) <- load_n l c h1 r tao s1 ;;
          Ok (x' :: r', s2, h2)
      end
  end.

(** transport.py 430-434: [count] new items. *)
Fixpoint load_new (mk : heap -> slot * heap) (l : loader) (count : nat) (h : heap) (tao : bool) (s : bits)
    : res (list slot * bits * heap) :=
  match count with
  | O => Ok ([], s, h)
  | S c =>
      let '(x, h0) := mk h in
      '(x', s1, h1) <- l h0 x (tao && match c with O => true | _ => false end) s ;;
      '(r', s2, h2) <- load_new mk l c h1 tao s1 ;;
      Ok (x' :: r', s2, h2)
  end.

(** transport.py 420-423: new items while eight bits are left. Fuel as in
    [unpack_tao]. *)
Fixpoint load_tao (mk : heap -> slot * heap) (l : loader) (fuel : nat) (h : heap) (s : bits)
    : res (list slot * heap) :=
  match fuel with
  | O => Err RuntimeError
  | S f =>
      if 8 <=? List.length s then
        let '(x, h0) := mk h in
        '(x', s1, h1) <- l h0 x false s ;;
        '(r', h2) <- load_tao mk l f h1 s1 ;;
        Ok (x' :: r', h2)
      else Ok ([], h)
  end.

(** transport.py 611-612: the fields of a structure in order. *)
Fixpoint load_struct (ls : list loader) (h : heap) (slots : list slot) (tao : bool) (s : bits)
    : res (list slot * bits * heap) :=
  match ls, slots with
  | [], [] => Ok ([], s, h)
  | l :: ls', x :: r =>
      '(x', s1, h1) <- l h x (tao && match ls' with [] => true | _ => false end) s ;;
      '(r', s2, h2) <- load_struct ls' h1 r tao s1 ;;
      Ok (x' :: r', s2, h2)
  | _, _ => Err TypeError
  end.

(** transport.py 254-260, 269-270, 413-436, 605-613: [_unpack]. A slot or an
    object of another type than [t] cannot occur in a new message; the model
    gives [Err TypeError]. The item list of an array is written back when all
    items were read. *)
Fixpoint load (t : atype) (h : heap) (x : slot) (tao : bool) (s : bits) {struct t}
    : res (slot * bits * heap) :=
  match t with
  | APrim _ n _ =>
      match x with
      | SPrim _ => if Nat.eqb n 0 then Ok (x, s, h)
                   else b <- be_from_le_bits s n ;; Ok (SPrim b, skipn n s, h)
      | _ => Err TypeError
      end
  | AVoid n => Ok (x, skipn n s, h)
  | AArr dyn et mx =>
      match x with
      | SObj (PRef a) =>
          match nth_error h a with
          | Some (CArr _ _ _ items) =>
              if negb dyn then
                '(items', s', h1) <- load_n (load et) mx h items tao s ;;
                Ok (x, s', put h1 a (CArr dyn et mx items'))
              else if tao && (8 <=? get_min_bitlen (erase et)) then
                '(items', h1) <- load_tao (alloc et) (load et) (S (List.length s)) h s ;;
                Ok (x, [], put h1 a (CArr dyn et mx items'))
              else
                let count_width := array_len_bits_from_max_size mx in
                cb <- be_from_le_bits (firstn count_width s) count_width ;;
                '(items', s', h1) <- load_new (alloc et) (load et) (N.to_nat (N_of_bits cb)) h tao (skipn count_width s) ;;
                Ok (x, s', put h1 a (CArr dyn et mx items'))
          | _ => Err TypeError
          end
      | _ => Err TypeError
      end
  | AComp nm u fs cs =>
      let ls := map (fun f => load (snd f)) fs in
      match x with
      | SObj (PRef a) =>
          match nth_error h a with
          | Some (CComp nm' _ _ _ d act extra) =>
              if negb (String.eqb nm nm') then Err TypeError
              else
              match nth_error h d with
              | Some (CDict slots) =>
                  if u then
                    let tag_len := union_tag_bits_from_num_elements (List.length fs) in
                    match firstn tag_len s with
                    | [] => Err ValueError
                    | tag_bits =>
                        let tag := N.to_nat (N_of_bits tag_bits) in
                        match nth_error fs tag, nth_error ls tag, nth_error slots tag with
                        | Some f, Some l, Some y =>
                            let h0 := put h a (CComp nm u fs cs d (Some (fst f)) extra) in
                            '(y', s', h1) <- l h0 y tao (skipn tag_len s) ;;
                            Ok (x, s', put h1 d (CDict (list_set slots tag y')))
                        | _, _, _ => Err IndexError
                        end
                    end
                  else
                    '(slots', s', h1) <- load_struct ls h slots tao s ;;
                    Ok (x, s', put h1 d (CDict slots'))
              | _ => Err TypeError
              end
          | _ => Err TypeError
          end
      | _ => Err TypeError
      end
  end.

(** transport.py 868-869: the message of a received transfer: a new object of
    the type ([CompoundValue], built by [dronecan.__init__] 200-205), then
    [_unpack] of the payload's bits. *)
Definition receive (h : heap) (t : atype) (tao : bool) (s : bits) : res addr * heap :=
  match new_object h t [] with
  | (Ok (PRef a), h1) =>
      match load t h1 (SObj (PRef a)) tao s with
      | Ok (_, _, h2) => (Ok a, h2)
      | Err e => (Err e, h1)
      end
  | (Ok _, h1) => (Err TypeError, h1)
  | (Err e, h1) => (Err e, h1)
  end.

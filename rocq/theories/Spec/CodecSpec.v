(** What the codec properties mean, without the codec's helpers. *)
From Verif.Base Require Import Prelude Bits.
From Verif.Model Require Import Types Codec.

(** Well-formed types: what the definition parser accepts, except that the
    codec does not care about some further restrictions. Bit lengths and array
    capacities are positive, array elements are not void (no object can be
    built for those), unions have at least two fields. *)
Fixpoint wf_type (t : dtype) : Prop :=
  match t with
  | TPrim _ n _ => 1 <= n
  | TVoid n => 1 <= n
  | TArr _ et mx =>
      wf_type et /\ (match et with TVoid _ => False | _ => True end) /\ 1 <= mx
  | TComp u fs =>
      (u = true -> 2 <= length fs) /\
      fold_right (fun f acc => wf_type f /\ acc) True fs
  end.

(** [v] is an object of type [t] as the API leaves it: every primitive holds
    exactly the declared number of bits, static arrays are full, dynamic
    arrays are within capacity, an active union field exists. *)
Inductive valid : dtype -> value -> Prop :=
| valid_prim k n cm b : length b = n -> valid (TPrim k n cm) (VPrim b)
| valid_void n : valid (TVoid n) VVoid
| valid_static et mx items :
    Forall (valid et) items -> length items = mx ->
    valid (TArr false et mx) (VArr items)
| valid_dynamic et mx items :
    Forall (valid et) items -> length items <= mx ->
    valid (TArr true et mx) (VArr items)
| valid_struct fs vs :
    Forall2 valid fs vs -> valid (TComp false fs) (VComp vs None)
| valid_union fs vs active :
    Forall2 valid fs vs ->
    (forall i, active = Some i -> i < length fs) ->
    valid (TComp true fs) (VComp vs active).

(** What the user sees of a message: numbers as bit strings, lists, structs
    as lists, and of a union which field is active (the first one if none was
    selected, as serialisation does) and that field's content. *)
Inductive data : Type :=
| DBits (b : bits)
| DVoid
| DList (l : list data)
| DUnion (i : nat) (d : data)
| DNone.

Fixpoint zip_content (cs : list (value -> data)) (vs : list value) : list data :=
  match cs, vs with
  | c :: cs', v :: vs' => c v :: zip_content cs' vs'
  | _, _ => []
  end.

Fixpoint content (t : dtype) (v : value) : data :=
  match t with
  | TPrim _ _ _ => match v with VPrim b => DBits b | _ => DNone end
  | TVoid _ => DVoid
  | TArr _ et _ =>
      match v with VArr items => DList (map (content et) items) | _ => DNone end
  | TComp u fs =>
      match v with
      | VComp vs active =>
          let all := zip_content (map content fs) vs in
          if u then
            let i := match active with Some i => i | None => 0 end in
            DUnion i (nth i all DNone)
          else DList all
      | _ => DNone
      end
  end.

(** No dynamic array inside [v] holds more elements than its type allows. *)
Inductive sizes_ok : dtype -> value -> Prop :=
| so_prim k n cm v : sizes_ok (TPrim k n cm) v
| so_void n v : sizes_ok (TVoid n) v
| so_arr dyn et mx items :
    Forall (sizes_ok et) items -> length items <= mx ->
    sizes_ok (TArr dyn et mx) (VArr items)
| so_comp u fs vs active :
    Forall2 sizes_ok fs vs -> sizes_ok (TComp u fs) (VComp vs active).

(** Which positions of the serialised form (without TAO) of a value belong to
    void fields. *)
Fixpoint zip_mask (ms : list (value -> list bool)) (vs : list value)
    : list (list bool) :=
  match ms, vs with
  | m :: ms', v :: vs' => m v :: zip_mask ms' vs'
  | _, _ => []
  end.

Fixpoint void_mask (t : dtype) (v : value) : list bool :=
  match t with
  | TPrim _ n _ => repeat false n
  | TVoid n => repeat true n
  | TArr dyn et mx =>
      (if dyn then repeat false (bit_length mx) else []) ++
      match v with VArr items => concat (map (void_mask et) items) | _ => [] end
  | TComp u fs =>
      match v with
      | VComp vs active =>
          let all := zip_mask (map void_mask fs) vs in
          if u then
            repeat false (bit_length (length fs - 1)) ++
            nth (match active with Some i => i | None => 0 end) all []
          else concat all
      | _ => []
      end
  end.

(** The DSDL wire format, written independently of the packing code.

    An [n]-bit integer goes least significant byte first; within a byte the
    most significant bit goes first; the last byte may be short. Position [j]
    on the wire therefore carries this bit of the number: *)
Definition wire_index (n j : nat) : nat :=
  8 * (j / 8) + (Nat.min 8 (n - 8 * (j / 8)) - 1 - j mod 8).

Definition wire_int (n : nat) (x : N) : bits :=
  map (fun j => N.testbit x (N.of_nat (wire_index n j))) (seq 0 n).

(** Items one after the other; only the last one can be at the tail. *)
Fixpoint wire_items (f : bool -> value -> bits) (tail : bool) (l : list value)
    : bits :=
  match l with
  | [] => []
  | [x] => f tail x
  | x :: l' => f false x ++ wire_items f tail l'
  end.

Fixpoint wire_fields (fs : list (bool -> value -> bits)) (tail : bool)
    (l : list value) : bits :=
  match fs, l with
  | [f], [x] => f tail x
  | f :: fs', x :: l' => f false x ++ wire_fields fs' tail l'
  | _, _ => []
  end.

(** [wire t tail v]: the serialised form of [v]; [tail] tells that [v] ends
    the message and that tail array optimisation is on. Then a dynamic array
    of elements of at least 8 bits carries no length prefix. The tag of a
    union goes most significant bit first. *)
Fixpoint wire (t : dtype) (tail : bool) (v : value) {struct t} : bits :=
  match t with
  | TPrim _ n _ => match v with VPrim b => wire_int n (N_of_bits b) | _ => [] end
  | TVoid n => repeat false n
  | TArr dyn et mx =>
      match v with
      | VArr items =>
          if dyn then
            if tail && (8 <=? get_min_bitlen et) then
              concat (map (wire et false) items)
            else
              wire_int (bit_length mx) (N.of_nat (length items)) ++
              wire_items (wire et) tail items
          else wire_items (wire et) tail items
      | _ => []
      end
  | TComp u fs =>
      let ws := map wire fs in
      match v with
      | VComp vs active =>
          if u then
            let i := match active with Some i => i | None => 0 end in
            bits_of_N (bit_length (length fs - 1)) (N.of_nat i) ++
            nth i ws (fun _ _ => []) tail (nth i vs VVoid)
          else wire_fields ws tail vs
      | _ => []
      end
  end.

(** Types all of whose parts occupy bits that decoding must read: no void
    fields and no empty structs. *)
Fixpoint no_gaps (t : dtype) : Prop :=
  match t with
  | TPrim _ _ _ => True
  | TVoid _ => False
  | TArr _ et _ => no_gaps et
  | TComp _ fs => fs <> [] /\ fold_right (fun f acc => no_gaps f /\ acc) True fs
  end.

(** Types that consist of nothing but void fields and empty structs. *)
Fixpoint hollow (t : dtype) : Prop :=
  match t with
  | TPrim _ _ _ => False
  | TVoid _ => True
  | TArr dyn et _ => dyn = false /\ hollow et
  | TComp u fs => u = false /\ fold_right (fun f acc => hollow f /\ acc) True fs
  end.

(** No variant of any union inside the type is hollow. *)
Fixpoint solid (t : dtype) : Prop :=
  match t with
  | TPrim _ _ _ | TVoid _ => True
  | TArr _ et _ => solid et
  | TComp u fs =>
      (u = true -> fold_right (fun f acc => ~ hollow f /\ acc) True fs) /\
      fold_right (fun f acc => solid f /\ acc) True fs
  end.

(** Like [valid], but arrays may hold any number of items, as after decoding
    a hostile payload or deleting items of a static array. *)
Inductive loose : dtype -> value -> Prop :=
| loose_prim k n cm b : length b = n -> loose (TPrim k n cm) (VPrim b)
| loose_void n : loose (TVoid n) VVoid
| loose_arr dyn et mx items :
    Forall (loose et) items -> loose (TArr dyn et mx) (VArr items)
| loose_struct fs vs :
    Forall2 loose fs vs -> loose (TComp false fs) (VComp vs None)
| loose_union fs vs active :
    Forall2 loose fs vs ->
    (forall i, active = Some i -> i < length fs) ->
    loose (TComp true fs) (VComp vs active).

(** The value that is actually transmitted: arrays cut to their capacity,
    static arrays filled up with default items. *)
Fixpoint zip_clip (cs : list (value -> value)) (vs : list value) : list value :=
  match cs, vs with
  | c :: cs', v :: vs' => c v :: zip_clip cs' vs'
  | _, _ => []
  end.

Fixpoint clip (t : dtype) (v : value) : value :=
  match t with
  | TArr dyn et mx =>
      match v with
      | VArr items =>
          let kept := map (clip et) (firstn mx items) in
          VArr (if dyn then kept
                else kept ++ repeat (default et) (mx - length items))
      | _ => v
      end
  | TComp u fs =>
      match v with
      | VComp vs active => VComp (zip_clip (map clip fs) vs) active
      | _ => v
      end
  | _ => v
  end.

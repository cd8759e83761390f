(** Programs that build messages, and the types they use. *)
From Coq Require Import String.
From Verif.Base Require Import Prelude Bits.
From Verif.Model Require Import Types Codec Float ObjectApi.
From Verif.Spec Require Import ObjectSpec FloatSpec.
Open Scope list_scope.

(** What is known of a compound type by its full name: union or not, fields,
    constants. *)
Definition catalogue := string -> option (bool * list (string * atype) * list (string * Z)).

(** The types that the parser builds from one set of definitions: widths that
    exist, no arrays of arrays and no arrays of padding, and compound types
    with the same name are the same. *)
Fixpoint known (env : catalogue) (t : atype) : Prop :=
  match t with
  | APrim KBool n _ => n = 1
  | APrim KFloat n _ => n = 16 \/ n = 32 \/ n = 64
  | APrim _ n _ => 1 <= n <= 64
  | AVoid n => 1 <= n
  | AArr _ et mx =>
      known env et /\ match et with AArr _ _ _ | AVoid _ => False | _ => True end /\ 1 <= mx
  | AComp nm u fs cs =>
      env nm = Some (u, fs, cs) /\ (u = true -> 2 <= List.length fs) /\
      fold_right (fun f acc => known env (snd f) /\ acc) True fs
  end.

(** Arguments: all floats in them are doubles. *)
Fixpoint doubles (v : pyval) : Prop :=
  match v with
  | PFloat x => is_double x
  | PList l => fold_right (fun x acc => doubles x /\ acc) True l
  | _ => True
  end.

(** Programs over these types. Exceptions are caught and ignored by [run]. *)
Definition typed_op (env : catalogue) (o : op) : Prop :=
  match o with
  | ONew t kw => known env t /\ Forall (fun e => doubles (snd e)) kw
  | OSet _ _ v | OSetItem _ _ v | OInsert _ _ v | OAppend _ v | OExtend _ v => doubles v
  | _ => True
  end.

(** No static array has lost items. *)
Definition statics_full (h : heap) : Prop :=
  forall a et mx items, nth_error h a = Some (CArr false et mx items) -> List.length items = mx.

(** The object at [b] is of the compound type called [nm]. *)
Definition is_a (h : heap) (b : addr) (nm : string) : Prop :=
  exists u fs cs d active extra, nth_error h b = Some (CComp nm u fs cs d active extra).

(** Arrays of compound objects hold objects of their type; the field that a
    union was switched to is one of its fields. Arrays take any object and
    [switch_union_field] takes any name, so this is up to the program. *)
Definition proper (h : heap) : Prop :=
  (forall a dyn nm u fs cs mx items, nth_error h a = Some (CArr dyn (AComp nm u fs cs) mx items) ->
     Forall (fun s => exists b, s = SObj (PRef b) /\ is_a h b nm) items) /\
  (forall a nm u fs cs d f extra, nth_error h a = Some (CComp nm u fs cs d (Some f) extra) ->
     In f (map fst fs)).

(** The number that an argument stands for, in units of 2^-1074. Integers of
    more than 53 bits are left out. *)
Definition stands_for (v : pyval) (q : Z) : Prop :=
  match v with
  | PInt z => (Z.abs z < 2 ^ 53)%Z /\ q = (z * 2 ^ 1074)%Z
  | PFloat x => is_double x /\ units x = Some q
  | _ => False
  end.

(** What a float field of [n] bits reads as after it was given the number [q]:
    64 bits the same number; 32 bits the nearest float32, or saturated or
    infinite when out of range; 16 bits the float16 nearest to the float32
    nearest to [q]. *)
Definition reads_near (n : nat) (cm : cast_mode) (q : Z) (y : pyfloat) : Prop :=
  (n = 64 -> units y = Some q) /\
  (n = 32 -> (Z.abs q <= max32)%Z -> nearest_float32 q y) /\
  (n = 32 -> (max32 < Z.abs q)%Z -> out_of_range cm (q <? 0)%Z max32 y) /\
  (n = 16 -> (Z.abs q <= max16)%Z ->
     exists y32 w p, nearest_float32 q y32 /\ units y32 = Some w /\ nearest_float16 w p /\ units y = Some (f16_units p)).

(** [v] is the content of an object of type [t] that a program over [env] has
    built; no static array of it has lost items. *)
Definition built_as (env : catalogue) (t : atype) (v : value) : Prop :=
  exists ops a nm u fs cs d active extra, Forall (typed_op env) ops /\ legal_run [] ops /\
    t = AComp nm u fs cs /\ nth_error (run [] ops) a = Some (CComp nm u fs cs d active extra) /\
    statics_full (run [] ops) /\ reify (run [] ops) t (SObj (PRef a)) = Some v.

(** What rendering is to do, apart from the rendering code. *)
From Coq Require Import String.
From Verif.Base Require Import Prelude Bits.
From Verif.Model Require Import Types Codec Float Parser ObjectApi Introspect.
Open Scope list_scope.
Open Scope N_scope.

(** ** Names of constants *)

(** Equal but for the case of ASCII letters. *)
Definition like (a b : N) : Prop :=
  a = b \/ (65 <= a <= 90 /\ b = a + 32) \/ (65 <= b <= 90 /\ a = b + 32).
Definition alike (a b : text) : Prop := Forall2 like a b.

(** [t] is the number [z] in decimal: digits, after a minus sign for a
    negative number. *)
Definition digits_value (t : text) : N := fold_left (fun a c => 10 * a + (c - 48)) t 0.
Definition decimal_text (t : text) (z : Z) : Prop :=
  exists ds, Forall (fun c => 48 <= c <= 57) ds /\ ds <> [] /\
    (if (z <? 0)%Z then t = 45 :: ds else t = ds) /\ Z.of_N (digits_value ds) = Z.abs z.

(** The constant has the value [z]. *)
Definition equals (c : cvalue) (z : Z) : Prop :=
  match c with
  | CInt x => x = z
  | CFloat (FFin s m e) =>
      ((if s then - m else m) * 2 ^ (Z.max e 0) = z * 2 ^ (Z.max (- e) 0))%Z
  | CFloat _ => False
  end.

(** How the constant [name] may be called for a field: without the name of
    the field and an underscore before it; the same for the name of the field
    in the singular; in full if the struct has no other field. *)
Inductive short_name (field : text) (num_fields : nat) : text -> text -> Prop :=
| short_direct p s : alike p (field ++ txt "_") -> short_name field num_fields (p ++ s) s
| short_plural f p s : field = f ++ txt "s" -> alike p (f ++ txt "_") ->
    short_name field num_fields (p ++ s) s
| short_only s : num_fields = 1%nat -> short_name field num_fields s s.

(** The text [t] names a constant of value [z]. *)
Definition stands_for (consts : list (text * cvalue)) (num_fields : nat) (field : text)
    (keep_literal : bool) (t : text) (z : Z) : Prop :=
  exists name c s, In (name, c) consts /\ equals c z /\ short_name field num_fields name s /\
    if keep_literal then exists d, decimal_text d z /\ t = s ++ txt " (" ++ d ++ txt ")" else t = s.

(** Texts with bars between them. *)
Inductive barred : list text -> text -> Prop :=
| barred_one t : barred [t] t
| barred_more t ts r : barred ts r -> barred (t :: ts) (t ++ txt " | " ++ r).

(** The numbers make up [v]: it is the only one, or they are the bits of [v]. *)
Definition makes_up (zs : list Z) (v : Z) : Prop :=
  zs = [v] \/
  (0 < v)%Z /\ NoDup zs /\
  forall z, In z zs <-> exists k, (0 <= k)%Z /\ Z.testbit v k = true /\ z = (2 ^ k)%Z.

(** Just one constant with the prefix [field ++ "_"] has the value [z]; what
    is left of its name is not empty. *)
Definition just_one (consts : list (text * cvalue)) (field : text) (z : Z) (s : text) : Prop :=
  s <> [] /\
  exists before p c after,
    consts = before ++ (p ++ s, c) :: after /\ alike p (field ++ txt "_") /\ equals c z /\
    forall name c', In (name, c') (before ++ after) -> equals c' z ->
      ~ exists p' s', name = p' ++ s' /\ alike p' (field ++ txt "_").

(** ** Contents of messages *)

(** The number in a primitive field. *)
Definition reads (k : kind) (n : nat) (b : bits) (x : number) : Prop :=
  b <> [] /\
  match k with
  | KBool => exists y, x = NBool y /\ (y = true <-> In true b)
  | KUint => x = NInt (Z.of_N (N_of_bits b))
  | KInt => exists z, x = NInt z /\ (- 2 ^ (Z.of_nat n - 1) <= z < 2 ^ (Z.of_nat n - 1))%Z /\
              (z mod 2 ^ Z.of_nat n = Z.of_N (N_of_bits b))%Z
  | KFloat => exists y, x = NFloat y /\ get_float n b = Ok (Some y)
  end.

(** The way from a message to something inside it. *)
Inductive way : Type := Field (nm : string) | Item (i : nat).

(** What is found at the end of the way. *)
Inductive view : Type := SeeNumber (x : number) | SeeList (len : nat) | SeeStruct.

Definition is_void (t : atype) : Prop := match t with AVoid _ => True | _ => False end.

Inductive sees : atype -> value -> list way -> view -> Prop :=
| sees_number k n cm b x : reads k n b x -> sees (APrim k n cm) (VPrim b) [] (SeeNumber x)
| sees_list dyn et mx items : sees (AArr dyn et mx) (VArr items) [] (SeeList (length items))
| sees_item dyn et mx items i v p w :
    nth_error items i = Some v -> sees et v p w ->
    sees (AArr dyn et mx) (VArr items) (Item i :: p) w
| sees_struct nm u fs cs vs active : sees (AComp nm u fs cs) (VComp vs active) [] SeeStruct
| sees_field nm u fs cs vs active i f t v p w :
    nth_error fs i = Some (f, t) -> nth_error vs i = Some v -> ~ is_void t ->
    (u = true -> active = Some i) -> sees t v p w ->
    sees (AComp nm u fs cs) (VComp vs active) (Field f :: p) w.

(** The same for what JSON can hold; a string is a list of characters. *)
Fixpoint look (j : json) (p : list way) : option view :=
  match p with
  | [] =>
      match j with
      | JNum x => Some (SeeNumber x)
      | JStr s => Some (SeeList (length s))
      | JList l => Some (SeeList (length l))
      | JDict _ => Some SeeStruct
      | JNone => None
      end
  | Item i :: p' =>
      match j with
      | JList l => match nth_error l i with Some j' => look j' p' | None => None end
      | JStr s =>
          match nth_error s i, p' with
          | Some c, [] => Some (SeeNumber (NInt (Z.of_N c)))
          | _, _ => None
          end
      | _ => None
      end
  | Field f :: p' =>
      match j with
      | JDict d => match dget String.eqb d f with Some j' => look j' p' | None => None end
      | _ => None
      end
  end.

(** Types as the parser makes them, as far as it matters here. *)
Fixpoint regular (t : atype) : Prop :=
  match t with
  | APrim KBool n _ => n = 1%nat
  | APrim KFloat n _ => n = 16%nat \/ n = 32%nat \/ n = 64%nat
  | APrim _ n _ => (1 <= n)%nat
  | AVoid _ => True
  | AArr _ et _ => regular et /\ ~ is_void et
  | AComp _ _ fs _ => NoDup (map fst fs) /\ fold_right (fun f acc => regular (snd f) /\ acc) True fs
  end.

(** Somewhere inside, not in a field of a union that is not active, there is
    an array that satisfies [P]. *)
Inductive array_inside (P : bool -> atype -> list value -> Prop) : atype -> value -> Prop :=
| inside_here dyn et mx items : P dyn et items -> array_inside P (AArr dyn et mx) (VArr items)
| inside_item dyn et mx items v :
    In v items -> array_inside P et v -> array_inside P (AArr dyn et mx) (VArr items)
| inside_field nm u fs cs vs active i f t v :
    nth_error fs i = Some (f, t) -> nth_error vs i = Some v ->
    (u = true -> active = Some i) -> array_inside P t v ->
    array_inside P (AComp nm u fs cs) (VComp vs active).

(** A non-empty array of 8-bit numbers of variable length. *)
Definition some_text (dyn : bool) (et : atype) (items : list value) : Prop :=
  dyn = true /\ (exists k cm, et = APrim k 8 cm) /\ items <> [].

(** An array of signed 8-bit numbers of variable length with a negative one,
    before which there are only printable characters, tabs and line ends. *)
Definition negative_text (dyn : bool) (et : atype) (items : list value) : Prop :=
  dyn = true /\
  exists cm pre b post z,
    et = APrim KInt 8 cm /\ items = pre ++ VPrim b :: post /\ reads KInt 8 b (NInt z) /\ (z < 0)%Z /\
    Forall (fun v => exists b' z', v = VPrim b' /\ reads KInt 8 b' (NInt z') /\
                     ((32 <= z' <= 126) \/ z' = 9 \/ z' = 10 \/ z' = 13)%Z) pre.

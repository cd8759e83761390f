(** What the lines of a definition say: the grammar, apart from the parser. *)
From Coq Require Import String.
From Verif.Base Require Import Prelude Bits.
From Verif.Model Require Import Types Float Parser.
From Verif.Spec Require Import ParserSpec.
Open Scope list_scope.
Open Scope N_scope.

(** ** Numbers *)

Definition digit_of (base c d : N) : Prop :=
  d < base /\ ((d < 10 /\ c = 48 + d) \/ (10 <= d < 16 /\ (c = 87 + d \/ c = 55 + d))).
(** Digits after [acc], perhaps with an underscore before some of them. *)
Inductive more (base : N) : N -> text -> N -> Prop :=
| more_end acc : more base acc [] acc
| more_digit acc c d s v : digit_of base c d -> more base (base * acc + d) s v -> more base acc (c :: s) v
| more_gap acc c d s v : digit_of base c d -> more base (base * acc + d) s v ->
    more base acc (underscore :: c :: s) v.
Definition digits (base : N) (s : text) (v : N) : Prop :=
  exists c d r, s = c :: r /\ digit_of base c d /\ more base d r v.
(** Digits after 0x and the like. *)
Definition prefixed (base small capital : N) (s : text) (v : N) : Prop :=
  exists x g r, s = 48 :: x :: g ++ r /\ (x = small \/ x = capital) /\ (g = [] \/ g = [underscore]) /\
    digits base r v.
(** Decimal numbers do not begin with 0. *)
Definition magnitude (s : text) (v : N) : Prop :=
  digits 10 s v /\ (v = 0 \/ forall r, s <> 48 :: r) \/
  prefixed 16 120 88 s v \/ prefixed 8 111 79 s v \/ prefixed 2 98 66 s v.
Definition signed (unsigned : text -> N -> Prop) (s : text) (z : Z) : Prop :=
  exists v, (unsigned s v /\ z = Z.of_N v) \/
    (exists r, s = 43 :: r /\ unsigned r v /\ z = Z.of_N v) \/
    (exists r, s = 45 :: r /\ unsigned r v /\ z = (- Z.of_N v)%Z).
Definition integer : text -> Z -> Prop := signed magnitude.
Definition hex_integer : text -> Z -> Prop := signed (fun s v => digits 16 s v \/ prefixed 16 120 88 s v).

(** One or two digits. *)
Definition small (s : text) (n : N) : Prop :=
  (exists a, a < 10 /\ s = [48 + a] /\ n = a) \/
  (exists a b, a < 10 /\ b < 10 /\ s = [48 + a; 48 + b] /\ n = 10 * a + b).

(** ** Types *)

(** In the brackets of an array: [<=n], [<n] or [n]. *)
Definition size_says (s : text) (dyn : bool) (n : Z) : Prop :=
  (dyn = false /\ integer s n) \/
  (dyn = true /\ exists r, s = txt "<=" ++ r /\ integer r n) \/
  (dyn = true /\ exists r, s = txt "<" ++ r /\ integer r (n + 1)).

Definition cast_word (w : text) (cm : cast_mode) : Prop :=
  match cm with Saturated => w = txt "saturated" | Truncated => w = txt "truncated" end.
Definition cast_or (cast : option cast_mode) : cast_mode :=
  match cast with Some cm => cm | None => Saturated end.

Section Grammar.
  (** [loose]: a number after "bool" is passed over. [nested t ty]: the name
      [t] stands for the message type [ty]. [ev]: values of expressions.
      [fits]: the constants that are allowed. *)
  Variables (loose : bool) (nested : text -> ptype -> Prop).
  Variables (ev : text -> option pyv) (fits : constant -> Prop).

  Inductive type_says (cast : option cast_mode) : text -> ptype -> Prop :=
  | says_void ds n : small ds n -> 1 <= n <= 64 ->
      type_says cast (txt "void" ++ ds) (QVoid (N.to_nat n))
  | says_bool : type_says cast (txt "bool") (QPrim KBool 1 (cast_or cast))
  | says_bool_loose ds n : loose = true -> small ds n ->
      type_says cast (txt "bool" ++ ds) (QPrim KBool 1 (cast_or cast))
  | says_uint ds n : small ds n -> 2 <= n <= 64 ->
      type_says cast (txt "uint" ++ ds) (QPrim KUint (N.to_nat n) (cast_or cast))
  | says_int ds n : small ds n -> 2 <= n <= 64 ->
      type_says cast (txt "int" ++ ds) (QPrim KInt (N.to_nat n) (cast_or cast))
  | says_float ds n : small ds n -> n = 16 \/ n = 32 \/ n = 64 ->
      type_says cast (txt "float" ++ ds) (QPrim KFloat (N.to_nat n) (cast_or cast))
  | says_array t s dyn et n :
      type_says cast t et -> ~ is_array et -> size_says s dyn n -> (0 < n)%Z ->
      type_says cast (t ++ txt "[" ++ s ++ txt "]") (QArr dyn et n)
  | says_nested t ty : cast = None -> nested t ty -> type_says cast t ty.

  (** ** Lines *)

  Inductive decl : Type :=
  | DField (f : field) | DConst (c : constant) | DUnion | DOverride (z : Z).

  (** The words of a line after its cast mode. *)
  Inductive with_cast : list text -> option cast_mode -> list text -> Prop :=
  | cast_none w ws : ~ is_cast w -> with_cast (w :: ws) None (w :: ws)
  | cast_some w cm ws : cast_word w cm -> with_cast (w :: ws) (Some cm) ws.

  (** [int(x)] cuts off the fraction. *)
  Definition cut (x : pyfloat) (z : Z) : Prop :=
    match x with
    | FFin s m e =>
        exists q, z = (if s then - q else q)%Z /\ (0 <= q)%Z /\
          (q * 2 ^ Z.max (- e) 0 <= m * 2 ^ Z.max e 0 < (q + 1) * 2 ^ Z.max (- e) 0)%Z
    | _ => False
    end.
  (** The value of a constant whose expression has the value [v];
      [float_of_int] is [float(z)]. *)
  Inductive const_value : kind -> pyv -> cvalue -> Prop :=
  | value_char k c : const_value k (VStr [c]) (CInt (Z.of_N c))
  | value_int k z : k <> KFloat -> const_value k (VInt z) (CInt z)
  | value_cut k x z : k <> KFloat -> cut x z -> const_value k (VFloat x) (CInt z)
  | value_float x : const_value KFloat (VFloat x) (CFloat x)
  | value_float_int z x : float_of_int z = Ok x -> const_value KFloat (VInt z) (CFloat x).

  Inductive line_says : list text -> decl -> Prop :=
  | says_union : line_says [txt "@union"] DUnion
  | says_override t z : hex_integer t z -> line_says [txt "OVERRIDE_SIGNATURE"; t] (DOverride z)
  | says_padding l cast t r ty :
      with_cast l cast [t] -> t = txt "void" ++ r -> type_says cast t ty ->
      line_says l (DField (None, ty))
  | says_field l cast t nm ty :
      with_cast l cast [t; nm] -> l <> [txt "OVERRIDE_SIGNATURE"; nm] -> attribute_name nm ->
      type_says cast t ty -> line_says l (DField (Some nm, ty))
  | says_constant l cast t nm expr k n cm x v :
      with_cast l cast (t :: nm :: txt "=" :: expr) -> expr <> [] -> attribute_name nm ->
      type_says cast t (QPrim k n cm) -> ev (List.concat expr) = Some x -> const_value k x v ->
      let c := {| k_type := k; k_bits := n; k_cast := cm; k_name := nm; k_value := v |} in
      fits c -> line_says l (DConst c).

  (** ** Definitions *)

  Definition decl_fields (d : decl) : list field := match d with DField f => [f] | _ => [] end.
  Definition decl_consts (d : decl) : list constant := match d with DConst c => [c] | _ => [] end.
  Definition decl_names (d : decl) : list text :=
    match d with DField (Some nm, _) => [nm] | DConst c => [k_name c] | _ => [] end.
  Definition decl_override (d : decl) : list Z := match d with DOverride z => [z] | _ => [] end.
  Definition decl_union (d : decl) : list unit := match d with DUnion => [tt] | _ => [] end.

  (** The lines of a message, or of one half of a service, and the signatures
      given there. *)
  Definition part_says (L : list (list text)) (p : part) (ov : list Z) : Prop :=
    exists ds, Forall2 line_says L ds /\
      p_fields p = flat_map decl_fields ds /\ p_consts p = flat_map decl_consts ds /\
      flat_map decl_union ds = (if p_union p then [tt] else []) /\
      NoDup (flat_map decl_names ds) /\ ov = flat_map decl_override ds.
  Inductive body_says : list (list text) -> body -> list Z -> Prop :=
  | says_message L p ov : part_says L p ov -> body_says L (Message p) ov
  | says_service L1 L2 rq rs ov1 ov2 : part_says L1 rq ov1 -> part_says L2 rs ov2 ->
      body_says (L1 ++ [txt "---"] :: L2) (Service rq rs) (ov1 ++ ov2).
  (** The last signature given counts. *)
  Definition last_of {A} (l : list A) : option A := fold_left (fun _ x => Some x) l None.
  Definition file_says (L : list (list text)) (d : definition) : Prop :=
    exists ov, body_says L (d_body d) ov /\ d_override d = last_of ov /\
      Forall (fun p => union_ok (p_union p) (p_fields p)) (parts (d_body d)) /\
      id_ok (d_body d) (d_dtid d).
End Grammar.

(** ** Names *)

(** What [t] means in the file that defines [own]: a full name if there is a
    dot in it, otherwise the name of a neighbour. *)
Definition refers (own t full : text) : Prop :=
  (In dot t /\ full = t) \/
  (~ In dot t /\ exists ns short, own = ns ++ dot :: short /\ ~ In dot short /\ full = ns ++ dot :: t).
(** The message type that a definition defines. *)
Definition message_type (d : definition) (ty : ptype) : Prop :=
  exists p, d_body d = Message p /\ ty = QMsg (d_name d) (p_union p) (p_fields p) (d_override d).
Definition named_type (defined : definition -> Prop) (own t : text) (ty : ptype) : Prop :=
  exists d, defined d /\ refers own t (d_name d) /\ message_type d ty.

(** What the properties of the definition parser mean. *)
From Coq Require Import String.
From Verif.Base Require Import Prelude Bits.
From Verif.Model Require Import Types Prim Float Parser.
From Verif.Spec Require Import FloatSpec.
Open Scope list_scope.
Open Scope N_scope.

(** ** The layout of a text *)

Definition blank (c : N) : Prop := c = 32 \/ c = 9 \/ c = 31.
Definition eol (c : N) : Prop := 10 <= c <= 13 \/ 28 <= c <= 30.
Definition hash : N := 35.
Definition word (w : text) : Prop := w <> [] /\ Forall (fun c => ~ blank c /\ ~ eol c /\ c <> hash) w.
Definition comment (s : text) : Prop := s = [] \/ exists r, s = hash :: r /\ Forall (fun c => ~ eol c) r.
Definition after_word (s : text) : Prop := forall c r, s = c :: r -> blank c \/ c = hash.

(** The words of one line, with space before, between and after them and
    perhaps a comment. *)
Inductive line_of : list text -> text -> Prop :=
| line_end g c : Forall blank g -> comment c -> line_of [] (g ++ c)
| line_word g w ws s :
    Forall blank g -> word w -> line_of ws s -> after_word s -> line_of (w :: ws) (g ++ w ++ s).
(** The lines of a text. *)
Inductive written : list (list text) -> text -> Prop :=
| written_last l s : line_of l s -> written [l] s
| written_more l s e L r : line_of l s -> eol e -> written L r -> written (l :: L) (s ++ e :: r).

(** A line that defines a constant: there is something after the type and
    the name. *)
Definition is_cast (w : text) : Prop := w = txt "saturated" \/ w = txt "truncated".
Definition constant_line (l : list text) : Prop :=
  match l with
  | [] => False
  | w :: r => (is_cast w /\ (3 <= length r)%nat) \/ (~ is_cast w /\ (3 <= length l)%nat)
  end.
(** [code L C]: [C] are the lines of [L] that are neither blank nor constants. *)
Inductive code : list (list text) -> list (list text) -> Prop :=
| code_nil : code [] []
| code_skip l L C : l = [] \/ constant_line l -> code L C -> code (l :: L) C
| code_take l L C : l <> [] -> ~ constant_line l -> code L C -> code (l :: L) (l :: C).
(** Two texts that differ in comments, blank lines, spacing and constants. *)
Definition same_code (a b : text) : Prop :=
  exists La Lb C, written La a /\ written Lb b /\ code La C /\ code Lb C.

(** ** Well-formed definitions *)

(** The codec's view of a type. *)
Fixpoint layout (t : ptype) : dtype :=
  match t with
  | QPrim k n cm => TPrim k n cm
  | QVoid n => TVoid n
  | QArr dyn et mx => TArr dyn (layout et) (Z.to_nat mx)
  | QMsg _ u fs _ => TComp u (map (fun f => layout (snd f)) fs)
  end.
Definition part_layout (p : part) : dtype := TComp (p_union p) (map (fun f => layout (snd f)) (p_fields p)).
Definition parts (b : body) : list part :=
  match b with Message p => [p] | Service rq rs => [rq; rs] end.

Definition lower (c : N) : Prop := 97 <= c <= 122.
Definition upper (c : N) : Prop := 65 <= c <= 90.
Definition digit (c : N) : Prop := 48 <= c <= 57.
Definition underscore : N := 95.
Definition dot : N := 46.
(** A first character of one class, the others of another. *)
Definition spelt (first rest : N -> Prop) (s : text) : Prop :=
  exists c r, s = c :: r /\ first c /\ Forall rest r.
Definition namespace_word : text -> Prop := spelt lower (fun c => lower c \/ digit c \/ c = underscore).
Definition alnum (c : N) : Prop := lower c \/ upper c \/ digit c \/ c = underscore.
(** [ns1.ns2...Name] *)
Inductive full_type_name : text -> Prop :=
| name_short ns nm : namespace_word ns -> spelt upper alnum nm -> full_type_name (ns ++ dot :: nm)
| name_deep ns nm : namespace_word ns -> full_type_name nm -> full_type_name (ns ++ dot :: nm).
Definition attribute_name : text -> Prop := spelt (fun c => lower c \/ upper c) alnum.

Definition is_void (t : ptype) : Prop := exists n, t = QVoid n.
Definition is_array (t : ptype) : Prop := exists d e m, t = QArr d e m.
(** What a type written "void..." may turn out to be: also an array of void,
    and a message of a name space whose name begins like that. *)
Inductive voidish : ptype -> Prop :=
| voidish_void n : voidish (QVoid n)
| voidish_msg r u fs ov : voidish (QMsg (txt "void" ++ r) u fs ov)
| voidish_array dyn et mx : voidish et -> voidish (QArr dyn et mx).

Fixpoint field_names (fs : list field) : list text :=
  match fs with
  | [] => []
  | (Some nm, _) :: r => nm :: field_names r
  | (None, _) :: r => field_names r
  end.

(** Two fields at least and none of them void, if it is a union. *)
Definition union_ok (u : bool) (fs : list field) : Prop :=
  u = true -> (2 <= length fs)%nat /\ Forall (fun f => ~ is_void (snd f)) fs.
(** Every field has a name of its own, except those written "void...". *)
Definition names_ok (fs : list field) : Prop :=
  NoDup (field_names fs) /\ Forall attribute_name (field_names fs) /\
  Forall (fun f => fst f = None -> voidish (snd f)) fs.

Inductive legal_type : ptype -> Prop :=
| legal_bool cm : legal_type (QPrim KBool 1 cm)
| legal_int k n cm : k = KUint \/ k = KInt -> (2 <= n <= 64)%nat -> legal_type (QPrim k n cm)
| legal_float n cm : n = 16%nat \/ n = 32%nat \/ n = 64%nat -> legal_type (QPrim KFloat n cm)
| legal_void n : (1 <= n <= 64)%nat -> legal_type (QVoid n)
| legal_array dyn et mx : legal_type et -> ~ is_array et -> (0 < mx)%Z -> legal_type (QArr dyn et mx)
| legal_msg nm u fs ov :
    full_type_name nm -> names_ok fs -> union_ok u fs ->
    Forall (fun f => legal_type (snd f)) fs -> legal_type (QMsg nm u fs ov).

(** One namespace for the fields and the constants. *)
Definition legal_part (p : part) : Prop :=
  names_ok (p_fields p) /\ union_ok (p_union p) (p_fields p) /\
  Forall (fun f => legal_type (snd f)) (p_fields p) /\
  NoDup (field_names (p_fields p) ++ map k_name (p_consts p)) /\
  Forall (fun c => attribute_name (k_name c)) (p_consts p).
Definition id_ok (b : body) (dtid : option Z) : Prop :=
  forall z, dtid = Some z ->
    match b with Message _ => (0 <= z <= 65535)%Z | Service _ _ => (0 <= z <= 255)%Z end.
Definition legal_definition (d : definition) : Prop :=
  full_type_name (d_name d) /\ Forall legal_part (parts (d_body d)) /\ id_ok (d_body d) (d_dtid d).

(** No array of void, at any depth. *)
Inductive no_void_arrays : ptype -> Prop :=
| nva_prim k n cm : no_void_arrays (QPrim k n cm)
| nva_void n : no_void_arrays (QVoid n)
| nva_array dyn et mx : no_void_arrays et -> ~ is_void et -> no_void_arrays (QArr dyn et mx)
| nva_msg nm u fs ov : Forall (fun f => no_void_arrays (snd f)) fs -> no_void_arrays (QMsg nm u fs ov).

(** ** What a normalised definition determines *)

(** The same type, nested types being compared by name. *)
Inductive same_type : ptype -> ptype -> Prop :=
| same_prim k n cm : same_type (QPrim k n cm) (QPrim k n cm)
| same_void n : same_type (QVoid n) (QVoid n)
| same_array dyn et et' mx : same_type et et' -> same_type (QArr dyn et mx) (QArr dyn et' mx)
| same_msg nm u fs ov u' fs' ov' : same_type (QMsg nm u fs ov) (QMsg nm u' fs' ov').
Definition same_field (f g : field) : Prop :=
  same_type (snd f) (snd g) /\ (voidish (snd f) \/ fst f = fst g).
Definition same_part (p q : part) : Prop :=
  p_union p = p_union q /\ Forall2 same_field (p_fields p) (p_fields q).
Definition same_body (a b : body) : Prop :=
  match a, b with
  | Message p, Message q => same_part p q
  | Service p1 p2, Service q1 q2 => same_part p1 q1 /\ same_part p2 q2
  | _, _ => False
  end.

(** ** Nesting *)

(** [inside nm t]: a message type called [nm] is [t] or nested in it. *)
Inductive inside (nm : text) : ptype -> Prop :=
| inside_here u fs ov : inside nm (QMsg nm u fs ov)
| inside_array dyn et mx : inside nm et -> inside nm (QArr dyn et mx)
| inside_field nm' u fs ov f : In f fs -> inside nm (snd f) -> inside nm (QMsg nm' u fs ov).
Definition fields_of (d : definition) : list field := flat_map p_fields (parts (d_body d)).

(** ** Constants *)

(** The integers a type can represent. *)
Definition int_fits (k : kind) (n : nat) (z : Z) : Prop :=
  match k with
  | KBool | KUint => (0 <= z < 2 ^ Z.of_nat n)%Z
  | KInt => (- 2 ^ (Z.of_nat n - 1) <= z < 2 ^ (Z.of_nat n - 1))%Z
  | KFloat => False
  end.
(** A number in units of 2^-1074, and the greatest one of a float type. *)
Definition const_units (v : cvalue) : option Z :=
  match v with CInt z => Some (z * 2 ^ 1074)%Z | CFloat x => units x end.
Definition float_limit (n : nat) : Z :=
  match n with 16%nat => max16 | 32%nat => max32 | _ => max64 end.
(** The value of a constant is one its type can represent (with rounding, for
    float types), or one too large or too small. *)
Definition const_within (slack : Z) (c : constant) : Prop :=
  match k_type c with
  | KFloat => exists u, const_units (k_value c) = Some u /\ (Z.abs u <= float_limit (k_bits c))%Z
  | k => exists z z', k_value c = CInt z /\ int_fits k (k_bits c) z' /\ (Z.abs (z - z') <= slack)%Z
  end.

(** ** What constants do not change *)

Definition same_struct (p q : part) : Prop := p_union p = p_union q /\ p_fields p = p_fields q.
Definition same_struct_body (a b : body) : Prop :=
  match a, b with
  | Message p, Message q => same_struct p q
  | Service p1 p2, Service q1 q2 => same_struct p1 q1 /\ same_struct p2 q2
  | _, _ => False
  end.
Definition same_but_constants (a b : definition) : Prop :=
  d_name a = d_name b /\ d_dtid a = d_dtid b /\ d_version a = d_version b /\
  d_override a = d_override b /\ same_struct_body (d_body a) (d_body b).

(** Two sets of files of the same names whose texts differ in comments, blank
    lines, spacing and constants only. *)
Definition same_files (read1 read2 : text -> option text) : Prop :=
  forall fn, match read1 fn, read2 fn with
             | Some a, Some b => same_code a b
             | None, None => True
             | _, _ => False
             end.
(** Texts, and sets of files, that differ in comments, blank lines and
    spacing only. *)
Definition nonblank (l : list text) : bool := match l with [] => false | _ => true end.
Definition same_layout (a b : text) : Prop :=
  exists La Lb, written La a /\ written Lb b /\ filter nonblank La = filter nonblank Lb.
Definition same_layout_files (read1 read2 : text -> option text) : Prop :=
  forall fn, match read1 fn, read2 fn with
             | Some a, Some b => same_layout a b
             | None, None => True
             | _, _ => False
             end.

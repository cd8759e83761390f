(** Normalised definitions and the signatures computed from them. *)
From Coq Require Import String.
From Verif.Base Require Import Prelude Bits.
From Verif.Model Require Import Types Parser.
From Verif.Spec Require Import CrcSpec ParserSpec.
Open Scope list_scope.
Open Scope N_scope.

(** ** The normalised text *)

(** A number in decimal, without leading zeros. *)
Inductive numeral : N -> text -> Prop :=
| numeral_digit d : d < 10 -> numeral d [48 + d]
| numeral_more n d s : 0 < n -> d < 10 -> numeral n s -> numeral (10 * n + d) (s ++ [48 + d]).

Inductive mode_name : cast_mode -> text -> Prop :=
| mode_saturated : mode_name Saturated (txt "saturated ")
| mode_truncated : mode_name Truncated (txt "truncated ").
Inductive sized_name : kind -> text -> Prop :=
| sized_uint : sized_name KUint (txt "uint")
| sized_int : sized_name KInt (txt "int")
| sized_float : sized_name KFloat (txt "float").

(** Messages go by their names. *)
Inductive type_text : ptype -> text -> Prop :=
| text_bool n cm c : mode_name cm c -> type_text (QPrim KBool n cm) (c ++ txt "bool")
| text_sized k n cm c w s :
    mode_name cm c -> sized_name k w -> numeral (N.of_nat n) s -> type_text (QPrim k n cm) (c ++ w ++ s)
| text_void n s : numeral (N.of_nat n) s -> type_text (QVoid n) (txt "void" ++ s)
| text_fixed et n e s : type_text et e -> numeral n s ->
    type_text (QArr false et (Z.of_N n)) (e ++ txt "[" ++ s ++ txt "]")
| text_variable et n e s : type_text et e -> numeral n s ->
    type_text (QArr true et (Z.of_N n)) (e ++ txt "[<=" ++ s ++ txt "]")
| text_message nm u fs ov : type_text (QMsg nm u fs ov) nm.

(** The type and the name. A field without a name that is not plain padding is
    called "None". *)
Inductive normal_line : field -> text -> Prop :=
| line_padding nm n s : type_text (QVoid n) s -> normal_line (nm, QVoid n) s
| line_named nm t s : ~ is_void t -> type_text t s -> normal_line (Some nm, t) (s ++ txt " " ++ nm)
| line_nameless t s : ~ is_void t -> type_text t s -> normal_line (None, t) (s ++ txt " None").

Inductive part_lines : part -> list text -> Prop :=
| lines_struct fs cs ls : Forall2 normal_line fs ls -> part_lines {| p_fields := fs; p_consts := cs; p_union := false |} ls
| lines_union fs cs ls : Forall2 normal_line fs ls ->
    part_lines {| p_fields := fs; p_consts := cs; p_union := true |} (txt "@union" :: ls).

(** The full name and the lines, each line ended by one line feed, except the
    last. *)
Definition text_of (first : text) (others : list text) : text := first ++ flat_map (fun l => 10 :: l) others.
Inductive definition_text (name : text) : body -> text -> Prop :=
| message_text p ls : part_lines p ls -> definition_text name (Message p) (text_of name ls)
| service_text rq rs ls ls' : part_lines rq ls -> part_lines rs ls' ->
    definition_text name (Service rq rs) (text_of name (ls ++ [txt "---"] ++ ls')).

(** ** Hashing *)

(** The value [v] continued with the bytes [data] is [w] (CRC-64/WE; 0 is the
    value of nothing). *)
Definition hashed (v : N) (data : list N) (w : N) : Prop :=
  premainder 64 (2 ^ 64 + 0x42F0E1EBA9EA3693)
    (N.lxor (N.shiftl (N.lxor v (N.ones 64)) (8 * N.of_nat (length data))) (N.shiftl (be_number data) 64))
    (N.lxor w (N.ones 64)).

(** Eight bytes, least significant first. *)
Definition le64 (v : N) (b : list N) : Prop :=
  length b = 8%nat /\ byte_string b /\ fold_right (fun x acc => x + 256 * acc) 0 b = v.
(** Each field's signature is added, then the value before that. *)
Inductive chained : N -> list (option N) -> N -> Prop :=
| chain_end v : chained v [] v
| chain_plain v l w : chained v l w -> chained v (None :: l) w
| chain_nested v s b c l v' w :
    le64 s b -> le64 v c -> hashed v (b ++ c) v' -> chained v' l w -> chained v (Some s :: l) w.

(** The signature of the definition alone. *)
Inductive own_signature (name : text) (b : body) : option Z -> N -> Prop :=
| own_given z v : Z.of_N v = (z mod 2 ^ 64)%Z -> own_signature name b (Some z) v
| own_hashed s v : definition_text name b s -> hashed 0 s v -> own_signature name b None v.
(** The signature of a type in a field; some have none. *)
Inductive type_hash : ptype -> option N -> Prop :=
| hash_prim k n cm : type_hash (QPrim k n cm) None
| hash_void n : type_hash (QVoid n) None
| hash_array dyn et mx o : type_hash et o -> type_hash (QArr dyn et mx) o
| hash_message nm u fs ov v sigs w :
    own_signature nm (Message {| p_fields := fs; p_consts := []; p_union := u |}) ov v ->
    Forall2 type_hash (map snd fs) sigs -> chained v sigs w -> type_hash (QMsg nm u fs ov) (Some w).
Definition all_fields (b : body) : list field := flat_map p_fields (parts b).
Inductive definition_hash (d : definition) : N -> Prop :=
| hash_definition v sigs w :
    own_signature (d_name d) (d_body d) (d_override d) v ->
    Forall2 type_hash (map snd (all_fields (d_body d))) sigs -> chained v sigs w -> definition_hash d w.

(** Rendering of messages for people and for JSON: dronecan/introspect.py.
    Objects are the trees of values of Model/Codec.v together with their types
    with names; transfers as a whole (lines 87-109, 213-231) are left out. *)
From Coq Require Import String Ascii.
From Verif.Base Require Import Prelude Bits.
From Verif.Model Require Import Types Codec Prim Float Utf8 Parser ObjectApi.
Open Scope list_scope.
Open Scope N_scope.

(** ** Names of constants: introspect.py 236-326 *)

(** [str.lower] of ASCII text. *)
Definition lower (c : N) : N := if is_upper c then c + 32 else c.

(** [str(z)], [repr(z)] of an [int]. *)
Definition decimal_z (z : Z) : text :=
  if (z <? 0)%Z then 45 :: decimal (Z.to_N (- z)) else decimal (Z.to_N z).

(** [cval == value] for an [int] value; Python compares numbers exactly. *)
Definition cvalue_is (c : cvalue) (z : Z) : bool :=
  match c with
  | CInt x => (x =? z)%Z
  | CFloat (FFin s m e) =>
      let m := signed_mantissa s m in
      if (0 <=? e)%Z then (m * 2 ^ e =? z)%Z else (m =? z * 2 ^ (- e))%Z
  | CFloat _ => false
  end.

Inductive named : Type :=
| Name (s : text)      (* a [str] *)
| Plain (z : Z).       (* the number as it is *)

(** 284, 291, 297, 303, 317: a name counts only if it is not empty. *)
Definition truthy (o : option text) : option text :=
  match o with Some (c :: r) => Some (c :: r) | _ => None end.

(** 307-312: [extract_powers_of_2]; the fuel is the number of binary digits. *)
Fixpoint powers_from (fuel : nat) (i x : Z) : list Z :=
  match fuel with
  | O => []
  | S f =>
      if (i <=? x)%Z
      then (if (Z.land i x =? 0)%Z then [] else [i]) ++ powers_from f (Z.shiftl i 1) x
      else []
  end.
Definition powers_of_2 (x : Z) : list Z := powers_from (S (Z.to_nat (Z.log2 x))) 1 x.

Section ConstantNames.
  (** 248-258: the constants and the number of fields of the struct; the name
      of the field and [keep_literal]. *)
  Variables (consts : list (text * cvalue)) (num_fields : nat) (field_name : text)
            (keep_literal : bool).

  (** 263-268. *)
  Definition format_output (name : text) (value : Z) (remove_common_prefix : bool) : text :=
    let name :=
      if remove_common_prefix then
        let num_seps := length (split_by (N.eqb 95) field_name) in
        join [95] (skipn num_seps (split_by (N.eqb 95) name))
      else name in
    if keep_literal then name ++ txt " (" ++ decimal_z value ++ txt ")" else name.

  (** 271-278. *)
  Definition match_one_prefix (prefix : text) (value : Z) : option text :=
    match filter (fun c => starts_with (map lower prefix) (map lower (fst c)) &&
                           cvalue_is (snd c) value) consts with
    | [c] => Some (fst c)
    | _ => None
    end.

  (** 281-298. Field names are not empty. *)
  Definition match_value (value : Z) : option text :=
    match truthy (match_one_prefix (field_name ++ [95]) value) with
    | Some m => Some (format_output m value true)
    | None =>
        match (if last field_name 0 =? 115
               then truthy (match_one_prefix (removelast field_name ++ [95]) value)
               else None) with
        | Some m => Some (format_output m value true)
        | None =>
            match (if Nat.eqb num_fields 1 then truthy (match_one_prefix [] value) else None) with
            | Some m => Some (format_output m value false)
            | None => None
            end
        end
    end.

  (** 314-323: the names of all bits, or nothing. *)
  Fixpoint match_all (pows : list Z) : list text :=
    match pows with
    | [] => []
    | p :: ps =>
        match truthy (match_value p) with
        | None => []
        | Some m =>
            match ps with
            | [] => [m]
            | _ => match match_all ps with [] => [] | ms => m :: ms end
            end
        end
    end.

  (** 236-326: [value_to_constant_name] of a field that holds the integer
      [value]. (A boolean behaves like 0 or 1, but [repr] differs; other
      values are not integers and are not looked up by [to_yaml].) *)
  Definition value_to_constant_name (value : Z) : named :=
    match truthy (match_value value) with
    | Some m => Name m
    | None =>
        match match_all (powers_of_2 value) with
        | [] => Plain value
        | ms => Name (join (txt " | ") ms)
        end
    end.
End ConstantNames.

(** ** Values of primitive fields *)

Inductive number : Type := NBool (b : bool) | NInt (z : Z) | NFloat (x : pyfloat).

(** transport.py 285-305: the getter, [None] without bits. *)
Definition read_prim (k : kind) (n : nat) (b : bits) : res (option number) :=
  match k with
  | KFloat => o <- get_float n b ;; Ok (option_map NFloat o)
  | KBool => Ok (option_map (fun z => NBool (negb (z =? 0)%Z)) (get_int KBool n b))
  | _ => Ok (option_map NInt (get_int k n b))
  end.
(** transport.py 365-369: an array item reads as 0 then. *)
Definition read_item (et : atype) (v : value) : res number :=
  match et, v with
  | APrim k n _, VPrim [] => Ok (NInt 0)
  | APrim k n _, VPrim b =>
      o <- read_prim k n b ;;
      match o with Some x => Ok x | None => Err ValueError end
  | _, _ => Err TypeError
  end.

(** transport.py 472-475: [decode] of the items. *)
Fixpoint number_bytes (l : list number) : res (list N) :=
  match l with
  | [] => Ok []
  | NInt z :: r =>
      if (0 <=? z)%Z && (z <? 256)%Z
      then bs <- number_bytes r ;; Ok (Z.to_N z :: bs) else Err ValueError
  | NBool b :: r => bs <- number_bytes r ;; Ok ((if b then 1 else 0) :: bs)
  | NFloat _ :: r => Err TypeError
  end.

(** ** introspect.py 21-74: [_to_json_compatible_object_impl] *)

Inductive json : Type :=
| JNum (x : number)
| JStr (s : text)
| JList (l : list json)
| JDict (d : list (string * json))
| JNone.

(** 42-47: [is_nice_character] asks an [int] for [is_printable]. *)
Definition all_nice_json (l : list number) : res bool :=
  match l with [] => Ok true | _ => Err AttributeError end.

(** 29-35: the loop over the fields; [active] tells whether the field is to
    be shown. *)
Fixpoint json_fields (names : list (string * atype)) (fs : list (value -> res json))
    (vs : list value) (shown : nat -> bool) (i : nat) : res (list (string * json)) :=
  match names, fs, vs with
  | [], [], [] => Ok []
  | (nm, t) :: names', f :: fs', v :: vs' =>
      match t with
      | AVoid _ => json_fields names' fs' vs' shown (S i)
      | _ =>
          if shown i then
            j <- f v ;;
            r <- json_fields names' fs' vs' shown (S i) ;;
            Ok ((nm, j) :: r)
          else json_fields names' fs' vs' shown (S i)
      end
  | _, _, _ => Err TypeError
  end.

(** 30: which fields are not skipped. *)
Definition shown (union : bool) (active : option nat) (i : nat) : bool :=
  if union then match active with Some a => Nat.eqb a i | None => false end else true.

Fixpoint to_json (t : atype) (v : value) {struct t} : res json :=
  match t with
  | APrim k n _ =>
      match v with
      | VPrim b =>
          o <- read_prim k n b ;;
          match o with Some x => Ok (JNum x) | None => Err ValueError end
      | _ => Err TypeError
      end
  | AVoid _ => Ok JNone
  | AArr dyn et mx =>
      match v with
      | VArr items =>
          match et with
          | APrim _ _ _ =>
              xs <- mapM (read_item et) items ;;
              nice <- (if string_like dyn et then all_nice_json xs else Ok false) ;;
              if nice then
                bs <- number_bytes xs ;;
                s <- utf8_decode bs ;;
                Ok (JStr s)
              else Ok (JList (map JNum xs))
          | _ => js <- mapM (to_json et) items ;; Ok (JList js)
          end
      | _ => Err TypeError
      end
  | AComp _ u fs _ =>
      let js := map (fun f => to_json (snd f)) fs in
      match v with
      | VComp vs active =>
          d <- json_fields fs js vs (shown u active) 0 ;;
          Ok (JDict d)
      | _ => Err TypeError
      end
  end.

(** ** introspect.py 114-200: [_to_yaml_impl] *)

(** 154-159: [is_nice_character]; [ch in b'\n\r\t'] raises for a number that
    is not a byte. Numbers other than [int] do not occur in string-like
    arrays. *)
Definition nice_yaml (x : number) : res bool :=
  match x with
  | NInt z =>
      if (32 <=? z)%Z && (z <=? 126)%Z then Ok true
      else if (z <? 0)%Z || (256 <=? z)%Z then Err ValueError
      else Ok ((z =? 10) || (z =? 13) || (z =? 9))%Z
  | NBool b => Ok false
  | NFloat _ => Err TypeError
  end.
(** [all(map(f, l))]. *)
Fixpoint all_yaml (l : list number) : res bool :=
  match l with
  | [] => Ok true
  | x :: r => b <- nice_yaml x ;; if b then all_yaml r else Ok false
  end.

Section Yaml.
  (** ['%.4f' % x] and so on, by the width of the field; [repr(s)]. *)
  Variables (fmt_float : nat -> pyfloat -> text) (py_repr : text -> text).

  (** 175-190: primitive values; [owner]: the constants, the number of fields
      of the struct and the name of the field, if there is one. *)
  Definition yaml_number (n : nat) (owner : option (list (text * cvalue) * nat * text))
      (x : number) : text :=
    match x with
    | NFloat x => fmt_float n x
    | NBool b => if b then txt "true" else txt "false"
    | NInt z =>
        decimal_z z ++
        match owner with
        | Some (cs, nf, nm) =>
            match value_to_constant_name cs nf nm false z with
            | Name s => txt " # " ++ s
            | Plain _ => []
            end
        | None => []
        end
    end.

  (** 120-121: [os.linesep] is taken to be a line feed. *)
  Definition newline (indent : nat) : text := LF :: repeat 32 (2 * indent).

  (** 133-142: the loop over the fields; [first] is [first_field]. *)
  Fixpoint yaml_fields (names : list (string * atype))
      (fs : list (value -> nat -> option (list (text * cvalue) * nat * text) -> res text))
      (vs : list value) (shown : nat -> bool) (i indent : nat)
      (owner : text -> option (list (text * cvalue) * nat * text)) (first : bool)
      : res (text * bool) :=
    match names, fs, vs with
    | [], [], [] => Ok ([], first)
    | (nm, t) :: names', f :: fs', v :: vs' =>
        match t with
        | AVoid _ => yaml_fields names' fs' vs' shown (S i) indent owner first
        | _ =>
            if shown i then
              let nl := if (first && Nat.ltb 0 indent) || negb first then newline indent else [] in
              s <- f v (S indent) (owner (txt nm)) ;;
              '(r, fst') <- yaml_fields names' fs' vs' shown (S i) indent owner false ;;
              Ok (nl ++ txt nm ++ txt ": " ++ s ++ r, fst')
            else yaml_fields names' fs' vs' shown (S i) indent owner first
        end
    | _, _, _ => Err TypeError
    end.

  Fixpoint to_yaml (t : atype) (v : value) (indent : nat)
      (owner : option (list (text * cvalue) * nat * text)) {struct t} : res text :=
    match t with
    | APrim k n _ =>
        match v with
        | VPrim b =>
            o <- read_prim k n b ;;
            match o with Some x => Ok (yaml_number n owner x) | None => Err ValueError end
        | _ => Err TypeError
        end
    | AVoid _ => Ok []
    | AArr dyn et mx =>
        match v with
        | VArr items =>
            match et with
            | APrim k n _ =>
                xs <- mapM (read_item et) items ;;
                let as_bytes := txt "[" ++ join (txt ", ") (map (yaml_number n None) xs) ++ txt "]" in
                nice <- (if string_like dyn et then all_yaml xs else Ok false) ;;
                if nice then
                  bs <- number_bytes xs ;;
                  s <- utf8_decode bs ;;
                  Ok (py_repr s ++ txt " # " ++ as_bytes)
                else Ok as_bytes
            | _ =>
                match items with
                | [] => Ok (txt "[]")
                | _ =>
                    ss <- mapM (fun x => to_yaml et x (S indent) None) items ;;
                    Ok (List.concat (map (fun s => newline indent ++ txt "- " ++ s) ss))
                end
            end
        | _ => Err TypeError
        end
    | AComp _ u fs cs =>
        let ys := map (fun f => to_yaml (snd f)) fs in
        let consts := map (fun c => (txt (fst c), CInt (snd c))) cs in
        match v with
        | VComp vs active =>
            '(s, first) <- yaml_fields fs ys vs (shown u active) 0 indent
                             (fun nm => Some (consts, length fs, nm)) true ;;
            if first && negb u
            then Ok (s ++ (if Nat.ltb 0 indent then newline indent else []) ++ txt "{}")
            else Ok s
        | _ => Err TypeError
        end
    end.
End Yaml.

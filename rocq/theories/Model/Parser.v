(** The DSDL parser: dronecan/dsdl/parser.py 410-815. Text is a list of code
    points; only ASCII has a meaning here (Python also takes other digits,
    white space and line breaks). Every failure ends as a [DsdlException]
    (parser.py 677-683, 713-716, 725-729); its text, file and line are left
    out. *)
From Coq Require Import String Ascii.
From Verif.Base Require Import Prelude Bits.
From Verif.Model Require Import Types Prim Float Slcan Crc.
Open Scope list_scope.
Open Scope N_scope.

Definition text := list N.
Definition txt (s : string) : text := map N_of_ascii (list_ascii_of_string s).
Definition text_eqb (a b : text) : bool := if list_eq_dec N.eq_dec a b then true else false.

(** ** Python's text functions *)

(** What [str.split] and [str.strip] take for white space, and what
    [str.splitlines] takes for the end of a line. "\r\n" is one line end there
    and two here, which only makes a blank line more. *)
Definition is_ws (c : N) : bool := (c =? 32) || (9 <=? c) && (c <=? 13) || (28 <=? c) && (c <=? 31).
Definition is_break (c : N) : bool := (10 <=? c) && (c <=? 13) || (28 <=? c) && (c <=? 30).

(** Pieces between the characters that satisfy [p]. *)
Fixpoint split_by (p : N -> bool) (s : text) : list text :=
  match s with
  | [] => [[]]
  | c :: r =>
      if p c then [] :: split_by p r
      else match split_by p r with
           | w :: ws => (c :: w) :: ws
           | [] => [[c]]
           end
  end.
Definition nonempty {A} (l : list A) : bool := match l with [] => false | _ => true end.
(** [str.splitlines] (an empty last line more or less is of no interest),
    [str.split()], [str.split('.')]. *)
Definition splitlines (s : text) : list text := split_by is_break s.
Definition words (s : text) : list text := filter nonempty (split_by is_ws s).
Definition split_dots (s : text) : list text := split_by (N.eqb 46) s.
Fixpoint join (sep : text) (ps : list text) : text :=
  match ps with
  | [] => []
  | [p] => p
  | p :: ps' => p ++ sep ++ join sep ps'
  end.
Fixpoint starts_with (p s : text) : bool :=
  match p, s with
  | [], _ => true
  | a :: p', b :: s' => (a =? b) && starts_with p' s'
  | _, _ => false
  end.
Definition strip_dots (s : text) : text := strip (N.eqb 46) s.

Definition is_digit (c : N) : bool := (48 <=? c) && (c <=? 57).
Definition is_lower (c : N) : bool := (97 <=? c) && (c <=? 122).
Definition is_upper (c : N) : bool := (65 <=? c) && (c <=? 90).
(** [re.match(r'<first><rest>*$', s)]. (The pattern also takes a line feed at
    the end, which no token has; file names are assumed to have none.) *)
Definition matches (first rest : N -> bool) (s : text) : bool :=
  match s with [] => false | c :: r => first c && forallb rest r end.
Definition name_char (c : N) : bool := is_lower c || is_upper c || is_digit c || (c =? 95).
Definition ns_char (c : N) : bool := is_lower c || is_digit c || (c =? 95).

(** Numbers. Digits of the base with single underscores between them. *)
Definition digit_value (base : N) (c : N) : option N :=
  match hex_value c with
  | Some d => if d <? base then Some d else None
  | None => None
  end.
Fixpoint scan_int (base : N) (s : text) (acc : N) (digit : bool) : option N :=
  match s with
  | [] => if digit then Some acc else None
  | c :: r =>
      if c =? 95 then if digit then scan_int base r acc false else None
      else match digit_value base c with
           | Some d => scan_int base r (base * acc + d) true
           | None => None
           end
  end.
(** Digits after a prefix may begin with an underscore. *)
Definition after_prefix (s : text) : text := match s with 95 :: r => r | _ => s end.
Definition unsigned_int (base : N) (s : text) : option N :=
  if base =? 0 then
    match s with
    | 48 :: x :: r =>
        if (x =? 120) || (x =? 88) then scan_int 16 (after_prefix r) 0 false
        else if (x =? 111) || (x =? 79) then scan_int 8 (after_prefix r) 0 false
        else if (x =? 98) || (x =? 66) then scan_int 2 (after_prefix r) 0 false
        else match scan_int 10 s 0 false with
             | Some 0 => Some 0      (* 00 is a number, 07 is not *)
             | _ => None
             end
    | _ => scan_int 10 s 0 false
    end
  else
    scan_int base s 0 false.
(** [int(s)] for base 10, [int(s, 0)] for base 0. *)
Definition py_int (base : N) (s : text) : res Z :=
  let s := strip is_ws s in
  let '(neg, s) := match s with
                   | 43 :: r => (false, r)
                   | 45 :: r => (true, r)
                   | _ => (false, s)
                   end in
  match unsigned_int base s with
  | Some n => Ok (if neg then - Z.of_N n else Z.of_N n)%Z
  | None => Err ValueError
  end.

(** ** Types *)

(** parser.py 74-349. [QMsg]: a message type used inside another; its
    constants and its data type id are of no use there. Capacities are
    numbers of any size. Field names are [None] where the code has [None]. *)
Inductive ptype : Type :=
| QPrim (k : kind) (bitlen : nat) (cm : cast_mode)
| QVoid (bitlen : nat)
| QArr (dyn : bool) (et : ptype) (max_size : Z)
| QMsg (full_name : text) (union : bool) (fields : list (option text * ptype)) (override : option Z).

(** parser.py 352-407. *)
Inductive pyv : Type := (* what [eval] may return *)
| VStr (s : text)
| VInt (z : Z)          (* also [bool] *)
| VFloat (x : pyfloat)
| VOther.
Inductive cvalue : Type := CInt (z : Z) | CFloat (x : pyfloat).
Record constant := { k_type : kind; k_bits : nat; k_cast : cast_mode; k_name : text; k_value : cvalue }.
Definition field := (option text * ptype)%type.
(** The attributes of a message, of a request or of a response. *)
Record part := { p_fields : list field; p_consts : list constant; p_union : bool }.
Inductive body : Type := Message (p : part) | Service (request response : part).
(** parser.py 215-260 and 685-701: [CompoundType]. *)
Record definition := {
  d_name : text; d_dtid : option Z; d_version : option (Z * Z); d_body : body; d_override : option Z
}.

(** ** Normalised definitions and signatures *)

Definition decimal_digit (d : N) : N := 48 + d.
(** [str(n)], with fuel for the number of digits. *)
Fixpoint decimal_aux (fuel : nat) (n : N) (acc : text) : text :=
  match fuel with
  | O => acc
  | S f => let acc' := decimal_digit (n mod 10) :: acc in
           if n / 10 =? 0 then acc' else decimal_aux f (n / 10) acc'
  end.
Definition decimal (n : N) : text := decimal_aux (S (N.to_nat (N.size n))) n [].

(** parser.py 103-112, 149-152, 305-307, 339-341: [get_normalized_definition]. *)
Fixpoint normalized (t : ptype) : text :=
  match t with
  | QPrim k n cm =>
      (match cm with Saturated => txt "saturated" | Truncated => txt "truncated" end) ++ txt " " ++
      (match k with
       | KBool => txt "bool"
       | KUint => txt "uint" ++ decimal (N.of_nat n)
       | KInt => txt "int" ++ decimal (N.of_nat n)
       | KFloat => txt "float" ++ decimal (N.of_nat n)
       end)
  | QVoid n => txt "void" ++ decimal (N.of_nat n)
  | QArr dyn et mx =>
      normalized et ++ (if dyn then txt "[<=" else txt "[") ++ decimal (Z.to_N mx) ++ txt "]"
  | QMsg nm _ _ _ => nm
  end.

(** parser.py 381-385 ("None" is what "%s" makes of a missing name). *)
Definition field_text (f : field) : text :=
  match snd f with
  | QVoid _ => normalized (snd f)
  | _ => normalized (snd f) ++ txt " " ++ (match fst f with Some nm => nm | None => txt "None" end)
  end.

Definition LF : N := 10.
(** [str.replace('\n' * n, '\n')]: leftmost occurrences that do not overlap. *)
Fixpoint squeeze (fuel : nat) (run : text) (s : text) : text :=
  match fuel with
  | O => s
  | S f =>
      match s with
      | [] => []
      | c :: r => if starts_with run s then LF :: squeeze f run (skipn (length run) s)
                  else c :: squeeze f run r
      end
  end.
Definition replace_run (n : nat) (s : text) : text := squeeze (length s) (repeat LF n) s.

(** parser.py 277-278: [adjoin]. *)
Definition adjoin (fs : list field) : text := join [LF] (map field_text fs) ++ [LF].
Definition union_mark (u : bool) : text := if u then [LF] ++ txt "@union" ++ [LF] else [].

(** parser.py 269-294: [get_dsdl_signature_source_definition]. *)
Definition source_definition (name : text) (b : body) : text :=
  let t :=
    name ++ [LF] ++
    match b with
    | Service rq rs =>
        union_mark (p_union rq) ++ adjoin (p_fields rq) ++ [LF] ++ txt "---" ++ [LF] ++
        union_mark (p_union rs) ++ adjoin (p_fields rs)
    | Message p => union_mark (p_union p) ++ adjoin (p_fields p)
    end in
  replace_run 2 (replace_run 3 (strip is_ws t)).

(** parser.py 296-303: [get_dsdl_signature]. *)
Definition dsdl_signature (name : text) (b : body) (override : option Z) : Z :=
  match override with
  | Some z => z
  | None => Z.of_N (compute_signature (source_definition name b))
  end.

(** parser.py 309-325: the loop over the fields, [None] for types without a
    signature. *)
Definition extend_signature (start : Z) (field_sigs : list (option N)) : N :=
  sig_value
    (fold_left (fun crc o =>
                  match o with
                  | Some s => let v := sig_value crc in
                              sig_add (sig_add crc (bytes_from_crc64 s)) (bytes_from_crc64 v)
                  | None => crc
                  end) field_sigs (sig_init (Some (Z.to_N (Z.land start (Z.of_N MASK64)))))).
(** [get_data_type_signature] of a type used in a field (168-169 for arrays). *)
Fixpoint type_signature (t : ptype) : option N :=
  match t with
  | QPrim _ _ _ | QVoid _ => None
  | QArr _ et _ => type_signature et
  | QMsg nm u fs ov =>
      Some (extend_signature
              (dsdl_signature nm (Message {| p_fields := fs; p_consts := []; p_union := u |}) ov)
              (map (fun f => type_signature (snd f)) fs))
  end.
Definition body_fields (b : body) : list field :=
  match b with Message p => p_fields p | Service rq rs => p_fields rq ++ p_fields rs end.
Definition data_type_signature (d : definition) : N :=
  extend_signature (dsdl_signature (d_name d) (d_body d) (d_override d))
    (map (fun f => type_signature (snd f)) (body_fields (d_body d))).

(** ** Names *)

Definition MAX_FULL_TYPE_NAME_LEN : nat := 80.
Definition enforce (b : bool) : res unit := if b then Ok tt else Err DsdlException.
Definition refuse {A} (r : res A) : res A := match r with Ok x => Ok x | Err _ => Err DsdlException end.

(** parser.py 770-773 *)
Definition validate_namespace_name (name : text) : res unit :=
  _ <- enforce (forallb (matches is_lower ns_char) (split_dots name)) ;;
  enforce (Nat.leb (length name) MAX_FULL_TYPE_NAME_LEN).
(** parser.py 776-782 *)
Definition namespace_of (name : text) : text := join [46] (removelast (split_dots name)).
Definition validate_compound_type_full_name (name : text) : res unit :=
  _ <- enforce (existsb (N.eqb 46) name) ;;
  _ <- validate_namespace_name (namespace_of name) ;;
  _ <- enforce (matches is_upper name_char (last (split_dots name) [])) ;;
  enforce (Nat.leb (length name) MAX_FULL_TYPE_NAME_LEN).
(** parser.py 785-786 *)
Definition validate_attribute_name (name : text) : res unit :=
  enforce (matches (fun c => is_lower c || is_upper c) name_char name).

Definition slash : N := 47.
(** [os.path.basename], and the part of the path before it. *)
Definition basename (fn : text) : text := last (split_by (N.eqb slash) fn) [].

Section Parser.
  (** The root directories ([search_dirs], absolute and normalised), none of
      which is the beginning of another (759-767); the files in a directory
      ([os.listdir], [None] if it is no directory); the content of a file
      ([None] if it is none); [eval] (745-756), [None] if it raises. *)
  Variable search_dirs : list text.
  Variable listdir : text -> option (list text).
  Variable read : text -> option text.
  Variable ev : text -> option pyv.

  (** parser.py 418-430: [_namespace_from_filename]. The directories are
      tried in another order there; only one can match. *)
  Definition namespace_from_filename (fn : text) : res text :=
    match find (fun d => starts_with d fn) search_dirs with
    | None => Err DsdlException
    | Some d =>
        let root_ns := last (split_by (N.eqb slash) d) [] in
        let mid := firstn (length fn - length d - length (basename fn)) (skipn (length d) fn) in
        let ns := strip_dots (root_ns ++ [46] ++
                    strip_dots (map (fun c => if c =? slash then 46 else c) mid)) in
        _ <- validate_namespace_name ns ;; Ok ns
    end.

  (** parser.py 451-455: the message is formatted with one argument too many,
      which raises [TypeError]. *)
  Definition version_number (s : text) : res Z :=
    match py_int 10 s with Ok z => Ok z | Err _ => Err TypeError end.
  (** parser.py 432-459: [_full_typename_version_and_dtid_from_filename]. *)
  Definition name_from_filename (fn : text) : res (text * option (Z * Z) * option Z) :=
    let items := split_dots (basename fn) in
    let n := length items in
    _ <- enforce ((Nat.leb 2 n && Nat.leb n 5)%bool && text_eqb (last items []) (txt "uavcan")) ;;
    '(dtid, name) <-
      (if (Nat.eqb n 2 || Nat.eqb n 4)%bool then Ok (None, nth 0 items [])
       else d <- refuse (py_int 10 (nth 0 items [])) ;; Ok (Some d, nth 1 items [])) ;;
    version <-
      (if (Nat.eqb n 2 || Nat.eqb n 3)%bool then Ok None
       else a <- version_number (nth (n - 3) items []) ;;
            b <- version_number (nth (n - 2) items []) ;; Ok (Some (a, b))) ;;
    ns <- namespace_from_filename fn ;;
    let full := ns ++ [46] ++ name in
    _ <- validate_compound_type_full_name full ;;
    Ok (full, version, dtid).

  (** parser.py 481-494: the search in one directory. *)
  Definition locate_in (full : text) (dir : text) : option text :=
    match listdir dir with
    | None => None
    | Some names =>
        find (fun fn =>
                match read fn with
                | None => false
                | Some _ =>
                    match name_from_filename fn with
                    | Ok (full', _, _) => text_eqb full full'
                    | Err _ => false
                    end
                end) (map (fun nm => dir ++ [slash] ++ nm) names)
    end.
  Fixpoint locate_any (full : text) (dirs : list text) : option text :=
    match dirs with
    | [] => None
    | d :: dirs' => match locate_in full d with Some fn => Some fn | None => locate_any full dirs' end
    end.
  (** parser.py 461-494: [_locate_compound_type_definition]. *)
  Definition locate (fn typename : text) : res text :=
    full <- (if existsb (N.eqb 46) typename then Ok typename
             else ns <- namespace_from_filename fn ;; Ok (ns ++ [46] ++ typename)) ;;
    let comps := removelast (split_dots full) in
    let dirs := map (fun d => join [slash] (d :: tl comps))
                  (filter (fun d => text_eqb (last (split_by (N.eqb slash) d) []) (hd [] comps))
                          search_dirs) in
    match dirs with
    | [] => Err DsdlException
    | _ => match locate_any full dirs with Some fn' => Ok fn' | None => Err DsdlException end
    end.

  (** ** Types *)

  (** parser.py 497-500 *)
  Definition parse_void_type (bitlen : N) : res ptype :=
    _ <- enforce ((1 <=? bitlen) && (bitlen <=? 64)) ;; Ok (QVoid (N.to_nat bitlen)).

  (** parser.py 507-521, after the value type. *)
  Definition parse_array_type (et : ptype) (size_spec : text) : res ptype :=
    _ <- enforce (match et with QArr _ _ _ => false | _ => true end) ;;
    '(mx, dyn) <-
      refuse (if starts_with (txt "<=") size_spec
              then n <- py_int 0 (skipn 2 size_spec) ;; Ok (n, true)
              else if starts_with (txt "<") size_spec
              then n <- py_int 0 (skipn 1 size_spec) ;; Ok ((n - 1)%Z, true)
              else n <- py_int 0 size_spec ;; Ok (n, false)) ;;
    _ <- enforce (0 <? mx)%Z ;;
    Ok (QArr dyn et mx).

  (** parser.py 525-549; [cast]: the specifier that was given. *)
  Definition parse_primitive_type (base : text) (bitlen : N) (cast : option text) : res ptype :=
    cm <- (match cast with
           | None => Ok Saturated
           | Some c => if text_eqb c (txt "saturated") then Ok Saturated
                       else if text_eqb c (txt "truncated") then Ok Truncated
                       else Err DsdlException
           end) ;;
    if text_eqb base (txt "bool") then Ok (QPrim KBool 1 cm)
    else
      k <- (if text_eqb base (txt "uint") then Ok KUint
            else if text_eqb base (txt "int") then Ok KInt
            else if text_eqb base (txt "float") then Ok KFloat
            else Err DsdlException) ;;
      _ <- enforce (match k with
                    | KFloat => (bitlen =? 16) || (bitlen =? 32) || (bitlen =? 64)
                    | _ => (2 <=? bitlen) && (bitlen <=? 64)
                    end) ;;
      Ok (QPrim k (N.to_nat bitlen) cm).

  (** One or two digits, and nothing else. *)
  Definition small_number (s : text) : option N :=
    match s with
    | [a] => if is_digit a then Some (a - 48) else None
    | [a; b] => if is_digit a && is_digit b then Some (10 * (a - 48) + (b - 48)) else None
    | _ => None
    end.
  (** [re.match(r'void(\d{1,2})$', s)] *)
  Definition void_match (s : text) : option N :=
    if starts_with (txt "void") s then small_number (skipn 4 s) else None.
  (** parser.py 562: the shortest beginning, of one character at least, after
      which there is nothing but a size in brackets. *)
  Fixpoint size_part (s : text) : option text :=
    match s with
    | [] => None
    | [c] => if c =? 93 then Some [] else None
    | c :: r => if c =? 93 then None else option_map (cons c) (size_part r)
    end.
  Fixpoint find_size (s : text) : option (text * text) :=
    match s with
    | [] => None
    | c :: r =>
        match (if c =? 91 then size_part r else None) with
        | Some z => Some ([], z)
        | None => match find_size r with Some (p, z) => Some (c :: p, z) | None => None end
        end
    end.
  Definition array_match (s : text) : option (text * text) :=
    match s with
    | [] => None
    | c :: r => match find_size r with Some (p, z) => Some (c :: p, z) | None => None end
    end.
  (** [re.match(r'([a-z]+)(\d{1,2})$|(bool)$', s)]; 1 bit for bool. *)
  Definition primitive_match (s : text) : option (text * N) :=
    if text_eqb s (txt "bool") then Some (s, 1)
    else
      let base := rev (drop_while is_digit (rev s)) in
      if nonempty base && forallb is_lower base then
        match small_number (skipn (length base) s) with
        | Some n => Some (base, n)
        | None => None
        end
      else None.

  (** parser.py 559-582: [_parse_type]; [parse] is the parser for a nested
      definition (551-557); [fuel] for the brackets, of which each call takes
      one pair. *)
  Fixpoint parse_type (parse : text -> res definition) (fuel : nat) (fn typedef : text)
      (cast : option text) {struct fuel} : res ptype :=
    match fuel with
    | O => Err DsdlException
    | S f =>
        let typedef := strip is_ws typedef in
        match void_match typedef with
        | Some n => parse_void_type n
        | None =>
            match array_match typedef with
            | Some (value_typedef, size_spec) =>
                et <- parse_type parse f fn (strip is_ws value_typedef) cast ;;
                parse_array_type et (strip is_ws size_spec)
            | None =>
                match primitive_match typedef with
                | Some (base, n) => parse_primitive_type base n cast
                | None =>
                    _ <- enforce (match cast with None => true | Some _ => false end) ;;
                    fn' <- locate fn typedef ;;
                    d <- parse fn' ;;
                    match d_body d with
                    | Service _ _ => Err DsdlException
                    | Message p => Ok (QMsg (d_name d) (p_union p) (p_fields p) (d_override d))
                    end
                end
            end
        end
    end.

  (** ** Attributes *)

  (** [int(x)] of a float. *)
  Definition int_of_float (x : pyfloat) : res Z :=
    match x with
    | FFin s m e => let q := (if 0 <=? e then m * 2 ^ e else m / 2 ^ (- e))%Z in
                    Ok (if s then - q else q)%Z
    | FInf _ => Err OverflowError
    | FNan => Err ValueError
    end.
  (** [float(z)]: the nearest float. *)
  Definition float_of_int (z : Z) : res pyfloat :=
    p <- pack_f64 (FFin (z <? 0)%Z (Z.abs z) 0) ;; Ok (unpack_f64 p).
  (** [low <= x <= high] for a float type, 114-121 and type_limits.py 25-34. *)
  Definition float_in_range (n : nat) (x : pyfloat) : res bool :=
    hi <- float_max n ;; Ok (fge hi x && fge x (fneg hi)).

  (** parser.py 584-604: [_make_constant]. *)
  Definition make_constant (t : ptype) (name expr : text) : res constant :=
    match t with
    | QPrim k n cm =>
        v <- (match ev (List.concat (words expr)) with
              | None => Err DsdlException
              | Some (VStr [c]) => Ok (CInt (Z.of_N c))
              | Some (VInt z) =>
                  match k with
                  | KFloat => x <- float_of_int z ;; Ok (CFloat x)
                  | _ => Ok (CInt z)
                  end
              | Some (VFloat x) =>
                  match k with
                  | KFloat => Ok (CFloat x)
                  | _ => z <- int_of_float x ;; Ok (CInt z)
                  end
              | Some _ => Err DsdlException
              end) ;;
        ok <- (match k, v with
               | KFloat, CFloat x => float_in_range n x
               | KFloat, CInt z => float_in_range n (FFin (z <? 0)%Z (Z.abs z) 0)
               | _, CInt z => '(lo, hi) <- value_range k n ;; Ok ((lo <=? z) && (z <=? hi))%Z
               | _, CFloat _ => Err TypeError      (* does not happen *)
               end) ;;
        _ <- enforce ok ;;
        Ok {| k_type := k; k_bits := n; k_cast := cm; k_name := name; k_value := v |}
    | _ => Err DsdlException
    end.

  Inductive attribute : Type := AField (f : field) | AConst (c : constant).

  (** parser.py 606-628: [_parse_line]. *)
  Definition parse_line (parse : text -> res definition) (fn : text) (tokens : list text)
      : res attribute :=
    let '(cast, tokens) :=
      match tokens with
      | t0 :: r => if text_eqb t0 (txt "saturated") || text_eqb t0 (txt "truncated")
                   then (Some t0, r) else (None, tokens)
      | [] => (None, tokens)
      end in
    match tokens with
    | [] => Err DsdlException      (* IndexError in the code *)
    | [typename] =>
        if starts_with (txt "void") typename then
          t <- parse_type parse (S (length typename)) fn typename cast ;; Ok (AField (None, t))
        else Err DsdlException
    | typename :: attrname :: rest =>
        _ <- validate_attribute_name attrname ;;
        t <- parse_type parse (S (length typename)) fn typename cast ;;
        match rest with
        | [] => Ok (AField (Some attrname, t))
        | eq :: expr =>
            if nonempty expr && text_eqb eq (txt "=") then
              c <- make_constant t attrname (join (txt " ") expr) ;; Ok (AConst c)
            else Err DsdlException
        end
    end.

  (** ** Definitions *)

  (** parser.py 630-636: [_tokenize]. *)
  Fixpoint strip_comment (line : text) : text :=
    match line with
    | [] => []
    | c :: r => if c =? 35 then [] else c :: strip_comment r
    end.
  Definition tokenize (source : text) : list (list text) :=
    filter nonempty (map (fun line => words (strip_comment line)) (splitlines source)).

  (** The local variables of [parse_source]; the attributes are in the order
      in which they were found. *)
  Record pstate := {
    s_names : list text; s_request : part; s_response : part; s_is_response : bool;
    s_override : option Z
  }.
  Definition empty_part : part := {| p_fields := []; p_consts := []; p_union := false |}.
  Definition pstate0 : pstate :=
    {| s_names := []; s_request := empty_part; s_response := empty_part;
       s_is_response := false; s_override := None |}.
  Definition current (s : pstate) : part := if s_is_response s then s_response s else s_request s.
  Definition set_current (s : pstate) (names : list text) (p : part) : pstate :=
    if s_is_response s
    then {| s_names := names; s_request := s_request s; s_response := p;
            s_is_response := true; s_override := s_override s |}
    else {| s_names := names; s_request := p; s_response := s_response s;
            s_is_response := false; s_override := s_override s |}.
  Definition add_attr (p : part) (a : attribute) : part :=
    match a with
    | AField f => {| p_fields := p_fields p ++ [f]; p_consts := p_consts p; p_union := p_union p |}
    | AConst c => {| p_fields := p_fields p; p_consts := p_consts p ++ [c]; p_union := p_union p |}
    end.
  Definition attr_name (a : attribute) : option text :=
    match a with AField f => fst f | AConst c => Some (k_name c) end.

  (** parser.py 647-676: one line. *)
  Definition line_step (parse : text -> res definition) (fn : text) (s : pstate)
      (tokens : list text) : res pstate :=
    match tokens with
    | [t] =>
        if text_eqb t (txt "---") then
          _ <- enforce (negb (s_is_response s)) ;;
          Ok {| s_names := []; s_request := s_request s; s_response := s_response s;
                s_is_response := true; s_override := s_override s |}
        else if text_eqb t (txt "@union") then
          let p := current s in
          _ <- enforce (negb (p_union p)) ;;
          Ok (set_current s (s_names s)
                {| p_fields := p_fields p; p_consts := p_consts p; p_union := true |})
        else
          a <- parse_line parse fn tokens ;;
          match attr_name a with
          | Some nm =>
              _ <- enforce (negb (existsb (text_eqb nm) (s_names s))) ;;
              Ok (set_current s (nm :: s_names s) (add_attr (current s) a))
          | None => Ok (set_current s (s_names s) (add_attr (current s) a))
          end
    | _ =>
        match (match tokens with
               | [t0; t1] => if text_eqb t0 (txt "OVERRIDE_SIGNATURE") then Some t1 else None
               | _ => None
               end) with
        | Some t1 =>
            z <- refuse (int16 t1) ;;
            Ok {| s_names := s_names s; s_request := s_request s; s_response := s_response s;
                  s_is_response := s_is_response s; s_override := Some z |}
        | None =>
            a <- parse_line parse fn tokens ;;
            match attr_name a with
            | Some nm =>
                _ <- enforce (negb (existsb (text_eqb nm) (s_names s))) ;;
                Ok (set_current s (nm :: s_names s) (add_attr (current s) a))
            | None => Ok (set_current s (s_names s) (add_attr (current s) a))
            end
        end
    end.
  Fixpoint lines_loop (parse : text -> res definition) (fn : text) (s : pstate)
      (lines : list (list text)) : res pstate :=
    match lines with
    | [] => Ok s
    | l :: lines' => s' <- line_step parse fn s l ;; lines_loop parse fn s' lines'
    end.

  (** parser.py 802-815: [validate_union]. *)
  Definition check_fields (p : part) : bool :=
    negb (p_union p) ||
    (Nat.ltb 1 (length (p_fields p)) &&
     negb (existsb (fun f => match snd f with QVoid _ => true | _ => false end) (p_fields p))).
  Definition validate_union (b : body) : res unit :=
    match b with
    | Message p => enforce (check_fields p)
    | Service rq rs => enforce (check_fields rq && check_fields rs)
    end.
  (** parser.py 789-799: [validate_data_type_id]. *)
  Definition validate_data_type_id (dtid : option Z) (b : body) : res unit :=
    match dtid with
    | None => Ok tt
    | Some z =>
        enforce (match b with
                 | Message _ => (0 <=? z) && (z <=? 65535)
                 | Service _ _ => (0 <=? z) && (z <=? 255)
                 end)%Z
    end.

  (** parser.py 638-716: [parse_source]. The bit lengths that are only logged
      are left out (their conversion to bytes fails for types of more than
      2^1024 bits). *)
  Definition parse_source (parse : text -> res definition) (fn source : text) : res definition :=
    '(full, version, dtid) <- name_from_filename fn ;;
    s <- refuse (lines_loop parse fn pstate0 (tokenize source)) ;;
    let b := if s_is_response s then Service (s_request s) (s_response s)
             else Message (s_request s) in
    _ <- validate_union b ;;
    _ <- validate_data_type_id dtid b ;;
    Ok {| d_name := full; d_dtid := dtid; d_version := version; d_body := b;
          d_override := s_override s |}.

  (** parser.py 718-729: [parse]. The depth of nested definitions is limited
      by Python's stack: exceeding it is an exception like any other. *)
  Fixpoint parse (depth : nat) (fn : text) : res definition :=
    match depth with
    | O => Err DsdlException
    | S n =>
        match read fn with
        | None => Err DsdlException
        | Some source => refuse (parse_source (parse n) fn source)
        end
    end.

  (** ** Namespaces: parser.py 818-888 *)

  Definition is_service (b : body) : bool := match b with Service _ _ => true | _ => false end.
  Definition dtid_key := (bool * Z)%type.
  Definition key_eqb (a b : dtid_key) : bool := Bool.eqb (fst a) (fst b) && (snd a =? snd b)%Z.

  Definition d_signature (d : definition) : Z := dsdl_signature (d_name d) (d_body d) (d_override d).

  (** parser.py 861-875: [ensure_unique_dtid]. *)
  Definition ensure_unique (seen : list (dtid_key * definition)) (d : definition)
      : res (list (dtid_key * definition)) :=
    match d_dtid d with
    | None => Ok seen
    | Some z =>
        let key := (is_service (d_body d), z) in
        match dget key_eqb seen key with
        | Some d0 => _ <- enforce (d_signature d =? d_signature d0)%Z ;; Ok seen
        | None => Ok (dset key_eqb seen key d)
        end
    end.

  (** parser.py 877-888: [files]: what [os.walk] finds, in its order. *)
  Fixpoint parse_files (depth : nat) (seen : list (dtid_key * definition)) (files : list text)
      : res (list definition * list (dtid_key * definition)) :=
    match files with
    | [] => Ok ([], seen)
    | fn :: files' =>
        d <- parse depth fn ;;
        seen' <- ensure_unique seen d ;;
        '(ds, seen'') <- parse_files depth seen' files' ;;
        Ok (d :: ds, seen'')
    end.
  Definition parse_namespaces (depth : nat) (search_files source_files : list text) : res (list definition) :=
    '(_, seen) <- parse_files depth [] search_files ;;
    '(ds, _) <- parse_files depth seen source_files ;;
    Ok ds.
End Parser.

(** ** Loading: dronecan/__init__.py 175-190 *)

(** The tables [TYPENAMES] and [DATATYPES], which are global. *)
Record tables := {
  t_names : list (text * definition);
  t_ids : list (dtid_key * definition)
}.
Definition load_one (t : tables) (d : definition) : tables :=
  {| t_names := dset text_eqb (t_names t) (d_name d) d;
     t_ids := match d_dtid d with
              | Some z => if (z =? 0)%Z then t_ids t
                          else dset key_eqb (t_ids t) (is_service (d_body d), z) d
              | None => t_ids t
              end |}.
Definition load (t : tables) (ds : list definition) : tables := fold_left load_one ds t.

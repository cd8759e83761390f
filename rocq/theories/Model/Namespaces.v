(** Looking types up by attribute: dronecan/__init__.py. *)
From Coq Require Import String.
From Verif.Base Require Import Prelude Bits.
From Verif.Model Require Import Types Parser.
Open Scope list_scope.
Open Scope N_scope.

(** What a [Namespace] object holds (104-131): its [__dict__], whose values
    are types or further namespaces, and the names in [__namespaces]. The
    entry of [__dict__] for that set itself is left out: its name begins with
    an underscore, as do the names of the methods, and no name of a type or
    namespace does. Namespaces are modelled as values although [load_dsdl]
    shares them between the module and its own root: they are not changed any
    more after they were shared. *)
Inductive item : Type :=
| IType (d : definition)
| ISpace (entries : list (text * item)) (namespaces : list text).

(** The recursion of [_path] (112-125): [partition(".")] until nothing is
    left, so that a dot at the end adds nothing. *)
Fixpoint path_words (before s : text) : list text :=
  match s with
  | [] => [before]
  | c :: r =>
      if c =? 46 then match r with [] => [before] | _ => before :: path_words [] r end
      else path_words (before ++ [c]) r
  end.
(** 117-120: an entry that does not exist yet. *)
Definition ensure (entries : list (text * item)) (names : list text) (w : text)
    : list (text * item) * list text :=
  match dget text_eqb entries w with
  | Some _ => (entries, names)
  | None => (dset text_eqb entries w (ISpace [] []), names ++ [w])
  end.
(** 178-179: [root_namespace._path(namespace).__dict__[typename] = dtype]. A
    type on the path has no method [_path]; if it is the end of the path it
    would get an attribute, which is modelled as the same exception. *)
Fixpoint store (ws : list text) (typename : text) (d : definition) (i : item) : res item :=
  match i with
  | IType _ => Err AttributeError
  | ISpace entries names =>
      match ws with
      | [] => Ok (ISpace (dset text_eqb entries typename (IType d)) names)
      | w :: ws' =>
          let '(entries', names') := ensure entries names w in
          match dget text_eqb entries' w with
          | None => Err KeyError
          | Some i' =>
              i'' <- store ws' typename d i' ;;
              Ok (ISpace (dset text_eqb entries' w i'') names')
          end
      end
  end.
Definition store_type (root : item) (d : definition) : res item :=
  store (path_words [] (namespace_of (d_name d))) (last (split_dots (d_name d)) []) d root.
Fixpoint store_types (root : item) (ds : list definition) : res item :=
  match ds with
  | [] => Ok root
  | d :: ds' => root' <- store_type root d ;; store_types root' ds'
  end.

(** A new namespace with the entries of these names (209-210, 213-216). *)
Fixpoint share (entries : list (text * item)) (names : list text) : res (list (text * item)) :=
  match names with
  | [] => Ok []
  | n :: names' =>
      match dget text_eqb entries n with
      | None => Err KeyError
      | Some i => r <- share entries names' ;; Ok (dset text_eqb r n i)
      end
  end.
Definition toplevel : list text := map txt ["dronecan"; "uavcan"; "ardupilot"; "com"; "cuav"]%string.
(** 205-210; [globals]: the attributes of the module, as far as they are
    namespaces. *)
Fixpoint publish (ns : list text) (root : list (text * item) * list text) (globals : list (text * item))
    : res ((list (text * item) * list text) * list (text * item)) :=
  match ns with
  | [] => Ok (root, globals)
  | n :: ns' =>
      let root' := ensure (fst root) (snd root) n in
      match dget text_eqb (fst root') n with
      | Some (ISpace entries names) =>
          es <- share entries names ;;
          publish ns' root' (dset text_eqb globals n (ISpace es []))
      | _ => Err AttributeError
      end
  end.
(** 134-216: [load_dsdl] with the types that [parse_namespaces] returned;
    the tables of types are [load] of Parser.v. *)
Definition load_module (globals : list (text * item)) (ds : list definition) : res (list (text * item)) :=
  root <- store_types (ISpace [] []) ds ;;
  match root with
  | IType _ => Err AttributeError
  | ISpace entries names =>
      '(root', globals') <- publish toplevel (entries, names) globals ;;
      es <- share (fst root') (filter (fun n => negb (text_eqb n (txt "uavcan"))) (snd root')) ;;
      Ok (dset text_eqb globals' (txt "thirdparty") (ISpace es []))
  end.

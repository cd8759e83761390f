(** dronecan/app/file_server.py: [FileServer].
    Simplifications: strings are lists of character codes; the separator of
    the platform is '/', where [normcase] and the [replace] at 64 do nothing;
    files do not change while they are served. *)
From Verif.Base Require Import Prelude.
Local Open Scope N_scope.

Definition str := list N.
Definition slash : N := 47.
Definition dot : N := 46.
Definition str_eqb (a b : str) : bool := if list_eq_dec N.eq_dec a b then true else false.

(** [str.split('/')], ['/'.join]. *)
Fixpoint split_slash (s : str) : list str :=
  match s with
  | [] => [[]]
  | c :: s' => if c =? slash then [] :: split_slash s'
               else match split_slash s' with w :: ws => (c :: w) :: ws | [] => [[c]] end
  end.
Fixpoint join_slash (l : list str) : str :=
  match l with [] => [] | [w] => w | w :: l' => w ++ slash :: join_slash l' end.

(** [posixpath.normpath] (Python library). [acc] is reversed. *)
Definition norm_step (rooted : bool) (acc : list str) (c : str) : list str :=
  if str_eqb c [] || str_eqb c [dot] then acc
  else if negb (str_eqb c [dot; dot]) then c :: acc
  else match acc with
       | [] => if rooted then [] else [c]
       | top :: rest => if str_eqb top [dot; dot] then c :: acc else rest
       end.
Definition norm_comps (rooted : bool) (l : list str) : list str := rev (fold_left (norm_step rooted) l []).
Definition initial_slashes (s : str) : nat :=
  let is_slash i := nth i s 0 =? slash in
  if is_slash 0%nat then if is_slash 1%nat then if is_slash 2%nat then 1%nat else 2%nat else 1%nat else 0%nat.
Definition normpath (s : str) : str :=
  let n := initial_slashes s in
  match repeat slash n ++ join_slash (norm_comps (negb (Nat.eqb n 0)) (split_slash s)) with
  | [] => [dot]
  | r => r
  end.

(** [posixpath.join] with two arguments (Python library). *)
Definition join (p q : str) : str :=
  match q with
  | c :: _ => if c =? slash then q
              else match rev p with
                   | [] => q
                   | l :: _ => if l =? slash then p ++ q else p ++ slash :: q
                   end
  | [] => match rev p with [] => [] | l :: _ => if l =? slash then p else p ++ [slash] end
  end.

(** [str.endswith]. *)
Definition ends_with (p q : str) : bool := str_eqb (skipn (length p - length q) p) q && Nat.leb (length q) (length p).

Section FileServer.
  (** [os.path.isfile]; [os.path.abspath]; reading a file; decoding UTF-8. *)
  Variable isfile : str -> bool.
  Variable abspath : str -> str.
  Variable contents : str -> option (list N).
  Variable decode : list N -> option str.

  (** 22-30: [_try_resolve_relative_path]. *)
  Fixpoint try_resolve (search : list str) (rel : str) : option str :=
    match search with
    | [] => None
    | p :: search' =>
        let p := abspath p in
        if ends_with p rel && isfile p then Some p
        else if isfile (join p rel) then Some (join p rel)
        else try_resolve search' rel
    end.

  (** 60-70: [_resolve_path]. *)
  Definition resolve_path (lookup : list str) (path_map : list (str * str)) (path : str) : res str :=
    match dget str_eqb path_map path with
    | Some p => Ok p
    | None => match try_resolve lookup (normpath path) with
              | Some (c :: out) => Ok (c :: out)
              | _ => Err OSError
              end
    end.

  (** 90-105: [_read]: [Err] if the handler raises; otherwise the response:
      [None] with an error code, or the data. 256 is the capacity of [data].
      The decoding at 91-92 is outside the [try]. *)
  Definition chunk_size : nat := 256.
  Definition max_offset : N := 1099511627775.        (* [offset] is a uint40, saturated *)
  Definition read (lookup : list str) (path_map : list (str * str)) (raw : list N) (offset : N)
      : res (option (list N)) :=
    match decode raw with
    | None => Err UnicodeError
    | Some path =>
        match resolve_path lookup path_map path with
        | Err _ => Ok None
        | Ok p => Ok (match contents p with
                      | Some data => Some (firstn chunk_size (skipn (N.to_nat (N.min offset max_offset)) data))
                      | None => None
                      end)
        end
    end.

  (** 72-88: [_get_info]: [Err] if the handler raises, [None] for an error
      code, otherwise the size, which is a uint40, saturated. *)
  Definition get_info (lookup : list str) (path_map : list (str * str)) (raw : list N) : res (option N) :=
    match decode raw with
    | None => Err UnicodeError
    | Some path =>
        match resolve_path lookup path_map path with
        | Err _ => Ok None
        | Ok p => Ok (match contents p with Some data => Some (N.min (N.of_nat (length data)) max_offset) | None => None end)
        end
    end.
End FileServer.

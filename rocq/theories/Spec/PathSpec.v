(** Names of files: what they say about the type defined there. *)
From Coq Require Import String.
From Verif.Base Require Import Prelude Bits.
From Verif.Model Require Import Types Parser.
From Verif.Spec Require Import ParserSpec GrammarSpec.
Open Scope list_scope.
Open Scope N_scope.

(** [d/w1/w2...] and [r.w1.w2...] *)
Definition path (d : text) (ws : list text) : text := d ++ flat_map (fun w => slash :: w) ws.
Definition dotted (r : text) (ws : list text) : text := r ++ flat_map (fun w => dot :: w) ws.
(** The last name of a path. *)
Definition named (d r : text) : Prop := exists up, d = up ++ slash :: r /\ ~ In slash r.
Definition directory (w : text) : Prop := w <> [] /\ ~ In slash w.
Definition undotted (w : text) : Prop := ~ In dot w.
(** No root directory's path begins with another's. *)
Definition roots_ok (dirs : list text) : Prop :=
  forall a b r, In a dirs -> In b dirs -> a = b ++ r -> r = [].

(** A number in a file name: white space around it is passed over. *)
Definition decimal_text (s : text) (z : Z) : Prop :=
  exists a core b, s = a ++ core ++ b /\ Forall (fun c => blank c \/ eol c) (a ++ b) /\ signed (digits 10) core z.
(** [id.Short.major.minor.uavcan], with or without the id and the version. *)
Definition name_form (base short : text) (version : option (Z * Z)) (id : option Z) : Prop :=
  undotted short /\ exists before after, base = before ++ short ++ after ++ txt ".uavcan" /\
    match id with
    | None => before = []
    | Some z => exists i, before = i ++ [dot] /\ decimal_text i z
    end /\
    match version with
    | None => after = []
    | Some (x, y) => exists a b, after = dot :: a ++ dot :: b /\ decimal_text a x /\ decimal_text b y
    end.

(** The files that the convention gives to the type [full]. *)
Definition place (dirs : list text) (listdir : text -> option (list text)) (read : text -> option text)
    (full fn : text) : Prop :=
  exists d r subs short base names v id,
    In d dirs /\ named d r /\ undotted r /\ Forall (fun w => directory w /\ undotted w) subs /\
    full = dotted r (subs ++ [short]) /\ fn = path d (subs ++ [base]) /\ name_form base short v id /\
    listdir (path d subs) = Some names /\ In base names /\ read fn <> None.

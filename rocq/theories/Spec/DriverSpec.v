(** Which driver a name is meant for, apart from the code that chooses. *)
From Coq Require Import String.
From Verif.Base Require Import Prelude Bits.
From Verif.Model Require Import Types Parser Drivers.
From Verif.Spec Require Import IntrospectSpec.
Open Scope list_scope.
Open Scope N_scope.

(** The prefixes that name a driver. *)
Definition schemes : list (text * dclass) :=
  [(txt "mavcan:", DMavcan); (txt "slcan:", DSlcan); (txt "mcast:", DMcast);
   (txt "filein:", DFile); (txt "fileout:", DFile)].
Definition schemeless (name : text) : Prop :=
  forall s d r, In (s, d) schemes -> name <> s ++ r.

(** The name of a serial port: a file in /dev, or COM and a number, which may
    come after two backslashes, a dot and a backslash. *)
Definition serial_port (name : text) : Prop :=
  (exists r, name = txt "/dev/" ++ r) \/
  (exists pre com ds, name = pre ++ com ++ ds /\ (pre = [] \/ pre = [92; 92; 46; 92]) /\
     alike com (txt "com") /\ ds <> [] /\ Forall (fun c => 48 <= c <= 57) ds).

(** Begins like the name of a COM port, dots and backslashes disregarded. *)
Definition com_like (name : text) : Prop :=
  exists com r, alike com (txt "com") /\
    filter (fun c => negb ((c =? 46) || (c =? 92))) name = com ++ r.
Definition in_dev (name : text) : Prop := exists r, name = txt "/dev/" ++ r.

(** The arguments other than [k] are those of [kw]. *)
Definition same_but (k : text) (kw kw' : kwargs) : Prop :=
  forall x, x <> k -> dget text_eqb kw' x = dget text_eqb kw x.

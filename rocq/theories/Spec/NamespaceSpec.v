(** Attribute lookup. *)
From Coq Require Import String.
From Verif.Base Require Import Prelude.
From Verif.Model Require Import Types Parser Namespaces.
From Verif.Spec Require Import ParserSpec.
Open Scope list_scope.

(** [x.w1.w2...] *)
Fixpoint attribute (i : item) (ws : list text) : option item :=
  match ws with
  | [] => Some i
  | w :: ws' =>
      match i with
      | IType _ => None
      | ISpace entries _ =>
          match dget text_eqb entries w with
          | Some i' => attribute i' ws'
          | None => None
          end
      end
  end.
(** [dronecan.w1.w2...], as a type. *)
Definition type_at (globals : list (text * item)) (ws : list text) : option definition :=
  match attribute (ISpace globals []) ws with
  | Some (IType d) => Some d
  | _ => None
  end.
(** The names between the dots. *)
Definition spells (nm : text) (ws : list text) : Prop :=
  ws <> [] /\ Forall (fun w => ~ In dot w) ws /\ nm = join [dot] ws.
(** The namespaces that are attributes of the package. *)
Definition packages : list text := map txt ["dronecan"; "uavcan"; "ardupilot"; "com"; "cuav"]%string.

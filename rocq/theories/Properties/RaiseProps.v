(** Exceptions of the definition parser: C156. *)
From Coq Require Import String.
From Verif.Base Require Import Prelude Bits.
From Verif.Model Require Import Types Slcan Parser.
From Verif.Spec Require Import ParserSpec PathSpec.
From Verif.Proofs Require Import PathFacts ParserRaise.
From Verif.Properties Require Import ParserProps.
Open Scope list_scope.
Local Open Scope nat_scope.

(** ** C156

    The full statement is: whatever the files are, loading namespaces, parsing
    a file and parsing a text raise no exception but [DsdlException]. *)
Theorem C156_namespaces : forall search_dirs listdir read ev depth searched source e,
  parse_namespaces search_dirs listdir read ev depth searched source = Err e -> e = DsdlException.
Proof. exact namespaces_raise. Qed.
Print Assumptions C156_namespaces.
Theorem C156_parse : forall search_dirs listdir read ev depth fn e,
  parse search_dirs listdir read ev depth fn = Err e -> e = DsdlException.
Proof. exact parse_raises. Qed.
Print Assumptions C156_parse.
(** A signature that is no number, a file that is not there, a constant that
    cannot be evaluated, a version that is no number. *)
Definition spoiled : disk := [
  ("/r/uavcan/A.uavcan", "OVERRIDE_SIGNATURE zero"); ("/r/uavcan/B.uavcan", "uint8 X = ??");
  ("/r/uavcan/C.x.0.uavcan", "uint8 a"); ("/r/uavcan/D.uavcan", "uint8[x] a")]%string.
Example C156_case :
  map (P spoiled)
    ["/r/uavcan/A.uavcan"; "/r/uavcan/B.uavcan"; "/r/uavcan/C.x.0.uavcan"; "/r/uavcan/D.uavcan"; "/r/uavcan/E.uavcan"]%string = repeat (Err DsdlException) 5 /\
  parse_namespaces root (ld spoiled) (rd spoiled) lit 2 [] (all_files spoiled) = Err DsdlException.
Proof. split; vm_compute; reflexivity. Qed.

(** False of [parse_source]: the message about a bad version number has one
    argument too many. *)
Theorem C156_source_refuted : exists search_dirs listdir read ev parse fn source,
  parse_source search_dirs listdir read ev parse fn source = Err TypeError.
Proof.
  exists root, (ld spoiled), (rd spoiled), lit, (fun _ => Err DsdlException), (txt "/r/uavcan/C.x.0.uavcan"%string), (txt "uint8 a"%string).
  vm_compute. reflexivity.
Qed.
Print Assumptions C156_source_refuted.
(** This is the only case. *)
Theorem C156_source_partial : forall search_dirs listdir read ev parse fn source e,
  parse_source search_dirs listdir read ev parse fn source = Err e ->
  e = DsdlException \/ (e = TypeError /\ exists pre a b, (split_dots (basename fn) = pre ++ [a; b; txt "uavcan"%string]) /\
    ((forall z, ~ PathSpec.decimal_text a z) \/ (forall z, ~ PathSpec.decimal_text b z))).
Proof. exact source_raises. Qed.
Print Assumptions C156_source_partial.
Example C156_source_case :
  parse_source root (ld spoiled) (rd spoiled) lit (fun _ => Err DsdlException) (txt "/r/uavcan/A.uavcan"%string) (txt "uint8 a"%string) <> Err DsdlException /\
  parse_source root (ld spoiled) (rd spoiled) lit (fun _ => Err DsdlException) (txt "/r/uavcan/x.A.uavcan"%string) (txt "uint8 a"%string) = Err DsdlException.
Proof. split; vm_compute; [discriminate|reflexivity]. Qed.

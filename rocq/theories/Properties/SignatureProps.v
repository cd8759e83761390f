(** Signatures of definitions: properties C97 and C98. *)
From Coq Require Import String.
From Verif.Base Require Import Prelude Bits.
From Verif.Model Require Import Types Slcan Crc Parser.
From Verif.Spec Require Import CrcSpec ParserSpec SignatureSpec.
From Verif.Proofs Require Import ParserText ParserFacts SignatureText SignatureHash SignatureMix.
From Verif.Properties Require Import ParserProps.
Open Scope list_scope.
Open Scope N_scope.

(** ** C97: the data type signature is the specified hash *)

Theorem C97_hash search_dirs listdir read ev n fn d v : parse search_dirs listdir read ev n fn = Ok d ->
  definition_hash d v <-> v = data_type_signature d.
Proof. intros H. apply definition_hash_iff. exact (C59_legal_partial _ _ _ _ n fn d H). Qed.
Print Assumptions C97_hash.

(** In particular there is exactly one such hash, also for definitions that
    were not read from a file. *)
Theorem C97_exactly_one d : legal_definition d -> exists! v, definition_hash d v.
Proof.
  intros L. exists (data_type_signature d). split; [apply definition_hash_iff; auto|].
  intros v H. symmetry. apply definition_hash_iff; assumption.
Qed.
Print Assumptions C97_exactly_one.

Example C97_hash_case :
  exists d, P nodes "/r/uavcan/protocol/1.GetNodeInfo.uavcan" = Ok d /\
    map type_signature (map snd (all_fields (d_body d))) = [Some 0x0F0868D0C1A7C6F1; Some 8255398371548040676; None] /\
    definition_hash d 3555706231273529483.
Proof.
  eexists. split; [vm_compute; reflexivity|]. split; [vm_compute; reflexivity|].
  eapply (C97_hash root (ld nodes) (rd nodes) lit 4 (txt "/r/uavcan/protocol/1.GetNodeInfo.uavcan")); vm_compute; reflexivity.
Qed.

(** ** C98: a change of a nested type shows in the signature *)

(** Not always: here a nested type has another signature, and the type that
    contains it does not. *)
Definition changed (signature : string) : disk := [
("/r/uavcan/A.uavcan", append (append "OVERRIDE_SIGNATURE " signature) "
uint8 x");
("/r/uavcan/B.uavcan", "uint16 y");
("/r/uavcan/C.uavcan", "A a
B b")]%string.
Definition before_change : disk := changed "0x0".
Definition after_change : disk := changed "0x00f35b8145982853".
Theorem C98_shows_refuted : exists a a' c c',
  P before_change "/r/uavcan/A.uavcan" = Ok a /\ P after_change "/r/uavcan/A.uavcan" = Ok a' /\
  P before_change "/r/uavcan/C.uavcan" = Ok c /\ P after_change "/r/uavcan/C.uavcan" = Ok c' /\
  data_type_signature a <> data_type_signature a' /\ data_type_signature c = data_type_signature c'.
Proof.
  do 4 eexists. split; [vm_compute; reflexivity|]. split; [vm_compute; reflexivity|]. split; [vm_compute; reflexivity|].
  split; [vm_compute; reflexivity|]. split; [vm_compute; discriminate|vm_compute; reflexivity].
Qed.
Print Assumptions C98_shows_refuted.

(** Exactly these changes are lost: another nested type follows, and the old
    and the new signature differ in one of three ways. *)
Theorem C98_shows_partial d d' v before s s' after :
  legal_definition d -> legal_definition d' ->
  own_signature (d_name d) (d_body d) (d_override d) v -> own_signature (d_name d') (d_body d') (d_override d') v ->
  Forall2 type_hash (map snd (all_fields (d_body d))) (before ++ Some s :: after) ->
  Forall2 type_hash (map snd (all_fields (d_body d'))) (before ++ Some s' :: after) -> s <> s' ->
  data_type_signature d = data_type_signature d' <->
  (exists u, In (Some u) after) /\ In (N.lxor s s') [0x00f35b8145982853; 0x9ce093e25a8eb57b; 0x9c13c8631f169d28].
Proof.
  intros L L' Ho Ho' Ht Ht' Hne. rewrite (changed_iff d d' v before s s' after) by assumption.
  unfold e1, e2, e3. cbn [In]. intuition congruence.
Qed.
Print Assumptions C98_shows_partial.

(** Two definitions to which the theorem applies. *)
Definition C_of (fs : disk) : definition :=
  match P fs "/r/uavcan/C.uavcan" with
  | Ok d => d
  | Err _ => {| d_name := []; d_dtid := None; d_version := None; d_body := Message {| p_fields := []; p_consts := []; p_union := false |}; d_override := None |}
  end.
Definition C_before : definition := Eval vm_compute in C_of before_change.
Definition C_after : definition := Eval vm_compute in C_of after_change.
Example C98_shows_case :
  P before_change "/r/uavcan/C.uavcan" = Ok C_before /\ P after_change "/r/uavcan/C.uavcan" = Ok C_after /\
  legal_definition C_before /\ legal_definition C_after /\
  (exists v, own_signature (d_name C_before) (d_body C_before) (d_override C_before) v /\
    own_signature (d_name C_after) (d_body C_after) (d_override C_after) v) /\
  (exists u, Forall2 type_hash (map snd (all_fields (d_body C_before))) ([] ++ Some 0 :: [Some u]) /\
    Forall2 type_hash (map snd (all_fields (d_body C_after))) ([] ++ Some 0x00f35b8145982853 :: [Some u])).
Proof.
  assert (E : P before_change "/r/uavcan/C.uavcan" = Ok C_before) by (vm_compute; reflexivity).
  assert (E' : P after_change "/r/uavcan/C.uavcan" = Ok C_after) by (vm_compute; reflexivity).
  pose proof (C59_legal_partial _ _ _ _ _ _ _ E) as L. pose proof (C59_legal_partial _ _ _ _ _ _ _ E') as L'.
  split; [exact E|]. split; [exact E'|]. split; [exact L|]. split; [exact L'|]. split.
  - exists (Z.to_N (dsdl_signature (d_name C_before) (d_body C_before) (d_override C_before) mod 2 ^ 64)).
    split; apply own_value; try assumption; vm_compute; reflexivity.
  - pose proof (hash_list _ (legal_fields _ L)) as H. pose proof (hash_list _ (legal_fields _ L')) as H'.
    vm_compute (map type_signature _) in H. vm_compute (map type_signature _) in H'. eexists. split; [exact H|exact H'].
Qed.

From Coq Require Import String.
From Verif.Base Require Import Prelude Bits.
From Verif.Model Require Import Types Codec Float Parser ObjectApi Introspect.
From Verif.Spec Require Import CodecSpec IntrospectSpec.
From Verif.Proofs Require Import IntrospectNames IntrospectFacts.
Open Scope list_scope.

(** ** C62: names of constants *)

(** A name is made of names of constants that make up the value. *)
Theorem C62_names consts num_fields field keep v t :
  value_to_constant_name consts num_fields field keep v = Name t ->
  exists parts zs, barred parts t /\
    Forall2 (stands_for consts num_fields field keep) parts zs /\ makes_up zs v.
Proof. exact (named_sound consts num_fields field keep v t). Qed.
Print Assumptions C62_names.

Theorem C62_plain consts num_fields field keep v z :
  value_to_constant_name consts num_fields field keep v = Plain z -> z = v.
Proof. exact (plain_same consts num_fields field keep v z). Qed.
Print Assumptions C62_plain.

(** If just one constant fits, its name is shown. *)
Theorem C62_found consts num_fields field keep v s : just_one consts field v s ->
  exists t, value_to_constant_name consts num_fields field keep v = Name t /\
    if keep then exists d, decimal_text d v /\ t = s ++ txt " (" ++ d ++ txt ")" else t = s.
Proof. exact (found_direct consts num_fields field keep v s). Qed.
Print Assumptions C62_found.

(** If just one constant fits each bit, names are shown. *)
Theorem C62_bits consts num_fields field keep v : (0 < v)%Z ->
  (forall k, (0 <= k)%Z -> Z.testbit v k = true -> exists s, just_one consts field (2 ^ k) s) ->
  exists t, value_to_constant_name consts num_fields field keep v = Name t.
Proof. exact (found_bits consts num_fields field keep v). Qed.
Print Assumptions C62_bits.

Definition level_consts : list (text * cvalue) :=
  [(txt "LEVEL_DEBUG", CInt 0); (txt "LEVEL_INFO", CInt 1); (txt "LEVEL_WARNING", CInt 2);
   (txt "LEVEL_ERROR", CFloat (FFin false 4 0))].
Example C62_example :
  value_to_constant_name level_consts 2 (txt "level") false 4 = Name (txt "ERROR") /\
  value_to_constant_name level_consts 2 (txt "levels") true 3 = Name (txt "INFO (1) | WARNING (2)") /\
  value_to_constant_name level_consts 2 (txt "level") false 9 = Plain 9 /\
  value_to_constant_name level_consts 1 (txt "value") false 1 = Name (txt "LEVEL_INFO") /\
  value_to_constant_name level_consts 2 (txt "value") false (-1) = Plain (-1).
Proof. repeat split; vm_compute; reflexivity. Qed.
Example C62_just_one : just_one level_consts (txt "level") 2 (txt "WARNING").
Proof.
  split; [discriminate|].
  exists [(txt "LEVEL_DEBUG", CInt 0); (txt "LEVEL_INFO", CInt 1)], (txt "LEVEL_"), (CInt 2),
         [(txt "LEVEL_ERROR", CFloat (FFin false 4 0))].
  split; [reflexivity|]. split; [|split; [reflexivity|]].
  - vm_compute. repeat (constructor; [first [left; reflexivity|right; left; repeat split; discriminate]|]). constructor.
  - intros name c' H E. exfalso. cbn in H.
    destruct H as [H|[H|[H|[]]]]; injection H as <- <-; cbn in E; discriminate.
Qed.

(** ** C92: names of different values *)

(** The constants of a mask in the plural and in the singular run together. *)
Theorem C92_differ_refuted :
  exists consts num_fields field v w t,
    NoDup (map fst consts) /\ NoDup (map snd consts) /\ v <> w /\
    value_to_constant_name consts num_fields field false v = Name t /\
    value_to_constant_name consts num_fields field false w = Name t.
Proof.
  exists [(txt "FLAGS_A", CInt 1); (txt "FLAG_A", CInt 2)], 2, (txt "flags"), 1%Z, 2%Z, (txt "A").
  split; [repeat constructor; cbn; intuition discriminate|].
  split; [repeat constructor; cbn; intuition discriminate|].
  split; [discriminate|]. split; vm_compute; reflexivity.
Qed.
Print Assumptions C92_differ_refuted.

(** Missing: constants whose short names are the same. *)
Theorem C92_differ_partial consts num_fields field keep v w t :
  Forall (fun c => ~ In 124%N (fst c)) consts ->
  (forall t z z', stands_for consts num_fields field keep t z ->
                  stands_for consts num_fields field keep t z' -> z = z') ->
  value_to_constant_name consts num_fields field keep v = Name t ->
  value_to_constant_name consts num_fields field keep w = Name t -> v = w.
Proof. exact (names_differ consts num_fields field keep v w t). Qed.
Print Assumptions C92_differ_partial.

(** The constants of a level meet the hypotheses. *)
Example C92_example :
  Forall (fun c => ~ In 124%N (fst c)) level_consts /\
  forall t z z', stands_for level_consts 2 (txt "level") false t z ->
                 stands_for level_consts 2 (txt "level") false t z' -> z = z'.
Proof.
  split; [vm_compute; repeat (constructor; [intuition discriminate|]); constructor|].
  assert (H : forall t z, stands_for level_consts 2 (txt "level") false t z ->
            In (t, z) [(txt "DEBUG", 0); (txt "INFO", 1); (txt "WARNING", 2); (txt "ERROR", 4)]%Z).
  { intros t z (name & c & s & Hin & He & Hs & ->).
    assert (Es : s = skipn 6 name).
    { inversion Hs as [p s' Hp E1 E2|f p s' Hf Hp|s' Hn]; subst.
      - apply Forall2_len in Hp. change (length (txt "level" ++ txt "_")) with 6 in Hp.
        rewrite <- Hp, skipn_app, Nat.sub_diag, skipn_all. reflexivity.
      - exfalso. change (txt "s") with [115%N] in Hf. apply (f_equal (fun l => last l 0%N)) in Hf. rewrite last_last in Hf. vm_compute in Hf. discriminate.
      - discriminate. }
    subst s. cbn in Hin. destruct Hin as [H|[H|[H|[H|[]]]]]; injection H as <- <-; cbn in He; subst z || (assert (z = 4%Z) by lia; subst z); vm_compute; auto 6. }
  intros t z z' Hz Hz'. apply H in Hz. apply H in Hz'. vm_compute in Hz, Hz'.
  repeat match goal with H0 : _ \/ _ |- _ => destruct H0 as [H0|H0] end; try contradiction; congruence.
Qed.

(** ** C63: JSON *)

Definition log_type : atype :=
  AComp "demo.Log" false
    [("level", APrim KUint 3 Truncated); ("", AVoid 5); ("text", AArr true (APrim KUint 8 Saturated) 90);
     ("pos", AArr false (APrim KInt 4 Saturated) 2);
     ("state", AComp "demo.State" true [("ok", APrim KBool 1 Saturated); ("code", APrim KInt 8 Saturated)] [])]%string
    [("LEVEL_INFO", 1%Z)]%string.
Definition log_value (text : list value) : value :=
  VComp [VPrim (bits_of_N 3 1); VVoid; VArr text; VArr [VPrim (bits_of_N 4 15); VPrim (bits_of_N 4 7)];
         VComp [VPrim (bits_of_N 1 0); VPrim (bits_of_N 8 200)] (Some 1)] None.
Definition letters := [VPrim (bits_of_N 8 72); VPrim (bits_of_N 8 105)].

Lemma log_regular : regular log_type.
Proof.
  cbn. repeat match goal with |- _ /\ _ => split end; try lia; try exact I; try (intros []).
  - repeat constructor; cbn; intuition discriminate.
  - repeat constructor; cbn; intuition discriminate.
Qed.
Lemma log_valid l : (forall v, In v l -> exists x, v = VPrim (bits_of_N 8 x)) -> length l <= 90 ->
  valid (erase log_type) (log_value l).
Proof.
  intros Hl Hm. apply valid_struct. repeat (apply Forall2_cons || apply Forall2_nil).
  - constructor. reflexivity.
  - constructor.
  - constructor; [|exact Hm]. apply Forall_forall. intros v H. destruct (Hl v H) as (x & ->).
    constructor. apply bits_of_N_length.
  - constructor; [|reflexivity]. repeat constructor.
  - constructor; [repeat constructor|]. intros i [= <-]. cbn. lia.
Qed.

(** Every message with a text that is not empty is refused. *)
Theorem C63_json_refuted :
  exists t v, regular t /\ valid (erase t) v /\ to_json t v = Err AttributeError.
Proof.
  exists log_type, (log_value letters). split; [exact log_regular|]. split; [|vm_compute; reflexivity].
  apply log_valid; [|cbn; lia]. intros v [<-|[<-|[]]]; eauto.
Qed.
Print Assumptions C63_json_refuted.

(** These are the only ones. *)
Theorem C63_succeeds_partial t v : regular t -> valid (erase t) v ->
  (to_json t v = Err AttributeError <-> array_inside some_text t v) /\
  ((exists j, to_json t v = Ok j) <-> ~ array_inside some_text t v).
Proof. exact (json_fails t v). Qed.
Print Assumptions C63_succeeds_partial.

(** All that is in the message, and nothing else, is in the JSON object. *)
Theorem C63_content_partial t v j : regular t -> valid (erase t) v -> to_json t v = Ok j ->
  forall p w, look j p = Some w <-> sees t v p w.
Proof. exact (json_shows t v j). Qed.
Print Assumptions C63_content_partial.

Example C63_example :
  to_json log_type (log_value []) = Ok
    (JDict [("level", JNum (NInt 1)); ("text", JStr []); ("pos", JList [JNum (NInt (-1)); JNum (NInt 7)]);
            ("state", JDict [("code", JNum (NInt (-56)))])]%string) /\
  regular log_type /\ valid (erase log_type) (log_value []).
Proof.
  split; [vm_compute; reflexivity|]. split; [exact log_regular|]. apply log_valid; [intros v []|cbn; lia].
Qed.

(** ** C91: YAML *)

Definition bytes_type : atype := AComp "demo.Raw" false [("data", AArr true (APrim KInt 8 Saturated) 10)]%string [].
Definition bytes_value : value := VComp [VArr [VPrim (bits_of_N 8 72); VPrim (bits_of_N 8 255)]] None.
Lemma bytes_valid : regular bytes_type /\ valid (erase bytes_type) bytes_value.
Proof.
  split.
  - cbn. split; [repeat constructor; intros []|]. split; [|exact I]. split; [lia|intros []].
  - apply valid_struct. constructor; [|constructor]. constructor; [repeat constructor|cbn; lia].
Qed.

Theorem C91_yaml_refuted fmt_float py_repr :
  exists t v, regular t /\ valid (erase t) v /\ to_yaml fmt_float py_repr t v 0 None = Err ValueError.
Proof.
  exists bytes_type, bytes_value. destruct bytes_valid. split; [assumption|]. split; [assumption|]. vm_compute. reflexivity.
Qed.
Print Assumptions C91_yaml_refuted.

(** Missing: arrays of variable length of signed bytes with a negative one
    that is not after an unprintable one. *)
Theorem C91_yaml_partial fmt_float py_repr t v indent owner : regular t -> valid (erase t) v ->
  (to_yaml fmt_float py_repr t v indent owner = Err ValueError <-> array_inside negative_text t v) /\
  ((exists s, to_yaml fmt_float py_repr t v indent owner = Ok s) <-> ~ array_inside negative_text t v).
Proof. exact (yaml_fails fmt_float py_repr t v indent owner). Qed.
Print Assumptions C91_yaml_partial.

Definition shown_text (l : list value) :=
  to_yaml (fun _ _ => txt "?") (fun s => 39%N :: s ++ [39%N]) log_type (log_value l) 0 None.
Example C91_example :
  shown_text letters = Ok (txt "level: 1 # INFO" ++ newline 0 ++
    txt "text: 'Hi' # [72, 105]" ++ newline 0 ++
    txt "pos: [-1, 7]" ++ newline 0 ++ txt "state: " ++ newline 1 ++ txt "code: -56") /\
  ~ array_inside negative_text log_type (log_value letters).
Proof.
  assert (E : exists s, shown_text letters = Ok s) by (eexists; vm_compute; reflexivity).
  split; [vm_compute; reflexivity|].
  apply (proj2 (C91_yaml_partial (fun _ _ => txt "?") (fun s => 39%N :: s ++ [39%N]) log_type (log_value letters) 0 None
    log_regular (log_valid letters ltac:(intros v [<-|[<-|[]]]; eauto) ltac:(cbn; lia)))).
  exact E.
Qed.

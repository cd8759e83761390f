(** The grammar of definitions: property C93. *)
From Coq Require Import String.
From Verif.Base Require Import Prelude Bits.
From Verif.Model Require Import Types Prim Float Slcan Parser.
From Verif.Spec Require Import FloatSpec ParserSpec GrammarSpec.
From Verif.Proofs Require Import ParserText ParserLoad GrammarTypes GrammarLines GrammarFacts FloatInt.
From Verif.Properties Require Import ParserProps.
Open Scope list_scope.
Open Scope N_scope.

(** ** C93: an accepted definition means what its lines say *)

(** Every declaration of the definition is what one line of the file says, in
    the order of the lines, with its type, width, sign, cast mode, array bound
    and value. Missing: a number after "bool" is passed over, and some 54 to
    64-bit integer constants may be too large by one. *)
Theorem C93_means_partial search_dirs listdir read ev n fn d :
  (forall e x, ev e = Some (VFloat x) -> is_double x) ->
  parse search_dirs listdir read ev (S n) fn = Ok d ->
  name_from_filename search_dirs fn = Ok (d_name d, d_version d, d_dtid d) /\
  exists source L, read fn = Some source /\ written L source /\
    file_says true (named_type (fun d' => exists fn', parse search_dirs listdir read ev n fn' = Ok d') (d_name d)) ev
      (fun c => const_within (range_slack c) c) (filter nonblank L) d.
Proof. exact (fun Hev => parse_means _ _ _ _ Hev n fn d). Qed.

(** And every file that the grammar gives a meaning is accepted with that
    meaning, if the types that it names are found. *)
Theorem C93_accepts_partial search_dirs listdir read ev n fn source L d :
  (forall e x, ev e = Some (VFloat x) -> is_double x) ->
  read fn = Some source -> written L source ->
  name_from_filename search_dirs fn = Ok (d_name d, d_version d, d_dtid d) ->
  file_says true
    (fun t ty => exists fn' d', locate search_dirs listdir read fn t = Ok fn' /\
       parse search_dirs listdir read ev n fn' = Ok d' /\ message_type d' ty)
    ev (const_within 0) (filter nonblank L) d ->
  parse search_dirs listdir read ev (S n) fn = Ok d.
Proof. exact (fun Hev => says_parse _ _ _ _ Hev n fn source L d). Qed.

Lemma lit_double e x : lit e = Some (VFloat x) -> is_double x.
Proof.
  intros H. unfold lit in H. repeat match type of H with
    | context [match ?y with _ => _ end] => destruct y; try discriminate end.
Qed.
(** A one-bit field, though the line says 8. *)
Theorem C93_means_refuted :
  exists search_dirs listdir read ev n fn d,
    (forall e x, ev e = Some (VFloat x) -> is_double x) /\
    parse search_dirs listdir read ev (S n) fn = Ok d /\
    forall source L (nested : text -> ptype -> Prop) (fits : constant -> Prop), read fn = Some source -> written L source ->
      (forall t ty, nested t ty -> exists d', message_type d' ty) ->
      ~ file_says false nested ev fits (filter nonblank L) d.
Proof.
  set (fs := [("/r/uavcan/B.uavcan", "bool8 x")]%string).
  exists root, (ld fs), (rd fs), lit, 0%nat, (txt "/r/uavcan/B.uavcan"). eexists.
  split; [exact lit_double|split; [vm_compute; reflexivity|]].
  intros source L nested fits Hr HL Hm. assert (E : rd fs (txt "/r/uavcan/B.uavcan") = Some (txt "bool8 x")) by (vm_compute; reflexivity).
  assert (Es : source = txt "bool8 x") by congruence. subst source.
  refine (bool_number lit nested fits L _ Saturated _ Hm HL _ _); reflexivity.
Qed.

Print Assumptions C93_means_partial.
Print Assumptions C93_accepts_partial.
Print Assumptions C93_means_refuted.

(** *** Cases *)

Definition shapes : disk := [
("/r/uavcan/s/7.Mix.1.2.uavcan", "truncated uint16[<0x11] a # array
uint8 K = 2
Other other
void3
---
OVERRIDE_SIGNATURE 0xFF
@union
float16 x
saturated int7 y");
("/r/uavcan/s/Other.uavcan", "bool b")]%string.
Definition mix : definition :=
  {| d_name := txt "uavcan.s.Mix"; d_dtid := Some 7%Z; d_version := Some (1%Z, 2%Z); d_override := Some 255%Z;
     d_body := Service
       {| p_union := false;
          p_fields := [(Some (txt "a"), QArr true (QPrim KUint 16 Truncated) 16);
                       (Some (txt "other"), QMsg (txt "uavcan.s.Other") false [(Some (txt "b"), QPrim KBool 1 Saturated)] None);
                       (None, QVoid 3)];
          p_consts := [{| k_type := KUint; k_bits := 8; k_cast := Saturated; k_name := txt "K"; k_value := CInt 2 |}] |}
       {| p_union := true; p_consts := [];
          p_fields := [(Some (txt "x"), QPrim KFloat 16 Saturated); (Some (txt "y"), QPrim KInt 7 Saturated)] |} |}.
Definition mix_lines : list (list text) :=
  [[txt "truncated"; txt "uint16[<0x11]"; txt "a"]; [txt "uint8"; txt "K"; txt "="; txt "2"];
   [txt "Other"; txt "other"]; [txt "void3"]; [txt "---"]; [txt "OVERRIDE_SIGNATURE"; txt "0xFF"];
   [txt "@union"]; [txt "float16"; txt "x"]; [txt "saturated"; txt "int7"; txt "y"]].
Example C93_means_case : parse root (ld shapes) (rd shapes) lit 2 (txt "/r/uavcan/s/7.Mix.1.2.uavcan") = Ok mix.
Proof. vm_compute. reflexivity. Qed.

Ltac small1 a := left; exists a; split; [reflexivity|]; split; reflexivity.
Ltac small2 a b := right; exists a, b; split; [reflexivity|]; split; [reflexivity|]; split; reflexivity.
Ltac name1 := apply attribute_iff; reflexivity.
Ltac nocast := apply cast_none; intros [E|E]; discriminate.
Example C93_accepts_case :
  file_says true
    (fun t ty => exists fn' d', locate root (ld shapes) (rd shapes) (txt "/r/uavcan/s/7.Mix.1.2.uavcan") t = Ok fn' /\
       parse root (ld shapes) (rd shapes) lit 1 fn' = Ok d' /\ message_type d' ty)
    lit (const_within 0) mix_lines mix.
Proof.
  exists ([] ++ [255%Z]). split; [|split; [reflexivity|split]].
  - apply (says_service true _ lit (const_within 0) (firstn 4 mix_lines) (skipn 5 mix_lines)).
    + exists [DField (Some (txt "a"), QArr true (QPrim KUint 16 Truncated) 16);
        DConst {| k_type := KUint; k_bits := 8; k_cast := Saturated; k_name := txt "K"; k_value := CInt 2 |};
        DField (Some (txt "other"), QMsg (txt "uavcan.s.Other") false [(Some (txt "b"), QPrim KBool 1 Saturated)] None);
        DField (None, QVoid 3)].
      split; [|split; [reflexivity|split; [reflexivity|split; [reflexivity|split; [|reflexivity]]]]].
      * constructor; [|constructor; [|constructor; [|constructor; [|constructor]]]].
        -- eapply (says_field _ _ _ _ _ (Some Truncated) (txt "uint16[<0x11]"));
             [apply cast_some; reflexivity|discriminate|name1|].
           apply (says_array _ _ _ (txt "uint16") (txt "<0x11") true (QPrim KUint 16 Truncated) 16).
           ++ apply (says_uint _ _ (Some Truncated) (txt "16") 16); [small2 1 6|lia].
           ++ intros (d & e & m & E). discriminate.
           ++ right. right. split; [reflexivity|]. exists (txt "0x11"). split; [reflexivity|]. exists 17. left. split; [|reflexivity].
              right. left. exists 120, [], (txt "11"). split; [reflexivity|]. split; [auto|]. split; [auto|].
              exists 49, 1, [49]. split; [reflexivity|]. split; [unfold digit_of; lia|].
              apply (more_digit 16 1 49 1); [unfold digit_of; lia|]. constructor.
           ++ lia.
        -- eapply (says_constant _ _ _ _ _ None (txt "uint8") (txt "K") [txt "2"] KUint 8 Saturated (VInt 2) (CInt 2));
             [nocast|discriminate|name1| |reflexivity|apply value_int; discriminate|].
           ++ apply (says_uint _ _ None (txt "8") 8); [small1 8|lia].
           ++ exists 2%Z, 2%Z. split; [reflexivity|]. split; [cbn; lia|lia].
        -- eapply (says_field _ _ _ _ _ None (txt "Other")); [nocast|discriminate|name1|]. apply says_nested; [reflexivity|].
           exists (txt "/r/uavcan/s/Other.uavcan"). eexists. split; [vm_compute; reflexivity|].
           split; [vm_compute; reflexivity|]. eexists. split; reflexivity.
        -- eapply (says_padding _ _ _ _ _ None (txt "void3") (txt "3")); [nocast|reflexivity|].
           apply (says_void _ _ None (txt "3") 3); [small1 3|lia].
      * constructor; [|constructor; [|constructor; [|constructor]]]; cbn; intuition discriminate.
    + exists [DOverride 255; DUnion; DField (Some (txt "x"), QPrim KFloat 16 Saturated);
              DField (Some (txt "y"), QPrim KInt 7 Saturated)].
      split; [|split; [reflexivity|split; [reflexivity|split; [reflexivity|split; [|reflexivity]]]]].
      * constructor; [|constructor; [|constructor; [|constructor; [|constructor]]]].
        -- apply says_override. exists 255. left. split; [|reflexivity]. right. exists 120, [], (txt "FF").
           split; [reflexivity|]. split; [auto|]. split; [auto|]. exists 70, 15, [70]. split; [reflexivity|].
           split; [unfold digit_of; lia|]. apply (more_digit 16 15 70 15); [unfold digit_of; lia|]. constructor.
        -- apply says_union.
        -- eapply (says_field _ _ _ _ _ None (txt "float16")); [nocast|discriminate|name1|].
           apply (says_float _ _ None (txt "16") 16); [small2 1 6|auto].
        -- eapply (says_field _ _ _ _ _ (Some Saturated) (txt "int7")); [apply cast_some; reflexivity|discriminate|name1|].
           apply (says_int _ _ (Some Saturated) (txt "7") 7); [small1 7|lia].
      * constructor; [|constructor; [|constructor]]; cbn; intuition discriminate.
  - constructor; [|constructor; [|constructor]]; cbn [p_union p_fields]; intros E; try discriminate.
    cbn [length]. split; [lia|]. repeat (constructor; [intros (n & E'); discriminate|]). constructor.
  - intros z E. assert (z = 7%Z) by (cbn in E; congruence). subst z. cbn. lia.
Qed.

(** The value of a float constant written as an integer, [float(z)] in
    parser.py 592-600: the double nearest to the integer, with its sign. *)
Theorem C93_float_integer z x : float_of_int z = Ok x ->
  is_double x /\ negative x = (z <? 0)%Z /\
  exists w, units x = Some w /\
    forall y wy, is_double y -> units y = Some wy -> (Z.abs (w - z * 2 ^ 1074) <= Z.abs (wy - z * 2 ^ 1074))%Z.
Proof. exact (float_of_int_nearest z x). Qed.
Print Assumptions C93_float_integer.

(** Integers of up to 53 bits are kept exactly. *)
Theorem C93_float_exact z : (Z.abs z < 2 ^ 53)%Z ->
  exists x, float_of_int z = Ok x /\ is_double x /\ units x = Some (z * 2 ^ 1074)%Z /\ negative x = (z <? 0)%Z.
Proof. exact (float_of_int_exact z). Qed.
Print Assumptions C93_float_exact.

Example C93_float_integer_case :
  float_of_int (-(2 ^ 53 + 3)) = Ok (FFin true (2 ^ 52 + 2) 1) /\
  (exists x, float_of_int (-7) = Ok x /\ units x = Some (-7 * 2 ^ 1074)%Z).
Proof. split; [vm_compute; reflexivity|]. eexists. split; [reflexivity|]. vm_compute. reflexivity. Qed.

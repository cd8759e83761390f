(** The UTF-8 codec: encoding and decoding are inverse to each other. *)
From Verif.Base Require Import Prelude.
From Verif.Model Require Import Utf8.
Local Open Scope N_scope.

Lemma utf8_char_decode c b rest : utf8_char c = Ok b ->
  utf8_decode (b ++ rest) = (s <- utf8_decode rest ;; Ok (c :: s)).
Proof.
  unfold utf8_char. intros H.
  destruct (c <? 0x80) eqn:E1.
  { assert (b = [c]) by congruence. subst b. cbn [app utf8_decode].
    rewrite E1. reflexivity. }
  destruct (c <? 0x800) eqn:E2.
  { assert (b = [0xC0 + c / 64; 0x80 + c mod 64]) by congruence. subst b.
    cbn [app utf8_decode].
    replace (0xC0 + c / 64 <? 0x80) with false by lia.
    replace (in_range 0xC2 0xDF (0xC0 + c / 64)) with true by (unfold in_range; lia).
    replace (cont (0x80 + c mod 64)) with true by (unfold cont, in_range; lia).
    replace ((0xC0 + c / 64 - 0xC0) * 64 + (0x80 + c mod 64 - 0x80)) with c by lia.
    reflexivity. }
  destruct ((0xD800 <=? c) && (c <=? 0xDFFF)) eqn:E3; [discriminate|].
  destruct (c <? 0x10000) eqn:E4.
  { assert (b = [0xE0 + c / 4096; 0x80 + (c / 64) mod 64; 0x80 + c mod 64]) by congruence.
    subst b. cbn [app utf8_decode].
    replace (0xE0 + c / 4096 <? 0x80) with false by lia.
    replace (in_range 0xC2 0xDF (0xE0 + c / 4096)) with false by (unfold in_range; lia).
    replace (in_range 0xE0 0xEF (0xE0 + c / 4096)) with true by (unfold in_range; lia).
    replace (cont (0x80 + c mod 64)) with true by (unfold cont, in_range; lia).
    replace (second3 (0xE0 + c / 4096) (0x80 + (c / 64) mod 64)) with true
      by (unfold second3, cont, in_range; dif; lia).
    replace ((0xE0 + c / 4096 - 0xE0) * 4096 + (0x80 + (c / 64) mod 64 - 0x80) * 64
             + (0x80 + c mod 64 - 0x80)) with c by lia.
    reflexivity. }
  destruct (c <? 0x110000) eqn:E5; [|discriminate].
  assert (b = [0xF0 + c / 262144; 0x80 + (c / 4096) mod 64; 0x80 + (c / 64) mod 64;
               0x80 + c mod 64]) by congruence.
  subst b. cbn [app utf8_decode].
  replace (0xF0 + c / 262144 <? 0x80) with false by lia.
  replace (in_range 0xC2 0xDF (0xF0 + c / 262144)) with false by (unfold in_range; lia).
  replace (in_range 0xE0 0xEF (0xF0 + c / 262144)) with false by (unfold in_range; lia).
  replace (in_range 0xF0 0xF4 (0xF0 + c / 262144)) with true by (unfold in_range; lia).
  replace (cont (0x80 + c mod 64)) with true by (unfold cont, in_range; lia).
  replace (cont (0x80 + (c / 64) mod 64)) with true by (unfold cont, in_range; lia).
  replace (second4 (0xF0 + c / 262144) (0x80 + (c / 4096) mod 64)) with true
    by (unfold second4, cont, in_range; dif; lia).
  replace ((0xF0 + c / 262144 - 0xF0) * 262144 + (0x80 + (c / 4096) mod 64 - 0x80) * 4096
           + (0x80 + (c / 64) mod 64 - 0x80) * 64 + (0x80 + c mod 64 - 0x80)) with c by lia.
  reflexivity.
Qed.

Lemma utf8_decode_encode s : forall b, utf8_encode s = Ok b -> utf8_decode b = Ok s.
Proof.
  induction s as [|c s IH]; intros b H.
  - assert (b = []) by (cbn in H; congruence). subst b. reflexivity.
  - cbn [utf8_encode] in H. apply bind_ok in H as (b1 & E1 & H).
    apply bind_ok in H as (b2 & E2 & H). assert (b = b1 ++ b2) by congruence. subst b.
    rewrite (utf8_char_decode _ _ _ E1), (IH _ E2). reflexivity.
Qed.

(** Encoded text consists of bytes. *)
Lemma utf8_encode_bytes s : forall b, utf8_encode s = Ok b -> Forall (fun x => x < 256) b.
Proof.
  induction s as [|c s IH]; intros b H.
  - assert (b = []) by (cbn in H; congruence). subst b. constructor.
  - cbn [utf8_encode] in H. apply bind_ok in H as (b1 & E1 & H).
    apply bind_ok in H as (b2 & E2 & H). assert (b = b1 ++ b2) by congruence. subst b.
    apply Forall_app. split; [|apply (IH _ E2)].
    unfold utf8_char in E1.
    destruct (c <? 0x80) eqn:?; [|destruct (c <? 0x800) eqn:?;
      [|destruct ((0xD800 <=? c) && (c <=? 0xDFFF)) eqn:?; [discriminate|
        destruct (c <? 0x10000) eqn:?; [|destruct (c <? 0x110000) eqn:?; [|discriminate]]]]];
      match type of E1 with Ok ?l = Ok _ => assert (b1 = l) by congruence end; subst b1;
      repeat constructor; lia.
Qed.

(** What decodes is the encoding of what it decodes to. *)
Lemma utf8_encode_decode l : forall s, utf8_decode l = Ok s -> utf8_encode s = Ok l.
Proof.
  induction l as [l IH] using (well_founded_induction (Wf_nat.well_founded_ltof _ (@length N))).
  intros s H. destruct l as [|b0 l1].
  { assert (s = []) by (cbn in H; congruence). subst s. reflexivity. }
  cbn [utf8_decode] in H.
  destruct (b0 <? 0x80) eqn:E0.
  { apply bind_ok in H as (s' & Es & H). assert (s = b0 :: s') by congruence. subst s.
    cbn [utf8_encode]. unfold utf8_char. rewrite E0. cbn [bind].
    rewrite (IH l1) with (s := s'); [reflexivity| |exact Es]. unfold ltof. cbn. lia. }
  destruct (in_range 0xC2 0xDF b0) eqn:E1.
  { destruct l1 as [|b1 l2]; [discriminate|].
    destruct (cont b1) eqn:E2; [|discriminate].
    apply bind_ok in H as (s' & Es & H).
    set (c := (b0 - 0xC0) * 64 + (b1 - 0x80)) in *.
    assert (s = c :: s') by congruence. subst s.
    unfold cont, in_range in *.
    cbn [utf8_encode]. unfold utf8_char.
    replace (c <? 0x80) with false by lia. replace (c <? 0x800) with true by lia.
    cbn [bind]. rewrite (IH l2) with (s := s'); [|unfold ltof; cbn; lia|exact Es].
    cbn [bind app]. f_equal. f_equal; [lia|]. f_equal. lia. }
  destruct (in_range 0xE0 0xEF b0) eqn:E2.
  { destruct l1 as [|b1 [|b2 l3]]; try discriminate.
    destruct (second3 b0 b1 && cont b2) eqn:E3; [|discriminate].
    apply andb_prop in E3 as (E3 & E4).
    apply bind_ok in H as (s' & Es & H).
    set (c := (b0 - 0xE0) * 4096 + (b1 - 0x80) * 64 + (b2 - 0x80)) in *.
    assert (s = c :: s') by congruence. subst s.
    assert (in_range 0x80 0xBF b1 = true /\ (b0 = 0xE0 -> 0xA0 <= b1) /\ (b0 = 0xED -> b1 <= 0x9F)) as (F1 & F2 & F3).
    { unfold second3, cont, in_range in *.
      destruct (b0 =? 0xE0) eqn:?; [lia|]. destruct (b0 =? 0xED) eqn:?; lia. }
    unfold cont, in_range in *.
    cbn [utf8_encode]. unfold utf8_char.
    replace (c <? 0x80) with false by lia. replace (c <? 0x800) with false by lia.
    replace ((0xD800 <=? c) && (c <=? 0xDFFF)) with false by lia.
    replace (c <? 0x10000) with true by lia.
    cbn [bind]. rewrite (IH l3) with (s := s'); [|unfold ltof; cbn; lia|exact Es].
    cbn [bind app]. f_equal. f_equal; [lia|]. f_equal; [lia|]. f_equal. lia. }
  destruct (in_range 0xF0 0xF4 b0) eqn:E3; [|discriminate].
  destruct l1 as [|b1 [|b2 [|b3 l4]]]; try discriminate.
  destruct (second4 b0 b1 && cont b2 && cont b3) eqn:E4; [|discriminate].
  apply andb_prop in E4 as (E4 & E6). apply andb_prop in E4 as (E4 & E5).
  apply bind_ok in H as (s' & Es & H).
  set (c := (b0 - 0xF0) * 262144 + (b1 - 0x80) * 4096 + (b2 - 0x80) * 64 + (b3 - 0x80)) in *.
  assert (s = c :: s') by congruence. subst s.
  assert (in_range 0x80 0xBF b1 = true /\ (b0 = 0xF0 -> 0x90 <= b1) /\ (b0 = 0xF4 -> b1 <= 0x8F)) as (F1 & F2 & F3).
  { unfold second4, cont, in_range in *.
    destruct (b0 =? 0xF0) eqn:?; [lia|]. destruct (b0 =? 0xF4) eqn:?; lia. }
  unfold cont, in_range in *.
  cbn [utf8_encode]. unfold utf8_char.
  replace (c <? 0x80) with false by lia. replace (c <? 0x800) with false by lia.
  replace ((0xD800 <=? c) && (c <=? 0xDFFF)) with false by lia.
  replace (c <? 0x10000) with false by lia. replace (c <? 0x110000) with true by lia.
  cbn [bind]. rewrite (IH l4) with (s := s'); [|unfold ltof; cbn; lia|exact Es].
  cbn [bind app]. f_equal. f_equal; [lia|]. f_equal; [lia|]. f_equal; [lia|]. f_equal. lia.
Qed.

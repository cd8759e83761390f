(** Layout and constants do not change what is parsed. *)
From Coq Require Import String.
From Verif.Base Require Import Prelude Bits.
From Verif.Model Require Import Types Prim Float Slcan Parser.
From Verif.Spec Require Import ParserSpec.
From Verif.Proofs Require Import ParserText ParserFacts.
Open Scope list_scope.
Open Scope N_scope.

(** ** Constants and fields *)

(** [_parse_line] after the cast mode. *)
Definition uncast (tokens : list text) : option text * list text :=
  match tokens with
  | t0 :: r => if text_eqb t0 (txt "saturated") || text_eqb t0 (txt "truncated")
               then (Some t0, r) else (None, tokens)
  | [] => (None, tokens)
  end.
Lemma is_cast_dec t : text_eqb t (txt "saturated") || text_eqb t (txt "truncated") = true <-> is_cast t.
Proof. rewrite orb_true_iff, !text_eqb_eq. reflexivity. Qed.
Lemma constant_line_uncast l : constant_line l <-> (3 <= length (snd (uncast l)))%nat.
Proof.
  destruct l as [|t r]; cbn [uncast constant_line]; [cbn; lia|].
  destruct (text_eqb t _ || text_eqb t _) eqn:E.
  - apply is_cast_dec in E. cbn [snd]. tauto.
  - assert (~ is_cast t) by (rewrite <- is_cast_dec; congruence). cbn [snd]. tauto.
Qed.
Lemma constant_line_dec l : {constant_line l} + {~ constant_line l}.
Proof.
  destruct (le_lt_dec 3 (length (snd (uncast l)))) as [H|H]; [left|right]; rewrite constant_line_uncast; lia.
Qed.

Lemma code_self L : exists C, code L C.
Proof.
  induction L as [|l L (C & H)]; [exists []; constructor|].
  destruct (list_eq_dec (list_eq_dec N.eq_dec) l []) as [->|Hn]; [exists C; constructor; [now left|exact H]|].
  destruct (constant_line_dec l); [exists C; constructor; [now right|exact H]|].
  exists (l :: C). now constructor.
Qed.

Section OneWorld.
  Variable search_dirs : list text.
  Variable listdir : text -> option (list text).
  Variable read : text -> option text.
  Variable ev : text -> option pyv.
  Notation parse_line := (parse_line search_dirs listdir read ev).
  Notation line_step := (line_step search_dirs listdir read ev).
  Notation lines_loop := (lines_loop search_dirs listdir read ev).

  Lemma parse_line_uncast P fn tokens :
    parse_line P fn tokens =
    let '(cast, toks) := uncast tokens in
    match toks with
    | [] => Err DsdlException
    | [typename] =>
        if starts_with (txt "void") typename then
          t <- parse_type search_dirs listdir read P (S (length typename)) fn typename cast ;; Ok (AField (None, t))
        else Err DsdlException
    | typename :: attrname :: rest =>
        _ <- validate_attribute_name attrname ;;
        t <- parse_type search_dirs listdir read P (S (length typename)) fn typename cast ;;
        match rest with
        | [] => Ok (AField (Some attrname, t))
        | eq :: expr =>
            if nonempty expr && text_eqb eq (txt "=") then
              c <- make_constant ev t attrname (join (txt " ") expr) ;; Ok (AConst c)
            else Err DsdlException
        end
    end.
  Proof. reflexivity. Qed.

  Lemma constant_line_const P fn l a : constant_line l -> parse_line P fn l = Ok a -> exists c, a = AConst c.
  Proof.
    rewrite constant_line_uncast, parse_line_uncast. destruct (uncast l) as [cast toks]. cbn [snd].
    destruct toks as [|ty [|nm [|eq expr]]]; cbn [length]; try lia. intros _ H.
    apply bind_ok in H as (u & _ & H). apply bind_ok in H as (t & _ & H).
    destruct (_ && _); [|discriminate]. apply bind_ok in H as (c & _ & H). exists c. congruence.
  Qed.

  (** What matters of a state. *)
  Definition gist (s : pstate) :=
    (s_is_response s, s_override s, (p_union (s_request s), p_fields (s_request s)),
     (p_union (s_response s), p_fields (s_response s))).

  Lemma gist_current s t : gist s = gist t ->
    s_is_response s = s_is_response t /\ p_union (current s) = p_union (current t) /\
    p_fields (current s) = p_fields (current t).
  Proof.
    unfold gist, current. intros H. injection H as H1 H2 H3 H4 H5 H6. rewrite H1.
    destruct (s_is_response t); auto.
  Qed.
  Lemma gist_set s t n1 n2 p q : gist s = gist t -> p_union p = p_union q -> p_fields p = p_fields q ->
    gist (set_current s n1 p) = gist (set_current t n2 q).
  Proof.
    unfold gist, set_current. intros H Hu Hf. injection H as H1 H2 H3 H4 H5 H6. rewrite H1.
    destruct (s_is_response t); cbn [s_is_response s_override s_request s_response]; congruence.
  Qed.
  Lemma gist_set_same s n p : p_union p = p_union (current s) -> p_fields p = p_fields (current s) ->
    gist (set_current s n p) = gist s.
  Proof.
    unfold gist, set_current, current. intros Hu Hf.
    destruct (s_is_response s); cbn [s_is_response s_override s_request s_response]; congruence.
  Qed.

  Lemma constant_step P fn s l s' : constant_line l -> line_step P fn s l = Ok s' -> gist s' = gist s.
  Proof.
    intros Hc H. assert (Hlen : (3 <= length l)%nat).
    { destruct l as [|t r]; [destruct Hc|]. cbn [constant_line] in Hc. cbn [length] in *. lia. }
    destruct (line_step_cases search_dirs listdir read ev P fn s l) as [E|[(E & _)|[(E & _)|(t & E & _)]]];
      [|subst l; cbn [length] in Hlen; lia..].
    rewrite E in H. unfold add_step in H. apply bind_ok in H as (a & Ha & H).
    apply (constant_line_const _ _ _ _ Hc) in Ha as (c & ->). cbn [attr_name] in H.
    apply bind_ok in H as (u & _ & H). injection H as <-. apply gist_set_same; reflexivity.
  Qed.

  (** All lines are constants or blank. *)
  Lemma skip_all P fn L s s' : code L [] -> lines_loop P fn s (filter nonempty L) = Ok s' -> gist s' = gist s.
  Proof.
    intros HC. remember [] as C eqn:E. revert s. induction HC as [|l L C Hl HC IH|l L C Hn Hl HC IH]; intros s H.
    - cbn [filter Parser.lines_loop] in H. congruence.
    - cbn [filter] in H. destruct (nonempty l) eqn:En; [|exact (IH E _ H)].
      cbn [Parser.lines_loop] in H. apply bind_ok in H as (s1 & H1 & H).
      destruct Hl as [->|Hl]; [discriminate|]. apply (constant_step _ _ _ _ _ Hl) in H1.
      rewrite (IH E _ H). exact H1.
    - discriminate.
  Qed.
  (** The next line that matters. *)
  Lemma skip_to P fn L l C s s' : code L (l :: C) -> lines_loop P fn s (filter nonempty L) = Ok s' ->
    exists sm sn L', gist sm = gist s /\ line_step P fn sm l = Ok sn /\ code L' C /\
      lines_loop P fn sn (filter nonempty L') = Ok s'.
  Proof.
    intros HC. remember (l :: C) as C0 eqn:E. revert s.
    induction HC as [|l0 L C0 Hl HC IH|l0 L C0 Hn Hl HC IH]; intros s H.
    - discriminate.
    - cbn [filter] in H. destruct (nonempty l0) eqn:En; [|exact (IH E _ H)].
      cbn [Parser.lines_loop] in H. apply bind_ok in H as (s1 & H1 & H).
      destruct Hl as [->|Hl]; [discriminate|]. apply (constant_step _ _ _ _ _ Hl) in H1.
      destruct (IH E _ H) as (sm & sn & L' & G & K). exists sm, sn, L'. split; [congruence|exact K].
    - injection E as -> ->. cbn [filter] in H. destruct l as [|t r]; [congruence|].
      cbn [nonempty Parser.lines_loop] in H. apply bind_ok in H as (s1 & H1 & H).
      exists s, s1, L. auto.
  Qed.
End OneWorld.

Section TwoWorlds.
  Variable search_dirs : list text.
  Variable listdir : text -> option (list text).
  Variables read1 read2 : text -> option text.
  Variables ev1 ev2 : text -> option pyv.
  Hypothesis Hfiles : same_files read1 read2.
  Notation parse1 := (parse search_dirs listdir read1 ev1).
  Notation parse2 := (parse search_dirs listdir read2 ev2).

  Lemma find_ext {A} (p q : A -> bool) l : (forall x, p x = q x) -> find p l = find q l.
  Proof. intros H. induction l as [|x l IH]; cbn [find]; [reflexivity|]. now rewrite H, IH. Qed.

  Lemma locate_same fn td : locate search_dirs listdir read1 fn td = locate search_dirs listdir read2 fn td.
  Proof.
    assert (Hany : forall full dirs,
      locate_any search_dirs listdir read1 full dirs = locate_any search_dirs listdir read2 full dirs).
    { intros full dirs. induction dirs as [|d dirs IH]; [reflexivity|]. cbn [locate_any].
      assert (E : locate_in search_dirs listdir read1 full d = locate_in search_dirs listdir read2 full d).
      { unfold locate_in. destruct (listdir d); [|reflexivity]. apply find_ext. intros x.
        specialize (Hfiles x). destruct (read1 x), (read2 x); try reflexivity; destruct Hfiles. }
      rewrite E. now destruct (locate_in _ _ read2 _ _). }
    unfold locate. destruct (if existsb _ td then _ else _) as [full|]; [|reflexivity]. cbn [bind].
    destruct (map _ _); [reflexivity|]. now rewrite Hany.
  Qed.

  Definition agree (P1 P2 : text -> res definition) : Prop :=
    forall fn d1 d2, P1 fn = Ok d1 -> P2 fn = Ok d2 -> same_but_constants d1 d2.

  Lemma parse_type_same P1 P2 fuel fn td cast t1 t2 : agree P1 P2 ->
    parse_type search_dirs listdir read1 P1 fuel fn td cast = Ok t1 ->
    parse_type search_dirs listdir read2 P2 fuel fn td cast = Ok t2 -> t1 = t2.
  Proof.
    intros HP. revert td t1 t2. induction fuel as [|f IH]; intros td t1 t2 H1 H2; [discriminate|].
    cbn [parse_type] in H1, H2. destruct (void_match _); [congruence|].
    destruct (array_match _) as [[vt size]|].
    { apply bind_ok in H1 as (e1 & E1 & H1). apply bind_ok in H2 as (e2 & E2 & H2).
      rewrite (IH _ _ _ E1 E2) in H1. congruence. }
    destruct (primitive_match _) as [[base n]|]; [congruence|].
    apply bind_ok in H1 as (u1 & _ & H1). apply bind_ok in H1 as (f1 & L1 & H1).
    apply bind_ok in H1 as (d1 & D1 & H1).
    apply bind_ok in H2 as (u2 & _ & H2). apply bind_ok in H2 as (f2 & L2 & H2).
    apply bind_ok in H2 as (d2 & D2 & H2).
    rewrite locate_same, L2 in L1. injection L1 as ->.
    destruct (HP _ _ _ D1 D2) as (En & _ & _ & Eo & Eb).
    destruct (d_body d1) as [p1|], (d_body d2) as [p2|]; try discriminate.
    destruct Eb as (Eu & Ef). congruence.
  Qed.

  Lemma parse_line_same P1 P2 fn l a1 a2 : agree P1 P2 -> ~ constant_line l ->
    parse_line search_dirs listdir read1 ev1 P1 fn l = Ok a1 ->
    parse_line search_dirs listdir read2 ev2 P2 fn l = Ok a2 -> a1 = a2.
  Proof.
    intros HP. rewrite constant_line_uncast, !parse_line_uncast. destruct (uncast l) as [cast toks]. cbn [snd].
    intros Hc H1 H2. destruct toks as [|ty [|nm [|eq expr]]]; cbn [length] in Hc; [discriminate| | |lia].
    - destruct (starts_with (txt "void") ty); [|discriminate].
      apply bind_ok in H1 as (t1 & T1 & H1). apply bind_ok in H2 as (t2 & T2 & H2).
      rewrite (parse_type_same _ _ _ _ _ _ _ _ HP T1 T2) in H1. congruence.
    - apply bind_ok in H1 as (u1 & _ & H1). apply bind_ok in H2 as (u2 & _ & H2).
      apply bind_ok in H1 as (t1 & T1 & H1). apply bind_ok in H2 as (t2 & T2 & H2).
      rewrite (parse_type_same _ _ _ _ _ _ _ _ HP T1 T2) in H1. congruence.
  Qed.

  Lemma add_attr_union p a : p_union (add_attr p a) = p_union p.
  Proof. destruct a; reflexivity. Qed.

  Lemma line_step_same P1 P2 fn l s1 s2 s1' s2' : agree P1 P2 -> ~ constant_line l -> gist s1 = gist s2 ->
    line_step search_dirs listdir read1 ev1 P1 fn s1 l = Ok s1' ->
    line_step search_dirs listdir read2 ev2 P2 fn s2 l = Ok s2' -> gist s1' = gist s2'.
  Proof.
    intros HP Hc Hg H1 H2. destruct (gist_current _ _ Hg) as (Gr & Gu & Gf).
    assert (Hadd : add_step search_dirs listdir read1 ev1 P1 fn s1 l = Ok s1' ->
                   add_step search_dirs listdir read2 ev2 P2 fn s2 l = Ok s2' -> gist s1' = gist s2').
    { clear H1 H2. unfold add_step. intros H1 H2.
      apply bind_ok in H1 as (a1 & A1 & H1). apply bind_ok in H2 as (a2 & A2 & H2).
      pose proof (parse_line_same _ _ _ _ _ _ HP Hc A1 A2) as E. subst a2.
      assert (Hfin : forall n1 n2, gist (set_current s1 n1 (add_attr (current s1) a1)) =
                                   gist (set_current s2 n2 (add_attr (current s2) a1))).
      { intros n1 n2. apply gist_set; [exact Hg|now rewrite !add_attr_union|].
        destruct a1; cbn [add_attr p_fields]; now rewrite Gf. }
      destruct (attr_name a1).
      - apply bind_ok in H1 as (u1 & _ & H1). apply bind_ok in H2 as (u2 & _ & H2).
        injection H1 as <-. injection H2 as <-. apply Hfin.
      - injection H1 as <-. injection H2 as <-. apply Hfin. }
    destruct l as [|t [|t1 [|t2 r]]].
    - now apply Hadd.
    - cbn [line_step] in H1, H2. destruct (text_eqb t (txt "---")).
      { apply bind_ok in H1 as (u1 & _ & H1). apply bind_ok in H2 as (u2 & _ & H2).
        injection H1 as <-. injection H2 as <-. unfold gist in Hg |- *.
        cbn [s_is_response s_override s_request s_response]. congruence. }
      destruct (text_eqb t (txt "@union")).
      { apply bind_ok in H1 as (u1 & _ & H1). apply bind_ok in H2 as (u2 & _ & H2).
        injection H1 as <-. injection H2 as <-. apply gist_set; [exact Hg|reflexivity|exact Gf]. }
      now apply Hadd.
    - cbn [line_step] in H1, H2. destruct (text_eqb t (txt "OVERRIDE_SIGNATURE")).
      { apply bind_ok in H1 as (z1 & Z1 & H1). apply bind_ok in H2 as (z2 & Z2 & H2).
        injection H1 as <-. injection H2 as <-. unfold gist in Hg |- *.
        cbn [s_is_response s_override s_request s_response]. congruence. }
      now apply Hadd.
    - now apply Hadd.
  Qed.

  Lemma lines_same P1 P2 fn C La Lb s1 s2 s1' s2' : agree P1 P2 -> code La C -> code Lb C ->
    gist s1 = gist s2 ->
    lines_loop search_dirs listdir read1 ev1 P1 fn s1 (filter nonempty La) = Ok s1' ->
    lines_loop search_dirs listdir read2 ev2 P2 fn s2 (filter nonempty Lb) = Ok s2' ->
    gist s1' = gist s2'.
  Proof.
    intros HP HA. revert Lb s1 s2.
    induction HA as [|l La C Hl HA IH|l La C Hn Hl HA IH]; intros Lb s1 s2 HB Hg H1 H2.
    - apply skip_all in H2; [|exact HB]. cbn [filter lines_loop] in H1. congruence.
    - cbn [filter] in H1. destruct (nonempty l) eqn:En; [|exact (IH _ _ _ HB Hg H1 H2)].
      cbn [lines_loop] in H1. apply bind_ok in H1 as (sx & Hx & H1).
      destruct Hl as [->|Hl]; [discriminate|]. apply (constant_step _ _ _ _ _ _ _ _ _ Hl) in Hx.
      apply (IH Lb sx s2); congruence.
    - apply (skip_to _ _ _ _ _ _ _ _ _ _ _ HB) in H2 as (sm & sn & L' & G & Hs & HB' & H2).
      cbn [filter] in H1. destruct l as [|t r]; [congruence|].
      cbn [nonempty lines_loop] in H1. apply bind_ok in H1 as (sx & Hx & H1).
      apply (IH L' sx sn HB'); [|exact H1|exact H2].
      eapply line_step_same; [exact HP|exact Hl| |exact Hx|exact Hs]. congruence.
  Qed.

  Lemma parse_source_same P1 P2 fn a b d1 d2 : agree P1 P2 -> same_code a b ->
    parse_source search_dirs listdir read1 ev1 P1 fn a = Ok d1 ->
    parse_source search_dirs listdir read2 ev2 P2 fn b = Ok d2 -> same_but_constants d1 d2.
  Proof.
    intros HP (La & Lb & C & Wa & Wb & Ca & Cb) H1 H2. unfold parse_source in H1, H2.
    rewrite (written_tokens _ _ Wa) in H1. rewrite (written_tokens _ _ Wb) in H2.
    destruct (name_from_filename search_dirs fn) as [[[full v] id]|]; [|discriminate]. cbn [bind] in H1, H2.
    apply bind_ok in H1 as (s1 & S1 & H1). apply bind_ok in H2 as (s2 & S2 & H2).
    apply refuse_ok in S1, S2.
    pose proof (lines_same _ _ _ _ _ _ _ _ _ _ HP Ca Cb eq_refl S1 S2) as G.
    apply bind_ok in H1 as (u1 & _ & H1). apply bind_ok in H2 as (u2 & _ & H2).
    apply bind_ok in H1 as (u3 & _ & H1). apply bind_ok in H2 as (u4 & _ & H2).
    injection H1 as <-. injection H2 as <-. unfold gist in G. injection G as G1 G2 G3 G4 G5 G6.
    unfold same_but_constants. cbn [d_name d_dtid d_version d_override d_body].
    split; [reflexivity|]. split; [reflexivity|]. split; [reflexivity|]. split; [exact G2|].
    rewrite G1. destruct (s_is_response s2); cbn [same_struct_body]; unfold same_struct; auto.
  Qed.

  Lemma parse_same n m : agree (parse1 n) (parse2 m).
  Proof.
    revert m. induction n as [|n IH]; intros m fn d1 d2 H1 H2; [discriminate|].
    destruct m as [|m]; [discriminate|]. cbn [parse] in H1, H2.
    pose proof (Hfiles fn) as Hf. destruct (read1 fn) as [a|], (read2 fn) as [b|]; try discriminate.
    apply refuse_ok in H1, H2. exact (parse_source_same _ _ _ _ _ _ _ (IH m) Hf H1 H2).
  Qed.
End TwoWorlds.

(** ** Signatures *)

Lemma same_signatures d1 d2 : same_but_constants d1 d2 ->
  d_signature d1 = d_signature d2 /\ data_type_signature d1 = data_type_signature d2.
Proof.
  intros (En & _ & _ & Eo & Eb). unfold data_type_signature, d_signature.
  assert (E1 : dsdl_signature (d_name d1) (d_body d1) (d_override d1) =
               dsdl_signature (d_name d2) (d_body d2) (d_override d2)).
  { unfold dsdl_signature. rewrite Eo. destruct (d_override d2); [reflexivity|]. do 2 f_equal.
    unfold source_definition. rewrite En.
    destruct (d_body d1) as [p|p1 p2], (d_body d2) as [q|q1 q2]; try (destruct Eb; fail).
    - destruct Eb as (-> & ->). reflexivity.
    - destruct Eb as ((-> & ->) & (-> & ->)). reflexivity. }
  split; [exact E1|]. rewrite E1. f_equal.
  destruct (d_body d1) as [p|p1 p2], (d_body d2) as [q|q1 q2]; try (destruct Eb; fail); cbn [body_fields].
  - destruct Eb as (_ & ->). reflexivity.
  - destruct Eb as ((_ & ->) & (_ & ->)). reflexivity.
Qed.

(** ** Layout *)

Section Layout.
  Variable search_dirs : list text.
  Variable listdir : text -> option (list text).
  Variables read1 read2 : text -> option text.
  Variable ev : text -> option pyv.
  Hypothesis Hlocate : forall fn td, locate search_dirs listdir read1 fn td = locate search_dirs listdir read2 fn td.

  Lemma bind_ext {A B} (r1 r2 : res A) (f1 f2 : A -> res B) :
    r1 = r2 -> (forall x, f1 x = f2 x) -> bind r1 f1 = bind r2 f2.
  Proof. intros -> H. destruct r2; cbn [bind]; [apply H|reflexivity]. Qed.

  Lemma parse_type_ext P1 P2 fuel fn td cast : (forall f, P1 f = P2 f) ->
    parse_type search_dirs listdir read1 P1 fuel fn td cast = parse_type search_dirs listdir read2 P2 fuel fn td cast.
  Proof.
    intros HP. revert td. induction fuel as [|f IH]; intros td; [reflexivity|]. cbn [parse_type].
    destruct (void_match _); [reflexivity|]. destruct (array_match _) as [[vt size]|].
    { apply bind_ext; [apply IH|reflexivity]. }
    destruct (primitive_match _) as [[base n]|]; [reflexivity|].
    apply bind_ext; [reflexivity|]. intros _. apply bind_ext; [apply Hlocate|]. intros f'.
    apply bind_ext; [apply HP|reflexivity].
  Qed.
  Lemma parse_line_ext P1 P2 fn l : (forall f, P1 f = P2 f) ->
    parse_line search_dirs listdir read1 ev P1 fn l = parse_line search_dirs listdir read2 ev P2 fn l.
  Proof.
    intros HP. rewrite !parse_line_uncast. destruct (uncast l) as [cast toks].
    destruct toks as [|ty [|nm rest]]; [reflexivity| |].
    - destruct (starts_with _ ty); [|reflexivity]. apply bind_ext; [now apply parse_type_ext|reflexivity].
    - apply bind_ext; [reflexivity|]. intros _. apply bind_ext; [now apply parse_type_ext|reflexivity].
  Qed.
  Lemma line_step_ext P1 P2 fn s l : (forall f, P1 f = P2 f) ->
    line_step search_dirs listdir read1 ev P1 fn s l = line_step search_dirs listdir read2 ev P2 fn s l.
  Proof.
    intros HP. unfold line_step. rewrite (parse_line_ext _ _ fn l HP).
    reflexivity.
  Qed.
  Lemma lines_loop_ext P1 P2 fn s L : (forall f, P1 f = P2 f) ->
    lines_loop search_dirs listdir read1 ev P1 fn s L = lines_loop search_dirs listdir read2 ev P2 fn s L.
  Proof.
    intros HP. revert s. induction L as [|l L IH]; intros s; [reflexivity|]. cbn [lines_loop].
    apply bind_ext; [now apply line_step_ext|exact IH].
  Qed.
End Layout.

Lemma layout_same search_dirs listdir read1 read2 ev :
  same_layout_files read1 read2 ->
  forall n fn, parse search_dirs listdir read1 ev n fn = parse search_dirs listdir read2 ev n fn.
Proof.
  intros Hfiles. assert (Hloc : forall fn td, locate search_dirs listdir read1 fn td = locate search_dirs listdir read2 fn td).
  { apply locate_same. intros fn. specialize (Hfiles fn). destruct (read1 fn) as [a|], (read2 fn) as [b|]; auto.
    destruct Hfiles as (La & Lb & Wa & Wb & E).
    change (filter (@nonempty text) La = filter (@nonempty text) Lb) in E. destruct (code_self La) as (C & HC).
    exists La, Lb, C. split; [exact Wa|]. split; [exact Wb|]. split; [exact HC|].
    clear Wa Wb. 
    assert (K : forall L C, code (filter nonempty L) C <-> code L C).
    { clear. induction L as [|l L IH]; intros C; [reflexivity|]. cbn [filter]. destruct (nonempty l) eqn:En.
      - split; intros H; inversion H; subst; constructor; auto; now apply IH.
      - destruct l; [|discriminate]. split; intros H.
        + constructor; [now left|now apply IH].
        + inversion H; subst; [now apply IH|congruence]. }
    apply K. rewrite <- E. now apply K. }
  induction n as [|n IH]; intros fn; [reflexivity|]. cbn [parse]. specialize (Hfiles fn).
  destruct (read1 fn) as [a|], (read2 fn) as [b|]; try (destruct Hfiles; fail); [|reflexivity].
  destruct Hfiles as (La & Lb & Wa & Wb & E).
    change (filter (@nonempty text) La = filter (@nonempty text) Lb) in E. f_equal. unfold parse_source.
  rewrite (written_tokens _ _ Wa), (written_tokens _ _ Wb), E.
  apply bind_ext; [reflexivity|]. intros ((full & v) & id).
  now rewrite (lines_loop_ext _ _ _ _ _ Hloc _ _ fn pstate0 (filter nonempty Lb) IH).
Qed.

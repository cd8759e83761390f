(** What the parser accepts is well formed. *)
From Coq Require Import String Permutation.
From Verif.Base Require Import Prelude Bits.
From Verif.Model Require Import Types Prim Float Slcan Parser.
From Verif.Spec Require Import CodecSpec ParserSpec.
From Verif.Proofs Require Import ParserText.
Open Scope list_scope.
Open Scope N_scope.

(** ** Beginnings *)

Lemma starts_with_app p s : starts_with p s = true <-> exists r, s = p ++ r.
Proof.
  revert s. induction p as [|a p IH]; intros s; cbn [starts_with].
  - split; [exists s; reflexivity|reflexivity].
  - destruct s as [|b s].
    + split; [discriminate|]. intros (r & H). discriminate.
    + rewrite andb_true_iff, N.eqb_eq, IH. split.
      * intros (-> & r & ->). now exists r.
      * intros (r & H). cbn [app] in H. injection H as -> ->. eauto.
Qed.

Lemma drop_while_suffix {A} (p : A -> bool) l : exists g, l = g ++ drop_while p l.
Proof.
  induction l as [|x r (g & E)]; [exists []; reflexivity|]. cbn [drop_while].
  destruct (p x); [exists (x :: g); cbn [app]; now rewrite <- E|exists []; reflexivity].
Qed.
Lemma drop_while_app {A} (p : A -> bool) a b : (exists x, In x a /\ p x = false) ->
  drop_while p (a ++ b) = drop_while p a ++ b.
Proof.
  induction a as [|x r IH]; intros (y & Hy & Hp); [destruct Hy|]. cbn [app drop_while].
  destruct (p x) eqn:E; [|reflexivity]. apply IH. destruct Hy as [->|Hy]; [congruence|eauto].
Qed.

Lemma rstrip_void p r : p 100 = false ->
  exists r', rev (drop_while p (rev (txt "void" ++ r))) = txt "void" ++ r'.
Proof.
  intros Hp. rewrite rev_app_distr.
  assert (exists g, drop_while p (rev r ++ rev (txt "void")) = g ++ rev (txt "void")) as (g & ->).
  { generalize (rev r). intros l. induction l as [|x l IH].
    - exists []. change (rev (txt "void")) with [100; 105; 111; 118]. cbn [app drop_while]. now rewrite Hp.
    - cbn [app drop_while]. destruct (p x); [exact IH|exists (x :: l); reflexivity]. }
  exists (rev g). rewrite rev_app_distr. now rewrite rev_involutive.
Qed.
Lemma strip_void r : exists r', strip is_ws (txt "void" ++ r) = txt "void" ++ r'.
Proof.
  unfold strip. change (drop_while is_ws (txt "void" ++ r)) with (txt "void" ++ r).
  now apply rstrip_void.
Qed.

Lemma size_part_spec s z : size_part s = Some z -> s = z ++ [93].
Proof.
  revert z. induction s as [|c r IH]; intros z H; [discriminate|]. cbn [size_part] in H.
  destruct r as [|c' r'].
  - destruct (N.eqb_spec c 93) as [->|]; [|discriminate]. injection H as <-. reflexivity.
  - destruct (c =? 93); [discriminate|]. destruct (size_part (c' :: r')) as [z'|]; [|discriminate].
    cbn [option_map] in H. injection H as <-. cbn [app]. now rewrite <- (IH z' eq_refl).
Qed.
Lemma find_size_spec s p z : find_size s = Some (p, z) -> s = p ++ 91 :: z ++ [93].
Proof.
  revert p z. induction s as [|c r IH]; intros p z H; [discriminate|]. cbn [find_size] in H.
  destruct (N.eqb_spec c 91) as [->|Hc].
  - destruct (size_part r) as [z'|] eqn:E.
    + injection H as <- <-. cbn [app]. now rewrite <- (size_part_spec _ _ E).
    + destruct (find_size r) as [[p' z']|]; [|discriminate]. injection H as <- <-.
      cbn [app]. now rewrite <- (IH _ _ eq_refl).
  - destruct (find_size r) as [[p' z']|]; [|discriminate]. injection H as <- <-.
    cbn [app]. now rewrite <- (IH _ _ eq_refl).
Qed.
Lemma array_match_spec s p z : array_match s = Some (p, z) -> s = p ++ 91 :: z ++ [93].
Proof.
  destruct s as [|c r]; [discriminate|]. cbn [array_match]. destruct (find_size r) as [[p' z']|] eqn:E; [|discriminate].
  intros H. injection H as <- <-. cbn [app]. now rewrite <- (find_size_spec _ _ _ E).
Qed.
Lemma prefix_void p q r : txt "void" ++ r = p ++ 91 :: q -> exists r', p = txt "void" ++ r'.
Proof.
  change (txt "void") with [118; 111; 105; 100]. cbn [app]. intros H.
  destruct p as [|a p]; [discriminate|]. cbn [app] in H. injection H as <- H.
  destruct p as [|b p]; [discriminate|]. cbn [app] in H. injection H as <- H.
  destruct p as [|c p]; [discriminate|]. cbn [app] in H. injection H as <- H.
  destruct p as [|d p]; [discriminate|]. cbn [app] in H. injection H as <- H. now exists p.
Qed.

(** ** Full names *)

Lemma validate_last nm : validate_compound_type_full_name nm = Ok tt ->
  matches is_upper name_char (last (split_dots nm) []) = true.
Proof.
  unfold validate_compound_type_full_name. intros H.
  apply bind_ok in H as (u0 & _ & H). apply bind_ok in H as (u1 & _ & H).
  apply bind_ok in H as (u2 & Hsh & _). now apply enforce_ok in Hsh.
Qed.
Lemma last_component ns w : Forall (fun c => c <> 46) w -> last (split_dots (ns ++ 46 :: w)) [] = w.
Proof.
  intros H. unfold split_dots. rewrite split_by_app by reflexivity.
  rewrite (split_by_none _ w).
  - now rewrite last_last.
  - eapply Forall_impl; [|exact H]. intros x Hx. apply N.eqb_neq. cbv beta in Hx. congruence.
Qed.

Lemma NoDup_left {A} (a b : list A) : NoDup (a ++ b) -> NoDup a.
Proof.
  induction a as [|x a IH]; cbn [app]; intros H; [constructor|]. inversion H as [|? ? Hn Hd]; subst.
  constructor; [|now apply IH]. intros Hx. apply Hn. apply in_or_app. now left.
Qed.

Section Facts.
  Variable search_dirs : list text.
  Variable listdir : text -> option (list text).
  Variable read : text -> option text.
  Variable ev : text -> option pyv.
  Notation name_from_filename := (name_from_filename search_dirs).
  Notation locate := (locate search_dirs listdir read).
  Notation parse_type := (parse_type search_dirs listdir read).
  Notation parse_line := (parse_line search_dirs listdir read ev).
  Notation line_step := (line_step search_dirs listdir read ev).
  Notation lines_loop := (lines_loop search_dirs listdir read ev).
  Notation parse_source := (parse_source search_dirs listdir read ev).
  Notation parse := (parse search_dirs listdir read ev).

  Lemma name_from_filename_valid fn full v id :
    name_from_filename fn = Ok (full, v, id) -> validate_compound_type_full_name full = Ok tt.
  Proof.
    unfold Parser.name_from_filename. intros H.
    apply bind_ok in H as (u & _ & H). apply bind_ok in H as ((dtid & nm) & _ & H).
    apply bind_ok in H as (ver & _ & H). apply bind_ok in H as (ns & _ & H).
    apply bind_ok in H as ([] & Hv & H). injection H as <- <- <-. exact Hv.
  Qed.

  (** The file that is located has the full name that was asked for. *)
  Lemma locate_any_name full dirs fn :
    locate_any search_dirs listdir read full dirs = Some fn ->
    exists v id, name_from_filename fn = Ok (full, v, id).
  Proof.
    induction dirs as [|d dirs IH]; [discriminate|]. cbn [locate_any]. unfold locate_in.
    destruct (listdir d) as [names|]; [|exact IH].
    destruct (find _ _) as [f|] eqn:E; [|exact IH]. intros H. injection H as <-.
    apply find_some in E as (_ & E). destruct (read f); [|discriminate].
    destruct (name_from_filename f) as [[[full' v] id]|]; [|discriminate].
    apply text_eqb_eq in E. subst full'. eauto.
  Qed.
  Lemma locate_name fn td fn' : locate fn td = Ok fn' ->
    exists full v id, name_from_filename fn' = Ok (full, v, id) /\
      (existsb (N.eqb 46) td = true /\ full = td \/
       existsb (N.eqb 46) td = false /\ exists ns, full = ns ++ 46 :: td).
  Proof.
    unfold Parser.locate. intros H. apply bind_ok in H as (full & Hf & H).
    match type of H with match ?l with _ => _ end = _ => destruct l as [|d ds]; [discriminate|] end.
    destruct (locate_any _ _ _ full (d :: ds)) as [f|] eqn:E; [|discriminate]. injection H as <-.
    apply locate_any_name in E as (v & id & E). exists full, v, id. split; [exact E|].
    destruct (existsb (N.eqb 46) td).
    - left. now injection Hf as <-.
    - right. split; [reflexivity|]. apply bind_ok in Hf as (ns & _ & Hf). injection Hf as <-. now exists ns.
  Qed.

  (** What is assumed of the parser for nested definitions. *)
  Definition sound (P : text -> res definition) : Prop :=
    forall fn d, P fn = Ok d ->
      legal_definition d /\ exists v id, name_from_filename fn = Ok (d_name d, v, id).

  Lemma parse_void_legal n t : parse_void_type n = Ok t -> legal_type t /\ is_void t.
  Proof.
    unfold parse_void_type. intros H. apply bind_ok in H as (u & He & H). apply enforce_ok in He.
    injection H as <-. split; [constructor; lia|now exists (N.to_nat n)].
  Qed.
  Lemma parse_array_spec et size t : parse_array_type et size = Ok t ->
    exists dyn mx, t = QArr dyn et mx /\ ~ is_array et /\ (0 < mx)%Z.
  Proof.
    unfold parse_array_type. intros H. apply bind_ok in H as (u & Ha & H). apply enforce_ok in Ha.
    apply bind_ok in H as ((mx & dyn) & _ & H). apply bind_ok in H as (u' & Hp & H). apply enforce_ok in Hp.
    injection H as <-. exists dyn, mx. split; [reflexivity|]. split; [|lia].
    intros (d & e & m & ->). discriminate.
  Qed.
  Lemma parse_primitive_legal base n cast t : parse_primitive_type base n cast = Ok t ->
    legal_type t /\ exists k m cm, t = QPrim k m cm.
  Proof.
    unfold parse_primitive_type. intros H. apply bind_ok in H as (cm & _ & H).
    destruct (text_eqb base (txt "bool")).
    { injection H as <-. split; [constructor|eauto]. }
    apply bind_ok in H as (k & Hk & H). apply bind_ok in H as (u & Hb & H). apply enforce_ok in Hb.
    injection H as <-. split; [|eauto]. destruct k.
    - repeat match type of Hk with (if ?b then _ else _) = _ => destruct b; try discriminate end.
    - apply legal_int; [now left|lia].
    - apply legal_int; [now right|lia].
    - apply legal_float. lia.
  Qed.

  Lemma parse_type_legal P fuel fn td cast t : sound P ->
    parse_type P fuel fn td cast = Ok t -> legal_type t.
  Proof.
    intros HP. revert td t. induction fuel as [|f IH]; intros td t H; [discriminate|].
    cbn [Parser.parse_type] in H.
    destruct (void_match _) as [n|]; [now apply parse_void_legal in H|].
    destruct (array_match _) as [[vt size]|].
    { apply bind_ok in H as (et & He & H). apply parse_array_spec in H as (dyn & mx & -> & Ha & Hm).
      constructor; [exact (IH _ _ He)|exact Ha|exact Hm]. }
    destruct (primitive_match _) as [[base n]|]; [now apply parse_primitive_legal in H|].
    apply bind_ok in H as (u & _ & H). apply bind_ok in H as (fn' & _ & H).
    apply bind_ok in H as (d & Hd & H). apply HP in Hd as ((Hn & Hp & _) & _).
    destruct (d_body d) as [p|]; [|discriminate]. injection H as <-.
    cbn [parts] in Hp. apply Forall_cons_iff in Hp as ((H1 & H2 & H3 & _) & _).
    now constructor.
  Qed.

  (** A type written "void...". *)
  Lemma parse_type_voidish P fuel fn r cast t : sound P ->
    parse_type P fuel fn (txt "void" ++ r) cast = Ok t -> voidish t.
  Proof.
    intros HP. revert r t. induction fuel as [|f IH]; intros r t H; [discriminate|].
    cbn [Parser.parse_type] in H. destruct (strip_void r) as (r1 & E1). rewrite E1 in H.
    destruct (void_match _) as [n|].
    { apply parse_void_legal in H as (_ & (m & ->)). constructor. }
    destruct (array_match _) as [[vt size]|] eqn:Ea.
    { apply array_match_spec in Ea. apply prefix_void in Ea as (r2 & ->).
      destruct (strip_void r2) as (r3 & E3). rewrite E3 in H.
      apply bind_ok in H as (et & He & H). apply parse_array_spec in H as (dyn & mx & -> & _ & _).
      constructor. exact (IH _ _ He). }
    destruct (primitive_match (txt "void" ++ r1)) as [[base n]|] eqn:Ep.
    { exfalso. unfold primitive_match in Ep.
      assert (Hb : text_eqb (txt "void" ++ r1) (txt "bool") = false) by (apply text_eqb_neq; discriminate).
      rewrite Hb in Ep. destruct (nonempty _ && _) eqn:En; [|discriminate].
      destruct (small_number _); [|discriminate].
      assert (Ebase : base = rev (drop_while is_digit (rev (txt "void" ++ r1)))) by congruence. clear Ep. subst base.
      destruct (rstrip_void is_digit r1 eq_refl) as (r2 & E). rewrite E in H. unfold parse_primitive_type in H.
      apply bind_ok in H as (cm & _ & H).
      assert (Hno : forall w, text_eqb (txt "void" ++ r2) (txt w) = true -> exists q, txt w = 118 :: q).
      { intros w Hw. apply text_eqb_eq in Hw. rewrite <- Hw. eexists. reflexivity. }
      repeat match type of H with
             | context [text_eqb (txt "void" ++ r2) (txt ?w)] =>
                 destruct (text_eqb (txt "void" ++ r2) (txt w)) eqn:Ew;
                 [apply Hno in Ew as (q & Ew); discriminate Ew|]
             end.
      cbn [bind] in H. discriminate H. }
    apply bind_ok in H as (u & _ & H). apply bind_ok in H as (fn' & Hl & H).
    apply bind_ok in H as (d & Hd & H). apply HP in Hd as (_ & v & id & Hn).
    destruct (d_body d) as [p|]; [|discriminate]. injection H as <-.
    apply locate_name in Hl as (full & v' & id' & Hn' & Hor). rewrite Hn in Hn'. injection Hn' as Hfull _ _.
    destruct Hor as [(_ & ->)|(Hdot & ns & ->)]; [rewrite Hfull; constructor|].
    exfalso. apply name_from_filename_valid in Hn. rewrite Hfull in Hn. apply validate_last in Hn.
    rewrite last_component in Hn; [discriminate Hn|].
    apply Forall_forall. intros c Hc ->. enough (existsb (N.eqb 46) (txt "void" ++ r1) = true) by congruence.
    apply existsb_exists. exists 46. split; [exact Hc|reflexivity].
  Qed.

  (** ** Lines *)

  Lemma make_constant_name t name expr c : make_constant ev t name expr = Ok c -> k_name c = name.
  Proof.
    unfold make_constant. destruct t; try discriminate. intros H.
    apply bind_ok in H as (v & _ & H). apply bind_ok in H as (ok & _ & H). apply bind_ok in H as (u & _ & H).
    injection H as <-. reflexivity.
  Qed.

  Lemma parse_line_legal P fn tokens a : sound P -> parse_line P fn tokens = Ok a ->
    match a with
    | AField (nm, t) => legal_type t /\
        match nm with Some n => attribute_name n | None => voidish t end
    | AConst c => attribute_name (k_name c)
    end.
  Proof.
    intros HP H. unfold Parser.parse_line in H.
    destruct (match tokens with [] => _ | _ => _ end) as [cast toks].
    destruct toks as [|ty [|nm rest]]; [discriminate| |].
    - destruct (starts_with (txt "void") ty) eqn:Es; [|discriminate].
      apply bind_ok in H as (t & Ht & H). injection H as <-.
      apply starts_with_app in Es as (r & ->).
      split; [exact (parse_type_legal _ _ _ _ _ _ HP Ht)|exact (parse_type_voidish _ _ _ _ _ _ HP Ht)].
    - apply bind_ok in H as ([] & Hn & H). apply validate_attribute in Hn.
      apply bind_ok in H as (t & Ht & H). destruct rest as [|eq expr].
      + injection H as <-. split; [exact (parse_type_legal _ _ _ _ _ _ HP Ht)|exact Hn].
      + destruct (nonempty expr && text_eqb eq (txt "=")); [|discriminate].
        apply bind_ok in H as (c & Hc & H). injection H as <-. apply make_constant_name in Hc. now rewrite Hc.
  Qed.

  (** ** Definitions *)

  Definition part_names (p : part) : list text := field_names (p_fields p) ++ map k_name (p_consts p).
  (** Legal up to the rules for unions. *)
  Definition part_inv (p : part) : Prop :=
    Forall (fun f => fst f = None -> voidish (snd f)) (p_fields p) /\
    Forall (fun f => legal_type (snd f)) (p_fields p) /\
    NoDup (part_names p) /\ Forall attribute_name (part_names p).
  Definition state_inv (s : pstate) : Prop :=
    part_inv (s_request s) /\ part_inv (s_response s) /\
    incl (part_names (current s)) (s_names s) /\
    (s_is_response s = false -> part_names (s_response s) = [] ).

  Lemma empty_inv : part_inv empty_part.
  Proof. unfold part_inv, part_names, empty_part. cbn. repeat split; constructor. Qed.
  Lemma state0_inv : state_inv pstate0.
  Proof.
    unfold state_inv, pstate0. cbn [s_request s_response s_names s_is_response current].
    split; [exact empty_inv|]. split; [exact empty_inv|]. split; [intros x []|reflexivity].
  Qed.

  Lemma field_names_app a b : field_names (a ++ b) = field_names a ++ field_names b.
  Proof.
    induction a as [|[[nm|] t] a IH]; cbn [field_names app]; [reflexivity|now rewrite IH|exact IH].
  Qed.

  Lemma current_inv s : state_inv s -> part_inv (current s).
  Proof. intros (H1 & H2 & _). unfold current. now destruct (s_is_response s). Qed.
  Lemma set_current_inv s names p : state_inv s -> part_inv p -> incl (part_names p) names ->
    state_inv (set_current s names p).
  Proof.
    intros (H1 & H2 & _ & H4) Hp Hi. unfold set_current, state_inv, current.
    destruct (s_is_response s) eqn:E; cbn [s_request s_response s_names s_is_response].
    - split; [exact H1|]. split; [exact Hp|]. split; [exact Hi|discriminate].
    - split; [exact Hp|]. split; [exact H2|]. split; [exact Hi|exact H4].
  Qed.

  Lemma add_attr_perm p a :
    Permutation (part_names (add_attr p a))
                (match attr_name a with Some nm => [nm] | None => [] end ++ part_names p).
  Proof.
    unfold part_names. destruct a as [[nm t]|c]; cbn [add_attr p_fields p_consts attr_name fst].
    - rewrite field_names_app. destruct nm as [nm|]; cbn [field_names app].
      + rewrite <- app_assoc. cbn [app]. apply Permutation_sym, Permutation_middle.
      + rewrite app_nil_r. apply Permutation_refl.
    - rewrite map_app. cbn [map]. rewrite app_assoc. apply Permutation_sym, Permutation_cons_append.
  Qed.

  (** Adding an attribute, as it is done for both kinds of lines. *)
  Definition add_step (P : text -> res definition) (fn : text) (s : pstate) (tokens : list text) : res pstate :=
    a <- parse_line P fn tokens ;;
    match attr_name a with
    | Some nm =>
        _ <- enforce (negb (existsb (text_eqb nm) (s_names s))) ;;
        Ok (set_current s (nm :: s_names s) (add_attr (current s) a))
    | None => Ok (set_current s (s_names s) (add_attr (current s) a))
    end.

  Lemma add_step_inv P fn s tokens s' : sound P -> state_inv s ->
    add_step P fn s tokens = Ok s' -> state_inv s'.
  Proof.
    intros HP Hs H. unfold add_step in H. apply bind_ok in H as (a & Ha & H).
    apply (parse_line_legal _ _ _ _ HP) in Ha.
    pose proof (current_inv _ Hs) as (C1 & C2 & C3 & C4).
    assert (Hincl : incl (part_names (current s)) (s_names s)) by apply Hs.
    pose proof (add_attr_perm (current s) a) as Hperm.
    assert (Hfields : Forall (fun f => fst f = None -> voidish (snd f)) (p_fields (add_attr (current s) a)) /\
                      Forall (fun f => legal_type (snd f)) (p_fields (add_attr (current s) a))).
    { destruct a as [[nm t]|c]; cbn [add_attr p_fields].
      - destruct Ha as (Ht & Hn). split; apply Forall_app.
        + split; [exact C1|]. constructor; [|constructor]. cbn [fst snd]. intros ->. exact Hn.
        + split; [exact C2|]. constructor; [exact Ht|constructor].
      - now split. }
    destruct Hfields as (F1 & F2). destruct (attr_name a) as [nm|] eqn:En; cbn [app] in Hperm.
    - apply bind_ok in H as (u & Hd & H). apply enforce_ok in Hd. injection H as <-.
      apply set_current_inv; [exact Hs| |].
      + split; [exact F1|]. split; [exact F2|].
        assert (Hnot : ~ In nm (part_names (current s))).
        { intros Hin. apply Hincl in Hin. apply negb_true_iff in Hd.
          enough (existsb (text_eqb nm) (s_names s) = true) by congruence.
          apply existsb_exists. exists nm. split; [exact Hin|apply text_eqb_refl]. }
        split.
        * eapply Permutation_NoDup; [apply Permutation_sym, Hperm|]. now constructor.
        * eapply Permutation_Forall; [apply Permutation_sym, Hperm|]. constructor; [|exact C4].
          destruct a as [[nm' t]|c]; cbn [attr_name fst] in En.
          -- subst nm'. apply Ha.
          -- injection En as <-. exact Ha.
      + intros x Hx. apply (Permutation_in _ Hperm) in Hx. destruct Hx as [->|Hx]; [now left|].
        right. now apply Hincl.
    - injection H as <-. apply set_current_inv; [exact Hs| |].
      + split; [exact F1|]. split; [exact F2|]. split.
        * eapply Permutation_NoDup; [apply Permutation_sym, Hperm|]. exact C3.
        * eapply Permutation_Forall; [apply Permutation_sym, Hperm|]. exact C4.
      + intros x Hx. apply (Permutation_in _ Hperm) in Hx. now apply Hincl.
  Qed.

  (** A line is one of four things. *)
  Lemma line_step_cases P fn s tokens :
    line_step P fn s tokens = add_step P fn s tokens \/
    tokens = [txt "---"] /\
      line_step P fn s tokens =
        (_ <- enforce (negb (s_is_response s)) ;;
         Ok {| s_names := []; s_request := s_request s; s_response := s_response s;
               s_is_response := true; s_override := s_override s |}) \/
    tokens = [txt "@union"] /\
      line_step P fn s tokens =
        (_ <- enforce (negb (p_union (current s))) ;;
         Ok (set_current s (s_names s)
               {| p_fields := p_fields (current s); p_consts := p_consts (current s); p_union := true |})) \/
    exists t, tokens = [txt "OVERRIDE_SIGNATURE"; t] /\
      line_step P fn s tokens =
        (z <- refuse (int16 t) ;;
         Ok {| s_names := s_names s; s_request := s_request s; s_response := s_response s;
               s_is_response := s_is_response s; s_override := Some z |}).
  Proof.
    destruct tokens as [|t [|t1 [|t2 r]]].
    - left. reflexivity.
    - cbn [Parser.line_step]. destruct (text_eqb t (txt "---")) eqn:E1.
      + right. left. apply text_eqb_eq in E1. subst t. split; reflexivity.
      + destruct (text_eqb t (txt "@union")) eqn:E2; [|left; reflexivity].
        right. right. left. apply text_eqb_eq in E2. subst t. split; reflexivity.
    - cbn [Parser.line_step]. destruct (text_eqb t (txt "OVERRIDE_SIGNATURE")) eqn:E; [|left; reflexivity].
      right. right. right. apply text_eqb_eq in E. subst t. exists t1. split; reflexivity.
    - left. reflexivity.
  Qed.

  Lemma line_step_inv P fn s tokens s' : sound P -> state_inv s ->
    line_step P fn s tokens = Ok s' -> state_inv s'.
  Proof.
    intros HP Hs H. destruct (line_step_cases P fn s tokens) as [E|[(_ & E)|[(_ & E)|(t & _ & E)]]]; rewrite E in H.
    - exact (add_step_inv _ _ _ _ _ HP Hs H).
    - apply bind_ok in H as (u & Hr & H). apply enforce_ok in Hr. injection H as <-.
      destruct Hs as (H1 & H2 & H3 & H4). unfold state_inv, current. cbn [s_request s_response s_names s_is_response].
      split; [exact H1|]. split; [exact H2|]. split; [|discriminate].
      rewrite H4 by now destruct (s_is_response s). intros x [].
    - apply bind_ok in H as (u & Hr & H). injection H as <-. apply set_current_inv; [exact Hs| |].
      + apply current_inv in Hs. exact Hs.
      + apply Hs.
    - apply bind_ok in H as (z & _ & H). injection H as <-. exact Hs.
  Qed.

  Lemma lines_loop_inv P fn L s s' : sound P -> state_inv s ->
    lines_loop P fn s L = Ok s' -> state_inv s'.
  Proof.
    intros HP. revert s. induction L as [|l L IH]; cbn [Parser.lines_loop]; intros s Hs H.
    - now injection H as <-.
    - apply bind_ok in H as (s1 & H1 & H). apply (line_step_inv _ _ _ _ _ HP Hs) in H1. exact (IH _ H1 H).
  Qed.

  Lemma check_fields_union p : check_fields p = true -> union_ok (p_union p) (p_fields p).
  Proof.
    unfold check_fields, union_ok. intros H Hu. rewrite Hu in H. cbn [negb orb] in H.
    apply andb_true_iff in H as (Hl & Hv). split; [apply Nat.ltb_lt in Hl; lia|].
    apply Forall_forall. intros f Hf (n & E). apply negb_true_iff in Hv.
    enough (existsb (fun f => match snd f with QVoid _ => true | _ => false end) (p_fields p) = true) by congruence.
    apply existsb_exists. exists f. split; [exact Hf|]. now rewrite E.
  Qed.
  Lemma part_inv_legal p : part_inv p -> check_fields p = true -> legal_part p.
  Proof.
    intros (H1 & H2 & H3 & H4) Hc. unfold part_names in *. apply Forall_app in H4 as (H4 & H5).
    split; [|split; [now apply check_fields_union|split; [exact H2|split; [exact H3|]]]].
    - split; [|split; [exact H4|exact H1]]. now apply NoDup_left in H3.
    - apply Forall_forall. intros c Hc'. rewrite Forall_forall in H5. apply H5. now apply in_map.
  Qed.

  Lemma parse_source_legal P fn source d : sound P -> parse_source P fn source = Ok d ->
    legal_definition d /\ exists v id, name_from_filename fn = Ok (d_name d, v, id).
  Proof.
    intros HP H. unfold Parser.parse_source in H.
    apply bind_ok in H as (((full & v) & id) & Hn & H). apply bind_ok in H as (s & Hs & H).
    apply refuse_ok in Hs. apply (lines_loop_inv _ _ _ _ _ HP state0_inv) in Hs as (Hrq & Hrs & _).
    apply bind_ok in H as (u1 & Hu & H). apply bind_ok in H as (u2 & Hid & H).
    assert (E : d = {| d_name := full; d_dtid := id; d_version := v;
                       d_body := if s_is_response s then Service (s_request s) (s_response s)
                                 else Message (s_request s);
                       d_override := s_override s |}) by congruence.
    subst d. clear H. cbn [d_name]. split; [|eauto].
    unfold legal_definition. cbn [d_name d_body d_dtid].
    split; [now apply validate_full_name, (name_from_filename_valid fn full v id)|].
    destruct (s_is_response s); cbn [parts validate_union validate_data_type_id id_ok] in *; apply enforce_ok in Hu.
    - apply andb_true_iff in Hu as (U1 & U2). split.
      + constructor; [now apply part_inv_legal|]. constructor; [now apply part_inv_legal|constructor].
      + intros z ->. apply enforce_ok in Hid. lia.
    - split; [constructor; [now apply part_inv_legal|constructor]|].
      intros z ->. apply enforce_ok in Hid. lia.
  Qed.

  Lemma parse_sound n : sound (parse n).
  Proof.
    induction n as [|n IH]; intros fn d H; [discriminate|]. cbn [Parser.parse] in H.
    destruct (read fn) as [source|]; [|discriminate]. apply refuse_ok in H.
    exact (parse_source_legal _ _ _ _ IH H).
  Qed.
End Facts.

(** ** The codec's requirements *)

Lemma ptype_ind' (Q : ptype -> Prop) :
  (forall k n cm, Q (QPrim k n cm)) -> (forall n, Q (QVoid n)) ->
  (forall dyn et mx, Q et -> Q (QArr dyn et mx)) ->
  (forall nm u fs ov, Forall (fun f => Q (snd f)) fs -> Q (QMsg nm u fs ov)) ->
  forall t, Q t.
Proof.
  intros H1 H2 H3 H4. fix IH 1. intros [k n cm|n|dyn et mx|nm u fs ov].
  - apply H1.
  - apply H2.
  - apply H3. apply IH.
  - apply H4. induction fs as [|f fs IHfs]; constructor; [apply IH|exact IHfs].
Qed.

Lemma fields_wf fs : Forall (fun f : field => wf_type (layout (snd f))) fs ->
  fold_right (fun f acc => wf_type f /\ acc) True (map (fun f : field => layout (snd f)) fs).
Proof. induction 1; cbn [map fold_right]; auto. Qed.

Lemma legal_wf t : legal_type t -> no_void_arrays t -> wf_type (layout t).
Proof.
  induction t as [k n cm|n|dyn et mx IH|nm u fs ov IH] using ptype_ind'; intros Hl Hv.
  - inversion Hl; subst; cbn [layout wf_type]; lia.
  - inversion Hl; subst; cbn [layout wf_type]; lia.
  - inversion Hl as [| | | |? ? ? Hle Hla Hm|]; subst. inversion Hv as [| |? ? ? Hve Hvv|]; subst.
    cbn [layout wf_type]. split; [now apply IH|]. split; [|lia].
    destruct et; cbn [layout]; try exact I. apply Hvv. now eexists.
  - inversion Hl as [| | | | |? ? ? ? _ _ Hu Hf]; subst. inversion Hv as [| | |? ? ? ? Hvf]; subst.
    cbn [layout wf_type]. split.
    + intros ->. rewrite map_length. now apply Hu.
    + apply fields_wf. rewrite Forall_forall in *. intros f Hf'. apply IH; auto.
Qed.

Lemma part_wf p : legal_part p -> Forall (fun f => no_void_arrays (snd f)) (p_fields p) -> wf_type (part_layout p).
Proof.
  intros (_ & Hu & Hf & _) Hv. unfold part_layout. cbn [wf_type]. split.
  - intros H. rewrite map_length. now apply Hu.
  - apply fields_wf. rewrite Forall_forall in *. intros f Hf'. apply legal_wf; auto.
Qed.

(** Whole definitions: the parser against the grammar. *)
From Coq Require Import String Permutation.
From Verif.Base Require Import Prelude Bits.
From Verif.Model Require Import Types Prim Float Slcan Parser.
From Verif.Spec Require Import FloatSpec ParserSpec GrammarSpec.
From Verif.Proofs Require Import ParserText ParserFacts ParserMeaning ParserLoad GrammarNumbers GrammarTypes GrammarLines.
Open Scope list_scope.
Open Scope Z_scope.

(** ** The effect of a declaration *)
Definition decl_name (d : decl) : option text :=
  match d with DField f => fst f | DConst c => Some (k_name c) | _ => None end.
Definition advance (s : pstate) (d : decl) : pstate :=
  match d with
  | DField _ | DConst _ =>
      set_current s (match decl_name d with Some nm => nm :: s_names s | None => s_names s end)
        {| p_fields := p_fields (current s) ++ decl_fields d;
           p_consts := p_consts (current s) ++ decl_consts d; p_union := p_union (current s) |}
  | DUnion => set_current s (s_names s)
                {| p_fields := p_fields (current s); p_consts := p_consts (current s); p_union := true |}
  | DOverride z => {| s_names := s_names s; s_request := s_request s; s_response := s_response s;
                      s_is_response := s_is_response s; s_override := Some z |}
  end.
Definition allowed (s : pstate) (d : decl) : Prop :=
  match d with
  | DField _ | DConst _ => forall nm, decl_name d = Some nm -> ~ In nm (s_names s)
  | DUnion => p_union (current s) = false
  | DOverride _ => True
  end.
Fixpoint allowed_all (s : pstate) (ds : list decl) : Prop :=
  match ds with [] => True | d :: r => allowed s d /\ allowed_all (advance s d) r end.

Lemma text_in nm l : existsb (text_eqb nm) l = true <-> In nm l.
Proof.
  rewrite existsb_exists. split.
  - intros (x & Hx & E). apply text_eqb_eq in E. congruence.
  - intros H. exists nm. split; [exact H|apply text_eqb_refl].
Qed.

Lemma current_set s names p : current (set_current s names p) = p.
Proof. unfold current, set_current. destruct (s_is_response s); reflexivity. Qed.
Lemma names_set s names p : s_names (set_current s names p) = names.
Proof. unfold set_current. destruct (s_is_response s); reflexivity. Qed.
Lemma override_set s names p : s_override (set_current s names p) = s_override s.
Proof. unfold set_current. destruct (s_is_response s); reflexivity. Qed.
Lemma response_set s names p : s_is_response (set_current s names p) = s_is_response s.
Proof. unfold set_current. destruct (s_is_response s) eqn:E; [reflexivity|reflexivity]. Qed.

(** What the declarations [ds] add up to. *)
Definition one_union (p : part) (ds : list decl) : Prop :=
  (length (flat_map decl_union ds) + (if p_union p then 1 else 0) <= 1)%nat.
Lemma allowed_all_iff ds : forall s, NoDup (s_names s) ->
  allowed_all s ds <-> NoDup (flat_map decl_names ds ++ s_names s) /\ one_union (current s) ds.
Proof.
  unfold one_union. induction ds as [|d ds IH]; intros s Hs; cbn [allowed_all flat_map app].
  - split; [|auto]. intros _. split; [exact Hs|]. cbn [length]. destruct (p_union (current s)); lia.
  - assert (Hplain : forall d', allowed s d' -> decl_name d' = None -> NoDup (s_names (advance s d'))).
    { intros [f|c| |z] Ha En; cbn [advance]; rewrite ?names_set, ?En; exact Hs. }
    destruct d as [(onm & ty)|c| |z]; cbn [allowed decl_name fst decl_names decl_union app length].
    + destruct onm as [nm|]; cbn [app].
      * split.
        -- intros (Ha & H). specialize (Ha nm eq_refl). apply IH in H.
           2:{ cbn [advance decl_name fst]. rewrite names_set. constructor; assumption. }
           cbn [advance decl_name fst] in H. rewrite names_set, current_set in H. cbn [p_union] in H.
           destruct H as (Hn & Hu). split; [|exact Hu].
           eapply Permutation_NoDup; [|exact Hn]. symmetry. apply Permutation_middle.
        -- intros (Hn & Hu). assert (Hi : ~ In nm (s_names s)).
           { apply NoDup_cons_iff in Hn as (Hn & _). intros Hi. apply Hn. apply in_or_app. right. exact Hi. }
           split; [intros nm' E; congruence|]. apply IH.
           ++ cbn [advance decl_name fst]. rewrite names_set. constructor; assumption.
           ++ cbn [advance decl_name fst]. rewrite names_set, current_set. cbn [p_union]. split; [|exact Hu].
              eapply Permutation_NoDup; [|exact Hn]. apply Permutation_middle.
      * rewrite IH by (cbn [advance decl_name fst]; rewrite names_set; exact Hs).
        cbn [advance decl_name fst]. rewrite names_set, current_set. cbn [p_union]. intuition discriminate.
    + split.
      * intros (Ha & H). specialize (Ha _ eq_refl). apply IH in H.
        2:{ cbn [advance decl_name]. rewrite names_set. constructor; assumption. }
        cbn [advance decl_name] in H. rewrite names_set, current_set in H. cbn [p_union] in H.
        destruct H as (Hn & Hu). split; [|exact Hu].
        eapply Permutation_NoDup; [|exact Hn]. symmetry. apply Permutation_middle.
      * intros (Hn & Hu). assert (Hi : ~ In (k_name c) (s_names s)).
        { apply NoDup_cons_iff in Hn as (Hn & _). intros Hi. apply Hn. apply in_or_app. right. exact Hi. }
        split; [intros nm' E; congruence|]. apply IH.
        -- cbn [advance decl_name]. rewrite names_set. constructor; assumption.
        -- cbn [advance decl_name]. rewrite names_set, current_set. cbn [p_union]. split; [|exact Hu].
           eapply Permutation_NoDup; [|exact Hn]. apply Permutation_middle.
    + rewrite IH by (cbn [advance]; rewrite names_set; exact Hs). cbn [advance]. rewrite names_set, current_set. cbn [p_union].
      destruct (p_union (current s)); split; intros (H1 & H2); try discriminate; try lia;
        try (destruct H2 as (H2 & H3)); repeat split; try assumption; lia.
    + rewrite IH by exact Hs. cbn [advance]. unfold current. cbn [s_names s_is_response s_request s_response]. tauto.
Qed.

Lemma fold_names ds : forall s, s_is_response (fold_left advance ds s) = s_is_response s.
Proof.
  induction ds as [|d ds IH]; intros s; [reflexivity|]. cbn [fold_left]. rewrite IH.
  destruct d; cbn [advance]; try apply response_set; reflexivity.
Qed.
Lemma fold_override ds : forall s,
  s_override (fold_left advance ds s) = fold_left (fun _ x => Some x) (flat_map decl_override ds) (s_override s).
Proof.
  induction ds as [|d ds IH]; intros s; [reflexivity|]. cbn [fold_left flat_map]. rewrite IH, fold_left_app. f_equal.
  destruct d; cbn [advance decl_override fold_left]; try apply override_set; reflexivity.
Qed.
Lemma fold_current ds : forall s,
  p_fields (current (fold_left advance ds s)) = p_fields (current s) ++ flat_map decl_fields ds /\
  p_consts (current (fold_left advance ds s)) = p_consts (current s) ++ flat_map decl_consts ds /\
  p_union (current (fold_left advance ds s)) = p_union (current s) || nonempty (flat_map decl_union ds).
Proof.
  induction ds as [|d ds IH]; intros s; cbn [fold_left flat_map].
  - rewrite !app_nil_r, orb_false_r. auto.
  - destruct (IH (advance s d)) as (-> & -> & ->). rewrite !app_assoc.
    destruct d; cbn [advance]; rewrite ?current_set; cbn [p_fields p_consts p_union decl_fields decl_consts decl_union app];
      rewrite ?app_nil_r; try (split; [reflexivity|split; reflexivity]).
    destruct (p_union (current s)); split; try split; reflexivity.
Qed.
Lemma fold_other ds : forall s,
  (s_is_response s = true -> s_request (fold_left advance ds s) = s_request s) /\
  (s_is_response s = false -> s_response (fold_left advance ds s) = s_response s).
Proof.
  induction ds as [|d ds IH]; intros s; cbn [fold_left]; [auto|].
  destruct (IH (advance s d)) as (H1 & H2).
  assert (Hr : s_is_response (advance s d) = s_is_response s).
  { destruct d; cbn [advance]; try apply response_set; reflexivity. }
  rewrite Hr in *. split; intros E; [rewrite H1 by exact E|rewrite H2 by exact E];
    destruct d; cbn [advance]; unfold set_current; rewrite ?E; reflexivity.
Qed.

(** ** Lines *)
Section Defs.
  Variable search_dirs : list text.
  Variable listdir : text -> option (list text).
  Variable read : text -> option text.
  Variable ev : text -> option pyv.
  Hypothesis Hev : forall e x, ev e = Some (VFloat x) -> is_double x.
  Notation parse_line := (parse_line search_dirs listdir read ev).
  Notation line_step := (line_step search_dirs listdir read ev).
  Notation lines_loop := (lines_loop search_dirs listdir read ev).
  Notation parse_source := (parse_source search_dirs listdir read ev).
  Notation parse := (parse search_dirs listdir read ev).
  Notation name_from_filename := (name_from_filename search_dirs).
  Notation namespace_from_filename := (namespace_from_filename search_dirs).
  Notation locate := (locate search_dirs listdir read).
  Notation located := (located search_dirs listdir read).
  Notation lines P fn := (line_says true (located P fn) ev accepted).
  Definition good_line (l : list text) : Prop := Forall word l /\ l <> [].
  Definition rule : list text := [txt "---"].

  Lemma add_step_iff P fn s l s' : good_line l -> (forall t, l <> [txt "OVERRIDE_SIGNATURE"; t]) ->
    add_step search_dirs listdir read ev P fn s l = Ok s' <->
    exists a, lines P fn l (attr_decl a) /\ allowed s (attr_decl a) /\ s' = advance s (attr_decl a).
  Proof.
    intros (Hw & Hne) Hno. unfold add_step. split.
    - intros H. apply bind_ok in H as (a & Ha & H). apply (parse_line_iff _ _ _ _ Hev _ _ _ _ Hw Hne) in Ha.
      destruct Ha as [(Ha & _)|(t & ty & E & _)]; [|exfalso; exact (Hno t E)]. exists a. split; [exact Ha|].
      destruct a as [(onm & ty)|c]; cbn [attr_name fst attr_decl allowed decl_name advance add_attr] in *.
      + cbn [decl_fields decl_consts]. rewrite app_nil_r. destruct onm as [nm|].
        * apply bind_ok in H as (u & He & H). apply enforce_ok, negb_true_iff in He. injection H as <-.
          split; [|reflexivity]. intros nm' E Hi. assert (nm' = nm) by congruence. subst nm'. apply text_in in Hi. congruence.
        * injection H as <-. split; [|reflexivity]. intros nm' E. discriminate.
      + cbn [decl_fields decl_consts]. rewrite app_nil_r.
        apply bind_ok in H as (u & He & H). apply enforce_ok, negb_true_iff in He. injection H as <-.
        split; [|reflexivity]. intros nm' E Hi. assert (nm' = k_name c) by congruence. subst nm'. apply text_in in Hi. congruence.
    - intros (a & Ha & Hal & ->).
      rewrite (proj2 (parse_line_iff _ _ _ _ Hev P fn l a Hw Hne) (or_introl (conj Ha Hno))). cbn [bind].
      destruct a as [(onm & ty)|c]; cbn [attr_name fst attr_decl allowed decl_name advance add_attr] in *;
        cbn [decl_fields decl_consts]; rewrite app_nil_r; [destruct onm as [nm|]; [|reflexivity]|];
        specialize (Hal _ eq_refl);
        (match goal with |- context [existsb (text_eqb ?n) ?x] =>
           destruct (existsb (text_eqb n) x) eqn:E; [apply text_in in E; contradiction|] end); reflexivity.
  Qed.

  Lemma line_step_iff P fn s l s' : good_line l -> l <> rule ->
    line_step P fn s l = Ok s' <-> exists d, lines P fn l d /\ allowed s d /\ s' = advance s d.
  Proof.
    intros Hg Hr.
    assert (Hattr : line_step P fn s l = add_step search_dirs listdir read ev P fn s l ->
       l <> [txt "@union"] -> (forall t, l <> [txt "OVERRIDE_SIGNATURE"; t]) ->
       line_step P fn s l = Ok s' <-> exists d, lines P fn l d /\ allowed s d /\ s' = advance s d).
    { intros -> Hu Ho. rewrite (add_step_iff P fn s l s' Hg Ho). split.
      - intros (a & H). exists (attr_decl a). exact H.
      - intros (d & H & Hal & ->). destruct d as [f|c| |z].
        + exists (AField f). auto.
        + exists (AConst c). auto.
        + exfalso. inversion H; subst. congruence.
        + exfalso. inversion H; subst. exact (Ho _ eq_refl). }
    destruct l as [|t [|t1 [|t2 r]]].
    - exfalso. apply (proj2 Hg). reflexivity.
    - destruct (text_eqb t (txt "---")) eqn:E1; [apply text_eqb_eq in E1; subst t; exfalso; apply Hr; reflexivity|].
      destruct (text_eqb t (txt "@union")) eqn:E2.
      + apply text_eqb_eq in E2. subst t. cbn [Parser.line_step].
        change (text_eqb (txt "@union") (txt "---")) with false. change (text_eqb (txt "@union") (txt "@union")) with true.
        cbv iota zeta. split.
        * intros H. apply bind_ok in H as (u & He & H). apply enforce_ok, negb_true_iff in He. injection H as <-.
          exists DUnion. split; [constructor|]. split; [exact He|reflexivity].
        * intros (d & H & Hal & ->). assert (d = DUnion).
          { inversion H as [E|? ? ? E|l0 cm t r ty Hc Et Ht E|l0 cm t nm ty Hc _ _ _ E|l0 cm t nm ex k n m x v Hc _ _ _ _ _ c _ E]; subst; [reflexivity|..];
              exfalso; inversion Hc; subst; discriminate. }
          subst d. cbn [allowed] in Hal. rewrite Hal. reflexivity.
      + apply text_eqb_neq in E2. apply Hattr; [|congruence|congruence]. cbn [Parser.line_step]. rewrite E1.
        apply text_eqb_neq in E2. rewrite E2. reflexivity.
    - destruct (text_eqb t (txt "OVERRIDE_SIGNATURE")) eqn:E.
      + apply text_eqb_eq in E. subst t. cbn [Parser.line_step].
        change (text_eqb (txt "OVERRIDE_SIGNATURE") (txt "OVERRIDE_SIGNATURE")) with true. cbv iota.
        assert (Ht1 : no_ws t1) by (destruct Hg as (Hg & _); apply Forall_inv_tail, Forall_inv, word_no_ws in Hg; apply Hg).
        split.
        * intros H. apply bind_ok in H as (z & Hz & H). apply refuse_ok in Hz. apply int16_hex in Hz; [|exact Ht1]. injection H as <-.
          exists (DOverride z). split; [constructor; exact Hz|]. split; [exact I|reflexivity].
        * intros (d & H & _ & ->).
          assert (exists z, d = DOverride z /\ hex_integer t1 z) as (z & -> & Hz).
          { inversion H as [E|? ? ? E|l0 cm t r ty Hc Et Ht E|l0 cm t nm ty Hc Hn _ _ E|l0 cm t nm ex k n m x v Hc _ _ _ _ _ c _ E]; subst; [eauto|..];
              exfalso; inversion Hc as [w ws Hw|w cm' ws Hw]; subst;
              try (destruct cm'; discriminate Hw); try discriminate. congruence. }
          apply int16_hex in Hz; [|exact Ht1]. rewrite Hz. reflexivity.
      + apply text_eqb_neq in E. apply Hattr; [|discriminate|congruence]. cbn [Parser.line_step].
        apply text_eqb_neq in E. rewrite E. reflexivity.
    - apply Hattr; [reflexivity|discriminate|discriminate].
  Qed.

  Lemma lines_loop_iff P fn L : Forall good_line L -> ~ In rule L -> forall s s',
    lines_loop P fn s L = Ok s' <->
    exists ds, Forall2 (lines P fn) L ds /\ allowed_all s ds /\ s' = fold_left advance ds s.
  Proof.
    induction L as [|l L IH]; intros Hg Hr s s'; cbn [Parser.lines_loop].
    - split.
      + intros [= <-]. exists []. split; [constructor|]. split; [exact I|reflexivity].
      + intros (ds & H & _ & ->). inversion H; subst. reflexivity.
    - apply Forall_cons_iff in Hg as (Hl & Hg).
      assert (Hlr : l <> rule) by (intros ->; apply Hr; left; reflexivity).
      assert (Hr' : ~ In rule L) by (intros H; apply Hr; right; exact H). split.
      + intros H. apply bind_ok in H as (s1 & H1 & H). apply (line_step_iff _ _ _ _ _ Hl Hlr) in H1 as (d & Hd & Ha & ->).
        apply (IH Hg Hr') in H as (ds & Hds & Hal & ->). exists (d :: ds). split; [constructor; assumption|].
        split; [split; assumption|reflexivity].
      + intros (ds & H & Ha & ->). inversion H as [|? d ? ds' Hd Hds]; subst. destruct Ha as (Ha & Hal).
        rewrite (proj2 (line_step_iff P fn s l (advance s d) Hl Hlr)) by eauto. cbn [bind fold_left].
        apply (IH Hg Hr'). eauto.
  Qed.
  Lemma lines_loop_app P fn L1 L2 s :
    lines_loop P fn s (L1 ++ L2) = (s1 <- lines_loop P fn s L1 ;; lines_loop P fn s1 L2).
  Proof.
    revert s. induction L1 as [|l L1 IH]; intros s; [reflexivity|]. cbn [app Parser.lines_loop].
    destruct (line_step P fn s l) as [s1|e]; [cbn [bind]; apply IH|reflexivity].
  Qed.
  Lemma rule_says P fn d : ~ lines P fn rule d.
  Proof.
    intros H. unfold rule in H. inversion H as [E|? ? ? E|l0 cm t r ty Hc Et Ht E|l0 cm t nm ty Hc Hn _ _ E|l0 cm t nm ex k n m x v Hc _ _ _ _ _ c _ E];
      subst; inversion Hc as [w ws Hw|w cm' ws Hw]; subst; try discriminate; destruct cm'; discriminate.
  Qed.
  Lemma no_rule P fn L ds : Forall2 (lines P fn) L ds -> ~ In rule L.
  Proof.
    intros H. induction H as [|l d L ds Hl H IH]; [intros []|]. intros [->|Hi]; [exact (rule_says _ _ _ Hl)|exact (IH Hi)].
  Qed.

  (** *** Parts *)
  Notation part_ P fn := (part_says true (located P fn) ev accepted).
  Lemma unit_list (l : list unit) : (length l <= 1)%nat -> l = if nonempty l then [tt] else [].
  Proof. destruct l as [|[] [|? ?]]; cbn [length nonempty]; [reflexivity|reflexivity|lia]. Qed.

  (** One part, read from a state in which nothing is in it yet. *)
  Lemma part_sound P fn L s s' : Forall good_line L -> ~ In rule L -> s_names s = [] -> current s = empty_part ->
    lines_loop P fn s L = Ok s' ->
    exists ov, part_ P fn L (current s') ov /\ s_is_response s' = s_is_response s /\
      (s_is_response s = true -> s_request s' = s_request s) /\
      (s_is_response s = false -> s_response s' = s_response s) /\
      s_override s' = fold_left (fun _ x => Some x) ov (s_override s).
  Proof.
    intros Hg Hr Hn Hc H. apply (lines_loop_iff P fn L Hg Hr) in H as (ds & Hds & Ha & ->).
    apply allowed_all_iff in Ha; [|rewrite Hn; constructor].
    rewrite Hn, app_nil_r, Hc in Ha. destruct Ha as (Hnd & Hu). unfold one_union in Hu. cbn [empty_part p_union] in Hu.
    destruct (fold_current ds s) as (F1 & F2 & F3). rewrite Hc in F1, F2, F3. cbn [empty_part p_fields p_consts p_union app orb] in F1, F2, F3.
    assert (Hu' : flat_map decl_union ds = (if p_union (current (fold_left advance ds s)) then [tt] else [])).
    { rewrite F3. apply unit_list. lia. }
    exists (flat_map decl_override ds). split; [exists ds; auto 7|]. split; [apply fold_names|].
    destruct (fold_other ds s) as (O1 & O2). split; [exact O1|]. split; [exact O2|]. apply fold_override.
  Qed.
  Lemma part_complete P fn L s p ov : Forall good_line L -> s_names s = [] -> current s = empty_part ->
    part_ P fn L p ov ->
    exists s', lines_loop P fn s L = Ok s' /\ current s' = p /\ s_is_response s' = s_is_response s /\
      (s_is_response s = true -> s_request s' = s_request s) /\
      (s_is_response s = false -> s_response s' = s_response s) /\
      s_override s' = fold_left (fun _ x => Some x) ov (s_override s).
  Proof.
    intros Hg Hn Hc (ds & Hds & F1 & F2 & F3 & Hnd & ->). exists (fold_left advance ds s). split.
    - apply (lines_loop_iff P fn L Hg (no_rule _ _ _ _ Hds)). exists ds. split; [exact Hds|]. split; [|reflexivity].
      apply allowed_all_iff; [rewrite Hn; constructor|]. rewrite Hn, app_nil_r, Hc. split; [exact Hnd|].
      unfold one_union. rewrite F3. cbn [empty_part p_union]. destruct (p_union p); cbn [length]; lia.
    - destruct (fold_current ds s) as (K1 & K2 & K3). rewrite Hc in K1, K2, K3.
      cbn [empty_part p_fields p_consts p_union app orb] in K1, K2, K3.
      split; [|split; [apply fold_names|destruct (fold_other ds s) as (O1 & O2); split; [exact O1|split; [exact O2|apply fold_override]]]].
      destruct p as [a b u], (current (fold_left advance ds s)) as [a' b' u'].
      cbn [p_fields p_consts p_union] in *. subst. f_equal. rewrite F3. destruct u; reflexivity.
  Qed.

  (** ** Definitions *)
  Notation file_ P fn := (file_says true (located P fn) ev accepted).

  Lemma tokens_good L source : written L source -> tokenize source = filter nonblank L /\ Forall good_line (filter nonblank L).
  Proof.
    intros H. split; [exact (written_tokens _ _ H)|]. apply written_word in H. apply Forall_forall. intros l Hl.
    apply filter_In in Hl as (Hl & Hn). rewrite Forall_forall in H. split; [exact (H l Hl)|]. intros ->. discriminate.
  Qed.
  Lemma first_rule (L : list (list text)) : ~ In rule L \/ exists L1 L2, L = L1 ++ rule :: L2 /\ ~ In rule L1.
  Proof.
    induction L as [|l L IH]; [left; intros []|].
    destruct (list_eq_dec (list_eq_dec N.eq_dec) l rule) as [->|Hl].
    - right. exists [], L. split; [reflexivity|intros []].
    - destruct IH as [IH|(L1 & L2 & -> & IH)].
      + left. intros [E|H]; [congruence|exact (IH H)].
      + right. exists (l :: L1), L2. split; [reflexivity|]. intros [E|H]; [congruence|exact (IH H)].
  Qed.
  Lemma union_iff p : check_fields p = true <-> union_ok (p_union p) (p_fields p).
  Proof.
    split; [apply check_fields_union|]. unfold union_ok, check_fields. intros H.
    destruct (p_union p); [|reflexivity]. destruct (H eq_refl) as (Hl & Hv). cbn [negb orb]. apply andb_true_iff. split.
    - apply Nat.ltb_lt. lia.
    - apply negb_true_iff. match goal with |- ?x = false => destruct x eqn:E; [|reflexivity] end. exfalso.
      apply existsb_exists in E as (f & Hf & E). rewrite Forall_forall in Hv. apply (Hv f Hf).
      destruct (snd f); try discriminate. eexists. reflexivity.
  Qed.
  Lemma valid_union_iff b : validate_union b = Ok tt <-> Forall (fun p => union_ok (p_union p) (p_fields p)) (parts b).
  Proof.
    destruct b as [p|rq rs]; cbn [validate_union parts]; split.
    - intros H. apply enforce_ok, union_iff in H. constructor; [exact H|constructor].
    - intros H. apply Forall_inv, union_iff in H. rewrite H. reflexivity.
    - intros H. apply enforce_ok, andb_true_iff in H as (H1 & H2). apply union_iff in H1, H2. constructor; [exact H1|]. constructor; [exact H2|constructor].
    - intros H. pose proof (Forall_inv H) as H1. apply Forall_inv_tail, Forall_inv in H. apply union_iff in H, H1. rewrite H, H1. reflexivity.
  Qed.
  Lemma valid_id_iff dtid b : validate_data_type_id dtid b = Ok tt <-> id_ok b dtid.
  Proof.
    unfold validate_data_type_id, id_ok. destruct dtid as [z|]; [|split; [discriminate|reflexivity]]. split.
    - intros H z' [= <-]. apply enforce_ok in H. destruct b; lia.
    - intros H. specialize (H z eq_refl). unfold enforce. destruct b.
      + replace ((0 <=? z) && (z <=? 65535)) with true by lia. reflexivity.
      + replace ((0 <=? z) && (z <=? 255)) with true by lia. reflexivity.
  Qed.

  Definition after_rule (s : pstate) : pstate :=
    {| s_names := []; s_request := s_request s; s_response := s_response s;
       s_is_response := true; s_override := s_override s |}.
  Lemma rule_step P fn s s' : line_step P fn s rule = Ok s' <-> s_is_response s = false /\ s' = after_rule s.
  Proof.
    unfold rule. cbn [Parser.line_step]. change (text_eqb (txt "---") (txt "---")) with true. cbv iota.
    destruct (s_is_response s); cbn [negb enforce bind]; split.
    - discriminate.
    - intros (H & _). discriminate.
    - intros [= <-]. auto.
    - intros (_ & ->). reflexivity.
  Qed.
  Lemma response_stays P fn L s s' : s_is_response s = true -> lines_loop P fn s L = Ok s' -> Forall good_line L -> ~ In rule L.
  Proof.
    intros Hs H Hg Hi. destruct (first_rule L) as [Hn|(L1 & L2 & -> & Hn)]; [exact (Hn Hi)|].
    rewrite lines_loop_app in H. apply bind_ok in H as (s1 & H1 & H). apply Forall_app in Hg as (Hg & _).
    apply (lines_loop_iff _ _ _ Hg Hn) in H1 as (ds & _ & _ & ->). cbn [Parser.lines_loop] in H.
    apply bind_ok in H as (s2 & H2 & _). apply rule_step in H2 as (H2 & _). rewrite fold_names in H2. congruence.
  Qed.

  Lemma source_sound P fn source L d : written L source -> parse_source P fn source = Ok d ->
    name_from_filename fn = Ok (d_name d, d_version d, d_dtid d) /\ file_ P fn (filter nonblank L) d.
  Proof.
    intros HL H. destruct (tokens_good _ _ HL) as (Et & Hg). unfold Parser.parse_source in H. rewrite Et in H.
    apply bind_ok in H as (((full & v) & id) & Hn & H). apply bind_ok in H as (s & Hs & H).
    apply refuse_ok in Hs. cbv zeta in H. apply bind_ok in H as ([] & Hu & H). apply bind_ok in H as ([] & Hid & H).
    assert (E : d = {| d_name := full; d_dtid := id; d_version := v;
                       d_body := if s_is_response s then Service (s_request s) (s_response s)
                                 else Message (s_request s);
                       d_override := s_override s |}) by congruence. subst d. clear H.
    cbn [d_name d_version d_dtid]. split; [exact Hn|]. unfold file_says. cbn [d_body d_dtid d_override].
    apply valid_union_iff in Hu. apply valid_id_iff in Hid.
    assert (Hb : exists ov, body_says true (located P fn) ev accepted (filter nonblank L)
        (if s_is_response s then Service (s_request s) (s_response s) else Message (s_request s)) ov /\ s_override s = last_of ov).
    { destruct (first_rule (filter nonblank L)) as [Hr|(L1 & L2 & EL & Hr)].
      - apply part_sound in Hs as (ov & Hp & Hi & _ & _ & Ho); [|exact Hg|exact Hr|reflexivity|reflexivity].
        cbn [pstate0 s_is_response] in Hi. exists ov. rewrite Hi. split; [|exact Ho]. constructor.
        unfold current in Hp. rewrite Hi in Hp. exact Hp.
      - rewrite EL in Hs, Hg |- *. rewrite lines_loop_app in Hs. apply bind_ok in Hs as (s1 & H1 & Hs).
        apply Forall_app in Hg as (Hg1 & Hg2). apply Forall_inv_tail in Hg2.
        apply part_sound in H1 as (ov1 & Hp1 & Hi1 & _ & Hrs & Ho1); [|exact Hg1|exact Hr|reflexivity|reflexivity].
        cbn [pstate0 s_is_response s_response s_override] in *. specialize (Hrs eq_refl).
        cbn [Parser.lines_loop] in Hs. apply bind_ok in Hs as (s2 & H2 & Hs). apply rule_step in H2 as (_ & ->).
        assert (Hr2 : ~ In rule L2) by (eapply response_stays; [|exact Hs|exact Hg2]; reflexivity).
        apply part_sound in Hs as (ov2 & Hp2 & Hi2 & Hrq & _ & Ho2); [|exact Hg2|exact Hr2|reflexivity|exact Hrs].
        cbn [after_rule s_is_response s_request s_override] in *. specialize (Hrq eq_refl).
        exists (ov1 ++ ov2). rewrite Hi2. split.
        + constructor.
          * unfold current in Hp1. rewrite Hi1 in Hp1. rewrite Hrq. exact Hp1.
          * unfold current in Hp2. rewrite Hi2 in Hp2. exact Hp2.
        + unfold last_of. rewrite fold_left_app, <- Ho1. exact Ho2. }
    destruct Hb as (ov & Hb & Ho). exists ov. auto.
  Qed.
  Lemma source_complete P fn source L d : written L source ->
    name_from_filename fn = Ok (d_name d, d_version d, d_dtid d) -> file_ P fn (filter nonblank L) d ->
    parse_source P fn source = Ok d.
  Proof.
    intros HL Hn (ov & Hb & Ho & Hu & Hid). destruct (tokens_good _ _ HL) as (Et & Hg). unfold Parser.parse_source.
    rewrite Hn. cbn [bind]. rewrite Et.
    assert (Hs : exists s, lines_loop P fn pstate0 (filter nonblank L) = Ok s /\
      d_body d = (if s_is_response s then Service (s_request s) (s_response s) else Message (s_request s)) /\
      d_override d = s_override s).
    { remember (filter nonblank L) as L0 eqn:EL. clear EL HL Et. destruct Hb as [L0 p ov Hp|L1 L2 rq rs ov1 ov2 H1 H2].
      - destruct (part_complete P fn L0 pstate0 p ov Hg eq_refl eq_refl Hp) as (s & Hs & Hc & Hi & _ & _ & Hov).
        exists s. split; [exact Hs|]. cbn [pstate0 s_is_response s_override] in *. unfold current in Hc. rewrite Hi in *.
        split; [congruence|]. rewrite Ho. symmetry. exact Hov.
      - apply Forall_app in Hg as (Hg1 & Hg2). apply Forall_inv_tail in Hg2.
        destruct (part_complete P fn L1 pstate0 rq ov1 Hg1 eq_refl eq_refl H1) as (s1 & Hs1 & Hc1 & Hi1 & _ & Hrs & Hov1).
        cbn [pstate0 s_is_response s_response s_override] in *. specialize (Hrs eq_refl).
        destruct (part_complete P fn L2 (after_rule s1) rs ov2 Hg2 eq_refl Hrs H2) as (s2 & Hs2 & Hc2 & Hi2 & Hrq & _ & Hov2).
        cbn [after_rule s_is_response s_request s_override] in *. specialize (Hrq eq_refl).
        exists s2. split.
        + rewrite lines_loop_app, Hs1. cbn [bind Parser.lines_loop]. change [txt "---"] with rule.
          rewrite (proj2 (rule_step P fn s1 (after_rule s1))) by auto. exact Hs2.
        + rewrite Hi2. unfold current in Hc1, Hc2. rewrite Hi1 in Hc1. rewrite Hi2 in Hc2. split; [congruence|].
          rewrite Ho. unfold last_of. rewrite fold_left_app, <- Hov1. symmetry. exact Hov2. }
    destruct Hs as (s & -> & Eb & Eo). cbn [refuse bind]. cbv zeta. rewrite <- Eb, <- Eo.
    rewrite (proj2 (valid_union_iff _) Hu). cbn [bind]. rewrite (proj2 (valid_id_iff _ _) Hid). cbn [bind].
    destruct d; reflexivity.
  Qed.
End Defs.

(** ** Other meanings of names and of being in range *)
Section Mono.
  Variables (n1 n2 : text -> ptype -> Prop) (ev : text -> option pyv) (f1 f2 : constant -> Prop).
  Hypothesis Hev : forall e x, ev e = Some (VFloat x) -> is_double x.
  Hypothesis Hn : forall t ty, n1 t ty -> n2 t ty.
  Hypothesis Hmsg : forall t ty, n1 t ty -> exists d, message_type d ty.
  Hypothesis Hf : forall c, legal_type (QPrim (k_type c) (k_bits c) (k_cast c)) -> value_double (k_value c) -> f1 c -> f2 c.

  Lemma type_mono cm t ty : type_says true n1 cm t ty -> type_says true n2 cm t ty.
  Proof.
    intros H. induction H; try (econstructor; eassumption). apply says_nested; auto.
  Qed.
  Lemma prim_legal cm td k n m : type_says true n1 cm td (QPrim k n m) -> legal_type (QPrim k n m).
  Proof.
    intros H. inversion H as [| |? ? _ _|? ? ? Hb|? ? ? Hb|? ? ? Hb| |? ? _ Hl]; subst;
      [apply legal_bool..|apply legal_int; auto; lia|apply legal_int; auto; lia|apply legal_float; lia|].
    apply Hmsg in Hl as (d & p & _ & E). discriminate.
  Qed.
  Lemma value_is_double e x k v : ev e = Some x -> const_value k x v -> value_double v.
  Proof.
    intros He H. destruct H; try exact I; cbn [value_double]; [exact (Hev _ _ He)|]. eapply float_of_int_double. eassumption.
  Qed.
  Lemma line_mono l d : line_says true n1 ev f1 l d -> line_says true n2 ev f2 l d.
  Proof.
    intros H. destruct H as [|t z Hz|l cm t r ty Hc Hr Ht|l cm t nm ty Hc Hl Ha Ht|l cm t nm expr k n m x v Hc Hx Ha Ht He Hv c Hfc].
    - constructor.
    - constructor. exact Hz.
    - eapply says_padding; try eassumption. apply type_mono. exact Ht.
    - eapply says_field; try eassumption. apply type_mono. exact Ht.
    - eapply says_constant; try eassumption; [apply type_mono; exact Ht|]. apply Hf; [|eapply value_is_double; eassumption|exact Hfc].
      eapply prim_legal. exact Ht.
  Qed.
  Lemma part_mono L p ov : part_says true n1 ev f1 L p ov -> part_says true n2 ev f2 L p ov.
  Proof.
    intros (ds & H & R). exists ds. split; [|exact R]. clear R. induction H; constructor; auto using line_mono.
  Qed.
  Lemma file_mono L d : file_says true n1 ev f1 L d -> file_says true n2 ev f2 L d.
  Proof.
    intros (ov & Hb & R). exists ov. split; [|exact R]. clear R. destruct Hb; constructor; apply part_mono; assumption.
  Qed.
End Mono.

Section Whole.
  Variable search_dirs : list text.
  Variable listdir : text -> option (list text).
  Variable read : text -> option text.
  Variable ev : text -> option pyv.
  Hypothesis Hev : forall e x, ev e = Some (VFloat x) -> is_double x.
  Notation parse := (parse search_dirs listdir read ev).
  Notation name_from_filename := (name_from_filename search_dirs).
  Notation namespace_from_filename := (namespace_from_filename search_dirs).
  Notation locate := (locate search_dirs listdir read).
  Notation located := (located search_dirs listdir read).

  Lemma split_dots_piece s i : ~ In dot (nth i (split_dots s) []).
  Proof.
    intros H. pose proof (split_by_pieces (N.eqb 46) s) as Hp. fold (split_dots s) in Hp.
    destruct (nth_in_or_default i (split_dots s) []) as [Hi|E]; [|rewrite E in H; exact H].
    rewrite Forall_forall in Hp. specialize (Hp _ Hi). rewrite Forall_forall in Hp. specialize (Hp _ H).
    cbv beta in Hp. discriminate.
  Qed.
  Lemma own_name fn full v id : name_from_filename fn = Ok (full, v, id) ->
    exists ns short, namespace_from_filename fn = Ok ns /\ full = ns ++ dot :: short /\ ~ In dot short.
  Proof.
    unfold Parser.name_from_filename. intros H.
    apply bind_ok in H as (u & _ & H). apply bind_ok in H as ((dtid & nm) & Hd & H).
    apply bind_ok in H as (ver & _ & H). apply bind_ok in H as (ns & Hns & H).
    apply bind_ok in H as (u2 & _ & H). injection H as <- _ _. exists ns, nm. split; [exact Hns|]. split; [reflexivity|].
    destruct (_ || _)%bool; [injection Hd as _ <-; apply split_dots_piece|].
    apply bind_ok in Hd as (z & _ & Hd). injection Hd as _ <-. apply split_dots_piece.
  Qed.
  Lemma locate_refers fn full v id t fn' : name_from_filename fn = Ok (full, v, id) -> locate fn t = Ok fn' ->
    exists full' v' id', name_from_filename fn' = Ok (full', v', id') /\ refers full t full'.
  Proof.
    intros Hn H. destruct (own_name _ _ _ _ Hn) as (ns & short & Hns & Ef & Hs).
    unfold Parser.locate in H. apply bind_ok in H as (full' & Hf & H).
    match type of H with match ?l with _ => _ end = _ => destruct l as [|d ds]; [discriminate|] end.
    destruct (locate_any search_dirs listdir read full' (d :: ds)) as [fn2|] eqn:E; [|discriminate]. injection H as ->.
    apply locate_any_name in E as (v' & id' & E). exists full', v', id'. split; [exact E|].
    destruct (existsb (N.eqb 46) t) eqn:Ed.
    - left. injection Hf as <-. split; [|reflexivity]. apply existsb_exists in Ed as (x & Hx & Ex). apply N.eqb_eq in Ex. subst x. exact Hx.
    - right. rewrite Hns in Hf. cbn [bind] in Hf. injection Hf as <-. split.
      + intros Hi. assert (existsb (N.eqb 46) t = true); [|congruence]. apply existsb_exists. exists 46%N. auto.
      + exists ns, short. auto.
  Qed.

  Theorem parse_means n fn d : parse (S n) fn = Ok d ->
    name_from_filename fn = Ok (d_name d, d_version d, d_dtid d) /\
    exists source L, read fn = Some source /\ written L source /\
      file_says true (named_type (fun d' => exists fn', parse n fn' = Ok d') (d_name d)) ev
        (fun c => const_within (range_slack c) c) (filter nonblank L) d.
  Proof.
    intros H. cbn [Parser.parse] in H. destruct (read fn) as [source|] eqn:Er; [|discriminate].
    apply refuse_ok in H. assert (exists L, written L source) as (L & HL) by (eexists; apply every_text_written).
    destruct (source_sound _ _ _ _ Hev (parse n) fn source L d HL H) as (Hn & Hf). split; [exact Hn|].
    exists source, L. split; [reflexivity|]. split; [exact HL|].
    eapply file_mono; [exact Hev| | | |exact Hf].
    - intros t ty (fn' & d' & Hl & Hd & Hm). destruct (locate_refers _ _ _ _ _ _ Hn Hl) as (full' & v' & id' & Hn' & Href).
      exists d'. split; [eauto|]. split; [|exact Hm].
      apply (parse_sound search_dirs listdir read ev n) in Hd as (_ & v2 & id2 & Hd). congruence.
    - intros t ty (fn' & d' & _ & _ & Hm). eauto.
    - intros c _ _ Hc. apply accepted_within. exact Hc.
  Qed.
  Theorem says_parse n fn source L d :
    read fn = Some source -> written L source -> name_from_filename fn = Ok (d_name d, d_version d, d_dtid d) ->
    file_says true (located (parse n) fn) ev (const_within 0) (filter nonblank L) d ->
    parse (S n) fn = Ok d.
  Proof.
    intros Er HL Hn Hf. cbn [Parser.parse]. rewrite Er.
    rewrite (source_complete _ _ _ _ Hev (parse n) fn source L d HL Hn); [reflexivity|].
    eapply file_mono; [exact Hev| | | |exact Hf].
    - auto.
    - intros t ty (fn' & d' & _ & _ & Hm). eauto.
    - intros c Hl Hd Hc. apply within_accepted; assumption.
  Qed.

  (** A number after "bool" is passed over. *)
  Lemma bool_number (nested : text -> ptype -> Prop) (fits : constant -> Prop) L source cm d : (forall t ty, nested t ty -> exists d', message_type d' ty) ->
    written L source -> tokenize source = [[txt "bool8"; txt "x"]] ->
    d_body d = Message {| p_fields := [(Some (txt "x"), QPrim KBool 1 cm)]; p_consts := []; p_union := false |} ->
    ~ file_says false nested ev fits (filter nonblank L) d.
  Proof.
    intros Hm HL Et Eb (ov & Hb & _). rewrite (written_tokens _ _ HL) in Et. change nonblank with (@nonempty text) in Hb.
    rewrite Et, Eb in Hb. inversion Hb as [L0 p ov0 Hp|]; subst. destruct Hp as (ds & Hds & Hf & _ & _ & _ & _).
    inversion Hds as [|l d0 L1 ds' Hl Hds']; subst. inversion Hds'; subst. cbn [p_fields flat_map app] in Hf. rewrite app_nil_r in Hf.
    inversion Hl as [|? ? ? E|l0 ct t r ty Hc Er Ht E|l0 ct t nm ty Hc _ _ Ht E|l0 ct t nm ex k n m x v Hc _ _ _ _ _ c _ E]; subst;
      inversion Hc as [w ws Hw E1 E2 E3|w m' ws Hw E1 E2 E3]; subst; try (destruct m'; discriminate Hw).
    cbn [decl_fields] in Hf. assert (Ety : ty = QPrim KBool 1 cm) by congruence. subst ty.
    inversion Ht as [ds n Hs Hn E|E|ds n Hl0 Hs E|ds n Hs Hn E|ds n Hs Hn E|ds n Hs Hn E|t0 s dyn et n H1 H2 H3 H4 E|t0 ty0 _ Hnest E]; try discriminate.
    apply Hm in Hnest as (d' & p & _ & Ep). discriminate.
  Qed.
End Whole.

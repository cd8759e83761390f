(** Types: the parser against the grammar. *)
From Coq Require Import String.
From Verif.Base Require Import Prelude Bits.
From Verif.Model Require Import Types Float Slcan Parser.
From Verif.Spec Require Import ParserSpec GrammarSpec.
From Verif.Proofs Require Import ParserText ParserFacts GrammarNumbers.
Open Scope list_scope.
Open Scope N_scope.

Definition no_ws (s : text) : Prop := Forall (fun c => is_ws c = false) s.

(** ** Characters *)
Definition plain (c : N) : Prop := c <> 91 /\ c <> 93 /\ is_ws c = false.
Lemma digit_plain base c d : digit_of base c d -> plain c.
Proof. unfold digit_of, plain, is_ws. lia. Qed.
Lemma more_plain base acc s v : more base acc s v -> Forall plain s.
Proof.
  intros H. induction H; [constructor|constructor; [eapply digit_plain; eassumption|assumption]|].
  constructor; [split; [discriminate|split; [discriminate|reflexivity]]|].
  constructor; [eapply digit_plain; eassumption|assumption].
Qed.
Lemma digits_plain base s v : digits base s v -> Forall plain s /\ s <> [].
Proof.
  intros (c & d & r & -> & Hd & Hm). split; [|discriminate].
  constructor; [eapply digit_plain; exact Hd|eapply more_plain; exact Hm].
Qed.
Lemma prefixed_plain base lo hi s v : plain lo -> plain hi -> prefixed base lo hi s v -> Forall plain s /\ s <> [].
Proof.
  intros Hlo Hhi (x & g & r & -> & Hx & Hg & Hr). split; [|discriminate].
  constructor; [split; [discriminate|split; [discriminate|reflexivity]]|].
  constructor; [destruct Hx as [-> | ->]; assumption|]. apply Forall_app. split; [|apply digits_plain in Hr; apply Hr].
  destruct Hg as [-> | ->]; [constructor|]. constructor; [|constructor].
  split; [discriminate|split; [discriminate|reflexivity]].
Qed.
Ltac plainc := split; [discriminate|split; [discriminate|reflexivity]].
Lemma integer_plain s z : integer s z -> Forall plain s /\ s <> [].
Proof.
  assert (Hm : forall s v, magnitude s v -> Forall plain s /\ s <> []).
  { intros s' v [(H & _)|[H|[H|H]]]; [eapply digits_plain; exact H|..]; (eapply prefixed_plain; [| |exact H]); plainc. }
  intros (v & [(H & _)|[(r & -> & H & _)|(r & -> & H & _)]]); apply Hm in H; [exact H|..];
    (split; [constructor; [plainc|apply H]|discriminate]).
Qed.
Lemma size_plain s dyn n : size_says s dyn n -> Forall plain s.
Proof.
  intros [(_ & H)|[(_ & r & -> & H)|(_ & r & -> & H)]]; apply integer_plain in H as (H & _); [exact H|..];
    (apply Forall_app; split; [|exact H]); repeat (constructor; [plainc|]); constructor.
Qed.

(** ** Matching *)
Lemma void_match_spec s n : void_match s = Some n <-> exists ds, s = txt "void" ++ ds /\ small ds n.
Proof.
  unfold void_match. destruct (starts_with (txt "void") s) eqn:E.
  - apply starts_with_app in E as (r & ->). change (skipn 4 (txt "void" ++ r)) with r.
    rewrite small_number_spec. split; [eauto|]. intros (ds & E & H). apply app_inv_head in E. subst. exact H.
  - split; [discriminate|]. intros (ds & -> & _).
    assert (starts_with (txt "void") (txt "void" ++ ds) = true) by (apply starts_with_app; eauto). congruence.
Qed.

Lemma drop_while_all {A} (p : A -> bool) a b : Forall (fun x => p x = true) a ->
  drop_while p (a ++ b) = drop_while p b.
Proof. intros H. induction H as [|x a Hx H IH]; [reflexivity|]. cbn [app drop_while]. rewrite Hx. exact IH. Qed.
Lemma drop_while_parts {A} (p : A -> bool) l :
  exists g, l = g ++ drop_while p l /\ Forall (fun x => p x = true) g.
Proof.
  induction l as [|x l (g & E & H)]; [exists []; split; [reflexivity|constructor]|].
  cbn [drop_while]. destruct (p x) eqn:Ex.
  - exists (x :: g). cbn [app]. split; [congruence|constructor; assumption].
  - exists []. split; [reflexivity|constructor].
Qed.

Lemma primitive_match_sound s base n : primitive_match s = Some (base, n) ->
  (s = txt "bool" /\ base = txt "bool") \/ (exists ds, s = base ++ ds /\ small ds n).
Proof.
  unfold primitive_match. destruct (text_eqb s (txt "bool")) eqn:E.
  - apply text_eqb_eq in E. intros [= <- <-]. left. auto.
  - set (b := rev (drop_while is_digit (rev s))). destruct (nonempty b && forallb is_lower b); [|discriminate].
    destruct (small_number _) as [m|] eqn:Em; [|discriminate]. intros [= <- <-].
    apply small_number_spec in Em. right.
    destruct (drop_while_parts is_digit (rev s)) as (g & Eg & _).
    assert (Es : s = b ++ rev g).
    { rewrite <- (rev_involutive s), Eg, rev_app_distr. reflexivity. }
    rewrite Es, skipn_app, skipn_all, Nat.sub_diag in Em. cbn [app skipn] in Em. eauto.
Qed.
Lemma primitive_match_complete w ds n : Forall (fun c => is_lower c = true) w -> w <> [] -> small ds n ->
  primitive_match (w ++ ds) = Some (w, n).
Proof.
  intros Hw Hne Hs. pose proof (small_digits ds n Hs) as (Hd & Hdne).
  assert (Eb : rev (drop_while is_digit (rev (w ++ ds))) = w).
  { rewrite rev_app_distr, drop_while_all by (apply Forall_rev; exact Hd).
    rewrite drop_while_id, rev_involutive; [reflexivity|]. apply Forall_rev.
    eapply Forall_impl; [|exact Hw]. intros c Hc. cbv beta in Hc. unfold is_lower in Hc. unfold is_digit. lia. }
  unfold primitive_match. destruct (text_eqb (w ++ ds) (txt "bool")) eqn:E.
  - exfalso. apply text_eqb_eq in E. apply (f_equal (@rev N)) in E. rewrite rev_app_distr in E.
    apply Forall_rev in Hd. destruct (rev ds) as [|x r] eqn:Er.
    + apply (f_equal (@rev N)) in Er. rewrite rev_involutive in Er. exact (Hdne Er).
    + change (rev (txt "bool")) with [108; 111; 111; 98] in E. cbn [app] in E.
      assert (x = 108) by congruence. subst x. apply Forall_inv in Hd. discriminate.
  - cbv zeta. rewrite Eb. replace (nonempty w) with true by (destruct w; [congruence|reflexivity]).
    replace (forallb is_lower w) with true
      by (symmetry; apply forallb_forall; intros x Hx; rewrite Forall_forall in Hw; exact (Hw x Hx)).
    cbn [andb]. rewrite skipn_app, skipn_all, Nat.sub_diag. cbn [app skipn].
    rewrite (proj2 (small_number_spec ds n) Hs). reflexivity.
Qed.

Lemma array_match_in s p z : array_match s = Some (p, z) -> In 91 s.
Proof. intros H. apply array_match_spec in H. rewrite H. apply in_or_app. right. left. reflexivity. Qed.
Lemma array_match_no s : ~ In 91 s -> array_match s = None.
Proof. intros H. destruct (array_match s) as [(p & z)|] eqn:E; [|reflexivity]. apply array_match_in in E. contradiction. Qed.
Lemma size_part_complete z : Forall (fun c => c <> 93) z -> size_part (z ++ [93]) = Some z.
Proof.
  intros H. induction H as [|c z Hc H IH]; [reflexivity|]. cbn [app size_part].
  destruct (z ++ [93]) as [|c' r] eqn:E; [destruct z; discriminate|].
  replace (c =? 93) with false by lia. rewrite IH. reflexivity.
Qed.
Lemma find_size_complete t z : ~ In 91 t -> Forall (fun c => c <> 93) z ->
  find_size (t ++ 91 :: z ++ [93]) = Some (t, z).
Proof.
  intros Ht Hz. induction t as [|c t IH]; cbn [app find_size].
  - change (91 =? 91) with true. cbv iota. rewrite size_part_complete by exact Hz. reflexivity.
  - assert (Hc : c <> 91) by (intros ->; apply Ht; left; reflexivity).
    replace (c =? 91) with false by lia. rewrite IH by (intros H; apply Ht; right; exact H). reflexivity.
Qed.
Lemma array_match_complete t z : t <> [] -> ~ In 91 t -> Forall (fun c => c <> 93) z ->
  array_match (t ++ 91 :: z ++ [93]) = Some (t, z).
Proof.
  intros Hne Ht Hz. destruct t as [|c t]; [congruence|]. cbn [app array_match].
  rewrite find_size_complete; [reflexivity| |exact Hz]. intros H. apply Ht. right. exact H.
Qed.

(** ** Sizes *)
Lemma refuse_iff {A} (r : res A) x : refuse r = Ok x <-> r = Ok x.
Proof. destruct r; cbn [refuse]; split; congruence. Qed.
Lemma parse_array_iff et s t : no_ws s ->
  parse_array_type et s = Ok t <->
  exists dyn n, t = QArr dyn et n /\ ~ is_array et /\ size_says s dyn n /\ (0 < n)%Z.
Proof.
  intros Hw.
  assert (Hin : forall r, s = txt "<=" ++ r -> no_ws r) by (intros r ->; apply Forall_app in Hw; apply Hw).
  assert (Hin1 : forall r, s = txt "<" ++ r -> no_ws r) by (intros r ->; apply Forall_app in Hw; apply Hw).
  assert (Hsize : forall n dyn,
    refuse (if starts_with (txt "<=") s then n <- py_int 0 (skipn 2 s) ;; Ok (n, true)
            else if starts_with (txt "<") s then n <- py_int 0 (skipn 1 s) ;; Ok ((n - 1)%Z, true)
            else n <- py_int 0 s ;; Ok (n, false)) = Ok (n, dyn) <-> size_says s dyn n).
  { intros n dyn. rewrite refuse_iff. unfold size_says.
    assert (Hlt : forall r z, s = txt "<" ++ r -> ~ integer s z).
    { intros r z -> (v & H). change (txt "<" ++ r) with (60 :: r) in H.
      destruct H as [(H & _)|[(r' & E & _)|(r' & E & _)]]; [|discriminate|discriminate].
      destruct H as [((c & d & r' & E & Hd & _) & _)|[H|[H|H]]];
        [injection E as <- _; unfold digit_of in Hd; lia|..];
        destruct H as (x & g & r' & E & _); discriminate. }
    destruct (starts_with (txt "<=") s) eqn:E1.
    - apply starts_with_app in E1 as (r & ->). change (skipn 2 (txt "<=" ++ r)) with r.
      assert (Hr : no_ws r) by (apply Hin; reflexivity). split.
      + intros H. apply bind_ok in H as (m & Em & H). injection H as -> <-. apply py_int_integer in Em; [|exact Hr].
        right. left. eauto.
      + intros [(_ & H)|[(-> & r' & E & H)|(-> & r' & E & H)]].
        * exfalso. eapply (Hlt (61 :: r)); [reflexivity|exact H].
        * apply app_inv_head in E. subst r'. apply py_int_integer in H; [|exact Hr]. rewrite H. reflexivity.
        * exfalso. change (txt "<=" ++ r) with (60 :: 61 :: r) in E. change (txt "<" ++ r') with (60 :: r') in E.
          injection E as <-. destruct H as (v & [(H & _)|[(r' & E & _)|(r' & E & _)]]); [|discriminate|discriminate].
          destruct H as [((c & d & r' & E & Hd & _) & _)|[H|[H|H]]];
            [injection E as <- _; unfold digit_of in Hd; lia|..];
            destruct H as (x & g & r' & E & _); discriminate.
    - assert (N1 : forall r, s <> txt "<=" ++ r).
      { intros r E. assert (starts_with (txt "<=") s = true) by (apply starts_with_app; eauto). congruence. }
      destruct (starts_with (txt "<") s) eqn:E2.
      + apply starts_with_app in E2 as (r & ->). change (skipn 1 (txt "<" ++ r)) with r.
        assert (Hr : no_ws r) by (apply Hin1; reflexivity). split.
        * intros H. apply bind_ok in H as (m & Em & H). assert (n = (m - 1)%Z) by congruence.
          assert (dyn = true) by congruence. subst. apply py_int_integer in Em; [|exact Hr].
          right. right. split; [reflexivity|]. exists r. split; [reflexivity|]. replace (m - 1 + 1)%Z with m by ring. exact Em.
        * intros [(_ & H)|[(-> & r' & E & H)|(-> & r' & E & H)]].
          -- exfalso. eapply (Hlt r); [reflexivity|exact H].
          -- exfalso. exact (N1 _ E).
          -- apply app_inv_head in E. subst r'. apply py_int_integer in H; [|exact Hr]. rewrite H. cbn [bind].
             f_equal. f_equal. ring.
      + assert (N2 : forall r, s <> txt "<" ++ r).
        { intros r E. assert (starts_with (txt "<") s = true) by (apply starts_with_app; eauto). congruence. }
        split.
        * intros H. apply bind_ok in H as (m & Em & H). injection H as -> <-. apply py_int_integer in Em; [|exact Hw]. auto.
        * intros [(-> & H)|[(-> & r' & E & H)|(-> & r' & E & H)]];
            [|exfalso; exact (N1 _ E)|exfalso; exact (N2 _ E)].
          apply py_int_integer in H; [|exact Hw]. rewrite H. reflexivity. }
  unfold parse_array_type. split.
  - intros H. apply bind_ok in H as (u & Ha & H). apply enforce_ok in Ha.
    apply bind_ok in H as ((mx & dyn) & Hz & H). apply Hsize in Hz. apply bind_ok in H as (u' & Hp & H).
    apply enforce_ok in Hp. injection H as <-. exists dyn, mx. split; [reflexivity|].
    split; [intros (d & e & m & ->); discriminate|]. split; [exact Hz|lia].
  - intros (dyn & n & -> & Ha & Hz & Hn). apply Hsize in Hz. rewrite Hz.
    destruct et; try (exfalso; apply Ha; eexists _, _, _; reflexivity); cbn [enforce bind];
      (replace (0 <? n)%Z with true by lia); reflexivity.
Qed.

(** ** Types *)
Section Types.
  Variable search_dirs : list text.
  Variable listdir : text -> option (list text).
  Variable read : text -> option text.
  Notation name_from_filename := (name_from_filename search_dirs).
  Notation locate := (locate search_dirs listdir read).
  Notation parse_type := (parse_type search_dirs listdir read).

  Definition located (P : text -> res definition) (fn t : text) (ty : ptype) : Prop :=
    exists fn' d, locate fn t = Ok fn' /\ P fn' = Ok d /\ message_type d ty.
  Definition cast_rel (cast : option text) (cm : option cast_mode) : Prop :=
    match cast, cm with
    | None, None => True
    | Some w, Some m => cast_word w m
    | _, _ => False
    end.

  Lemma parse_primitive_sound base n cast cm s t nested : cast_rel cast cm ->
    (s = txt "bool" /\ base = txt "bool") \/ (exists ds, s = base ++ ds /\ small ds n) ->
    parse_primitive_type base n cast = Ok t -> type_says true nested cm s t.
  Proof.
    intros Hc Hs H. unfold parse_primitive_type in H. apply bind_ok in H as (m & Em & H).
    assert (m = cast_or cm).
    { destruct cast as [w|], cm as [m'|]; cbn in Hc; try contradiction; cbn [cast_or]; [|congruence].
      destruct m'; cbn [cast_word] in Hc; subst w; [change (text_eqb (txt "saturated") (txt "saturated")) with true in Em
        |change (text_eqb (txt "truncated") (txt "saturated")) with false in Em;
         change (text_eqb (txt "truncated") (txt "truncated")) with true in Em]; cbv iota in Em; congruence. }
    subst m. destruct (text_eqb base (txt "bool")) eqn:Eb.
    { apply text_eqb_eq in Eb. subst base. injection H as <-. destruct Hs as [(-> & _)|(ds & -> & Hd)].
      - apply says_bool.
      - eapply says_bool_loose; [reflexivity|exact Hd]. }
    destruct Hs as [(_ & ->)|(ds & -> & Hd)]; [discriminate|].
    apply bind_ok in H as (k & Ek & H). apply bind_ok in H as (u & He & H). apply enforce_ok in He. injection H as <-.
    destruct (text_eqb base (txt "uint")) eqn:E1.
    { apply text_eqb_eq in E1. subst base. injection Ek as <-. apply says_uint; [exact Hd|lia]. }
    destruct (text_eqb base (txt "int")) eqn:E2.
    { apply text_eqb_eq in E2. subst base. injection Ek as <-. apply says_int; [exact Hd|lia]. }
    destruct (text_eqb base (txt "float")) eqn:E3; [|discriminate].
    apply text_eqb_eq in E3. subst base. injection Ek as <-. apply says_float; [exact Hd|lia].
  Qed.

  Lemma parse_type_says P fuel fn cast cm td t : cast_rel cast cm -> no_ws td ->
    parse_type P fuel fn td cast = Ok t -> type_says true (located P fn) cm td t.
  Proof.
    intros Hc. revert td t. induction fuel as [|f IH]; intros td t Hw H; [discriminate|].
    cbn [Parser.parse_type] in H. rewrite (strip_id is_ws td Hw) in H.
    destruct (void_match td) as [n|] eqn:Ev.
    { apply void_match_spec in Ev as (ds & -> & Hd). unfold parse_void_type in H.
      apply bind_ok in H as (u & He & H). apply enforce_ok in He. injection H as <-. apply says_void; [exact Hd|lia]. }
    destruct (array_match td) as [(vt & size)|] eqn:Ea.
    { apply array_match_spec in Ea. subst td. apply Forall_app in Hw as (Hw1 & Hw2).
      apply Forall_inv_tail in Hw2. apply Forall_app in Hw2 as (Hw2 & _).
      rewrite (strip_id is_ws vt Hw1), (strip_id is_ws size Hw2) in H.
      apply bind_ok in H as (et & He & H). apply parse_array_iff in H as (dyn & n & -> & Ha & Hz & Hn); [|exact Hw2].
      change (vt ++ 91 :: size ++ [93]) with (vt ++ txt "[" ++ size ++ txt "]").
      apply says_array; auto. }
    destruct (primitive_match td) as [(base & n)|] eqn:Ep.
    { apply primitive_match_sound in Ep. eapply parse_primitive_sound; eassumption. }
    apply bind_ok in H as (u & He & H). apply enforce_ok in He. destruct cast as [|]; [discriminate|].
    destruct cm as [|]; [contradiction|].
    apply bind_ok in H as (fn' & Hl & H). apply bind_ok in H as (d & Hd & H).
    apply says_nested; [reflexivity|]. exists fn', d. split; [exact Hl|]. split; [exact Hd|].
    destruct (d_body d) as [p|] eqn:Eb; [|discriminate]. injection H as <-. exists p. auto.
  Qed.

  (** ** Completeness *)
  Lemma full_name_chars nm : full_type_name nm -> Forall (fun c => alnum c \/ c = dot) nm.
  Proof.
    assert (Hns : forall w, namespace_word w -> Forall (fun c => alnum c \/ c = dot) w).
    { intros w (c & r & -> & Hc & Hr). constructor; [left; left; exact Hc|].
      eapply Forall_impl; [|exact Hr]. intros x Hx. cbv beta in Hx. left. unfold alnum. tauto. }
    assert (Hdot : alnum dot \/ dot = dot) by (right; reflexivity).
    intros H. induction H as [ns nm Hn Hs|ns nm Hn H IH]; (apply Forall_app; split; [apply Hns; exact Hn|]);
      (constructor; [exact Hdot|]); [|exact IH].
    destruct Hs as (c & r & -> & Hc & Hr). constructor; [left; right; left; exact Hc|].
    eapply Forall_impl; [|exact Hr]. intros x Hx. left. exact Hx.
  Qed.

  (** A name that was found is of no other form. *)
  Lemma located_name fn t fn' : locate fn t = Ok fn' ->
    Forall (fun c => alnum c \/ c = dot) t /\ (In dot t \/ spelt upper alnum t).
  Proof.
    intros H. apply locate_name in H as (full & v & id & Hn & Hf).
    apply name_from_filename_valid in Hn.
    pose proof (full_name_chars _ (validate_full_name _ Hn)) as Hch.
    destruct Hf as [(Hd & ->)|(Hd & ns & ->)].
    - split; [exact Hch|]. left. apply existsb_exists in Hd as (x & Hx & E). apply N.eqb_eq in E. unfold dot. subst x. exact Hx.
    - apply Forall_app in Hch as (_ & Hch). apply Forall_inv_tail in Hch. split; [exact Hch|]. right.
      apply validate_last in Hn. rewrite last_component in Hn.
      + eapply matches_spelt; [apply is_upper_spec|apply name_char_spec|exact Hn].
      + apply Forall_forall. intros x Hx ->. assert (existsb (N.eqb 46) t = true); [|congruence].
        apply existsb_exists. exists 46. auto.
  Qed.
  Lemma lower_word_not_located fn w ds n fn' : w <> [] -> Forall (fun c => is_lower c = true) w -> small ds n ->
    locate fn (w ++ ds) <> Ok fn'.
  Proof.
    intros Hne Hw Hs H. apply located_name in H as (_ & [H|(c & r & E & Hc & _)]).
    - apply in_app_or in H as [H|H].
      + rewrite Forall_forall in Hw. apply Hw in H. discriminate.
      + apply small_digits in Hs as (Hs & _). rewrite Forall_forall in Hs. apply Hs in H. discriminate.
    - destruct w as [|c' w]; [congruence|]. injection E as <- _. apply Forall_inv in Hw.
      unfold is_lower in Hw. unfold upper in Hc. lia.
  Qed.
  Lemma located_plain fn t fn' : locate fn t = Ok fn' ->
    t <> [] /\ ~ In 91 t /\ void_match t = None /\ array_match t = None /\ primitive_match t = None.
  Proof.
    intros H. pose proof (located_name _ _ _ H) as (Hch & Hu).
    assert (H91 : ~ In 91 t).
    { intros Hi. rewrite Forall_forall in Hch. apply Hch in Hi.
      unfold alnum, lower, upper, digit, underscore, dot in Hi. lia. }
    split; [|split; [exact H91|split; [|split]]].
    - intros ->. destruct Hu as [[]|(c & r & E & _)]. discriminate.
    - destruct (void_match t) as [n|] eqn:E; [|reflexivity]. apply void_match_spec in E as (ds & -> & Hs).
      exfalso. eapply lower_word_not_located; [..|exact Hs|exact H]; [discriminate|].
      repeat (constructor; [reflexivity|]). constructor.
    - apply array_match_no. exact H91.
    - destruct (primitive_match t) as [(base & n)|] eqn:E; [|reflexivity]. exfalso.
      assert (Hbase : t = txt "bool" \/ exists ds, t = base ++ ds /\ small ds n /\ base <> [] /\ Forall (fun c => is_lower c = true) base).
      { unfold primitive_match in E. destruct (text_eqb t (txt "bool")) eqn:Eb; [left; apply text_eqb_eq; exact Eb|].
        pose proof (primitive_match_sound t base n) as Hs. unfold primitive_match in Hs. rewrite Eb in Hs. specialize (Hs E).
        right. destruct Hs as [(-> & _)|(ds & Et & Hd)]; [discriminate|]. exists ds. split; [exact Et|]. split; [exact Hd|].
        cbv zeta in E. destruct (nonempty _ && forallb is_lower _) eqn:En; [|discriminate].
        destruct (small_number _); [|discriminate]. injection E as <- _.
        apply andb_true_iff in En as (En & El). split.
        - intros E0. rewrite E0 in En. discriminate.
        - apply Forall_forall. intros x Hx. rewrite forallb_forall in El. auto. }
      destruct Hbase as [-> |(ds & -> & Hd & Hne & Hl)].
      + destruct Hu as [Hu|(c & r & E' & Hc & _)].
        * vm_compute in Hu. repeat (destruct Hu as [Hu|Hu]; [discriminate|]). destruct Hu.
        * injection E' as <- _. unfold upper in Hc. lia.
      + eapply lower_word_not_located; [exact Hne|exact Hl|exact Hd|exact H].
  Qed.

  Lemma word_no_bracket w ds n : Forall (fun c => is_lower c = true) w -> small ds n -> ~ In 91 (w ++ ds).
  Proof.
    intros Hw Hs Hi. apply in_app_or in Hi as [Hi|Hi].
    - rewrite Forall_forall in Hw. apply Hw in Hi. discriminate.
    - apply small_digits in Hs as (Hs & _). rewrite Forall_forall in Hs. apply Hs in Hi. discriminate.
  Qed.
  Lemma void_match_other w ds n : Forall (fun c => is_lower c = true) w -> small ds n -> w <> txt "void" ->
    void_match (w ++ ds) = None.
  Proof.
    intros Hw Hs Hne. destruct (void_match (w ++ ds)) as [m|] eqn:E; [|reflexivity]. exfalso.
    apply void_match_spec in E as (ds' & E & Hs').
    assert (Hv : Forall (fun c => is_lower c = true) (txt "void")) by (repeat (constructor; [reflexivity|]); constructor).
    destruct w as [|c w].
    { apply small_digits in Hs as (Hs & Hn). destruct ds as [|x ds]; [congruence|]. apply Forall_inv in Hs.
      change (txt "void" ++ ds') with (118 :: txt "oid" ++ ds') in E. cbn [app] in E. injection E as -> _. discriminate. }
    pose proof (primitive_match_complete (c :: w) ds n Hw ltac:(discriminate) Hs) as E1.
    pose proof (primitive_match_complete (txt "void") ds' m Hv ltac:(discriminate) Hs') as E2.
    rewrite E in E1. assert (c :: w = txt "void") by congruence. contradiction.
  Qed.
  Lemma cast_primitive cast cm : cast_rel cast cm ->
    match cast with
    | None => Ok Saturated
    | Some c => if text_eqb c (txt "saturated") then Ok Saturated
                else if text_eqb c (txt "truncated") then Ok Truncated else Err DsdlException
    end = Ok (cast_or cm).
  Proof.
    destruct cast as [w|], cm as [m|]; cbn [cast_rel]; try contradiction; [|reflexivity].
    destruct m; cbn [cast_word]; intros ->; reflexivity.
  Qed.

  Lemma type_shape P fn cm td ty : type_says true (located P fn) cm td ty -> ~ is_array ty -> td <> [] /\ ~ In 91 td.
  Proof.
    intros H Hn. destruct H as [ds n Hs _| |ds n _ Hs|ds n Hs _|ds n Hs _|ds n Hs _|t s dyn et n _ _ _ _|t ty _ H].
    - split; [discriminate|]. eapply word_no_bracket; [|exact Hs]. repeat (constructor; [reflexivity|]). constructor.
    - split; [discriminate|]. vm_compute. intuition discriminate.
    - split; [discriminate|]. eapply word_no_bracket; [|exact Hs]. repeat (constructor; [reflexivity|]). constructor.
    - split; [discriminate|]. eapply word_no_bracket; [|exact Hs]. repeat (constructor; [reflexivity|]). constructor.
    - split; [discriminate|]. eapply word_no_bracket; [|exact Hs]. repeat (constructor; [reflexivity|]). constructor.
    - split; [discriminate|]. eapply word_no_bracket; [|exact Hs]. repeat (constructor; [reflexivity|]). constructor.
    - exfalso. apply Hn. eexists _, _, _. reflexivity.
    - destruct H as (fn' & d & Hl & _). apply located_plain in Hl. intuition.
  Qed.

  Lemma says_parse_type P fn cast cm td ty : cast_rel cast cm ->
    type_says true (located P fn) cm td ty -> no_ws td ->
    forall fuel, (2 <= fuel)%nat \/ ((1 <= fuel)%nat /\ ~ is_array ty) -> parse_type P fuel fn td cast = Ok ty.
  Proof.
    intros Hc H. pose proof (cast_primitive cast cm Hc) as Ecm.
    assert (Hprim : forall w ds n t, Forall (fun c => is_lower c = true) w -> w <> [] -> w <> txt "void" -> small ds n ->
      no_ws (w ++ ds) -> parse_primitive_type w n cast = Ok t ->
      forall fuel, (2 <= fuel)%nat \/ ((1 <= fuel)%nat /\ ~ is_array t) -> parse_type P fuel fn (w ++ ds) cast = Ok t).
    { intros w ds n t Hl Hne Hnv Hs Hw Hp [|fuel] Hf; [lia|]. cbn [Parser.parse_type].
      rewrite (strip_id is_ws _ Hw), (void_match_other w ds n Hl Hs Hnv).
      rewrite array_match_no by (eapply word_no_bracket; eassumption).
      rewrite (primitive_match_complete w ds n Hl Hne Hs). exact Hp. }
    induction H as [ds n Hs Hn| |ds n _ Hs|ds n Hs Hn|ds n Hs Hn|ds n Hs Hn|t s dyn et n Ht IH Ha Hz Hn|t ty E H];
      intros Hw fuel Hf.
    - destruct fuel as [|fuel]; [lia|]. cbn [Parser.parse_type]. rewrite (strip_id is_ws _ Hw).
      rewrite (proj2 (void_match_spec (txt "void" ++ ds) n)) by eauto. unfold parse_void_type.
      replace ((1 <=? n) && (n <=? 64)) with true by lia. reflexivity.
    - destruct fuel as [|fuel]; [lia|]. cbn [Parser.parse_type]. rewrite (strip_id is_ws _ Hw).
      change (void_match (txt "bool")) with (@None N). change (array_match (txt "bool")) with (@None (text * text)).
      change (primitive_match (txt "bool")) with (Some (txt "bool", 1)). cbv iota.
      unfold parse_primitive_type. rewrite Ecm. reflexivity.
    - eapply (Hprim (txt "bool")); [repeat (constructor; [reflexivity|]); constructor|discriminate|discriminate|exact Hs|exact Hw| |exact Hf].
      unfold parse_primitive_type. rewrite Ecm. reflexivity.
    - eapply (Hprim (txt "uint")); [repeat (constructor; [reflexivity|]); constructor|discriminate|discriminate|exact Hs|exact Hw| |exact Hf].
      unfold parse_primitive_type. rewrite Ecm. cbn [bind].
      change (text_eqb (txt "uint") (txt "bool")) with false. change (text_eqb (txt "uint") (txt "uint")) with true. cbv iota. cbn [bind].
      replace ((2 <=? n) && (n <=? 64)) with true by lia. reflexivity.
    - eapply (Hprim (txt "int")); [repeat (constructor; [reflexivity|]); constructor|discriminate|discriminate|exact Hs|exact Hw| |exact Hf].
      unfold parse_primitive_type. rewrite Ecm. cbn [bind].
      change (text_eqb (txt "int") (txt "bool")) with false. change (text_eqb (txt "int") (txt "uint")) with false.
      change (text_eqb (txt "int") (txt "int")) with true. cbv iota. cbn [bind].
      replace ((2 <=? n) && (n <=? 64)) with true by lia. reflexivity.
    - eapply (Hprim (txt "float")); [repeat (constructor; [reflexivity|]); constructor|discriminate|discriminate|exact Hs|exact Hw| |exact Hf].
      unfold parse_primitive_type. rewrite Ecm. cbn [bind].
      change (text_eqb (txt "float") (txt "bool")) with false. change (text_eqb (txt "float") (txt "uint")) with false.
      change (text_eqb (txt "float") (txt "int")) with false. change (text_eqb (txt "float") (txt "float")) with true. cbv iota. cbn [bind].
      replace ((n =? 16) || (n =? 32) || (n =? 64)) with true by lia. reflexivity.
    - destruct fuel as [|fuel]; [lia|]. assert (Hfuel : (1 <= fuel)%nat).
      { destruct Hf as [Hf|(_ & Hf)]; [lia|]. exfalso. apply Hf. eexists _, _, _. reflexivity. }
      cbn [Parser.parse_type]. rewrite (strip_id is_ws _ Hw).
      destruct (type_shape _ _ _ _ _ Ht Ha) as (Hne & H91).
      assert (Hp : Forall plain s) by (eapply size_plain; exact Hz).
      apply Forall_app in Hw as (Hw1 & Hw2). apply Forall_app in Hw2 as (_ & Hw2). apply Forall_app in Hw2 as (Hw2 & _).
      assert (Ea : array_match (t ++ txt "[" ++ s ++ txt "]") = Some (t, s)).
      { apply array_match_complete; [exact Hne|exact H91|]. eapply Forall_impl; [|exact Hp]. intros c (_ & Hc' & _). exact Hc'. }
      rewrite Ea.
      assert (Ev : void_match (t ++ txt "[" ++ s ++ txt "]") = None).
      { destruct (void_match (t ++ txt "[" ++ s ++ txt "]")) as [m|] eqn:E; [|reflexivity]. exfalso.
        apply void_match_spec in E as (ds & E & Hs). eapply (word_no_bracket (txt "void")); [|exact Hs|].
        - repeat (constructor; [reflexivity|]). constructor.
        - rewrite <- E. apply in_or_app. right. left. reflexivity. }
      rewrite Ev, (strip_id is_ws t Hw1), (strip_id is_ws s Hw2).
      rewrite (IH Hw1 fuel (or_intror (conj Hfuel Ha))). cbn [bind].
      apply parse_array_iff; [exact Hw2|]. exists dyn, n. auto.
    - destruct fuel as [|fuel]; [lia|]. cbn [Parser.parse_type]. rewrite (strip_id is_ws _ Hw).
      destruct H as (fn' & d & Hl & Hd & p & Ep & ->). destruct (located_plain _ _ _ Hl) as (_ & _ & -> & -> & ->).
      subst cm. destruct cast as [|]; [contradiction|]. cbn [enforce bind]. rewrite Hl. cbn [bind]. rewrite Hd. cbn [bind].
      rewrite Ep. reflexivity.
  Qed.
End Types.

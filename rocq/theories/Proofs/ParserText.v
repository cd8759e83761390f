(** Facts about the text functions of the definition parser. *)
From Coq Require Import String.
From Verif.Base Require Import Prelude Bits.
From Verif.Model Require Import Types Prim Float Slcan Parser.
From Verif.Spec Require Import ParserSpec.
Open Scope list_scope.
Open Scope N_scope.

Lemma text_eqb_eq a b : text_eqb a b = true <-> a = b.
Proof. unfold text_eqb. destruct (list_eq_dec N.eq_dec a b); split; congruence. Qed.
Lemma text_eqb_refl a : text_eqb a a = true.
Proof. now apply text_eqb_eq. Qed.
Lemma text_eqb_neq a b : text_eqb a b = false <-> a <> b.
Proof. unfold text_eqb. destruct (list_eq_dec N.eq_dec a b); split; congruence. Qed.

(** ** Splitting and joining *)

Lemma split_by_cons p s : exists w ws, split_by p s = w :: ws.
Proof.
  destruct s as [|c r]; cbn [split_by]; [eauto|].
  destruct (p c); [eauto|]. destruct (split_by p r); eauto.
Qed.

Lemma split_by_none p s : Forall (fun c => p c = false) s -> split_by p s = [s].
Proof.
  induction 1 as [|c r Hc _ IH]; cbn [split_by]; [reflexivity|]. now rewrite Hc, IH.
Qed.

Lemma split_by_app p a e b : p e = true -> split_by p (a ++ e :: b) = split_by p a ++ split_by p b.
Proof.
  intros He. induction a as [|c r IH]; cbn [split_by app].
  - now rewrite He.
  - destruct (p c); [now rewrite IH|]. rewrite IH.
    destruct (split_by_cons p r) as (w & ws & ->). reflexivity.
Qed.

Lemma split_by_pieces p s : Forall (Forall (fun c => p c = false)) (split_by p s).
Proof.
  induction s as [|c r IH]; cbn [split_by]; [repeat constructor|].
  destruct (p c) eqn:E; [constructor; [constructor|exact IH]|].
  destruct (split_by p r) as [|w ws]; [repeat constructor; exact E|].
  apply Forall_cons_iff in IH as (Hw & Hws). constructor; [constructor; assumption|assumption].
Qed.

Lemma split_by_first p s w ws : split_by p s = w :: ws ->
  exists r, s = w ++ r /\ (r = [] /\ ws = [] \/ exists c r', r = c :: r' /\ p c = true /\ split_by p r' = ws).
Proof.
  revert w ws. induction s as [|c r IH]; cbn [split_by]; intros w ws H.
  - injection H as <- <-. exists []. split; [reflexivity|]. now left.
  - destruct (p c) eqn:E.
    + injection H as <- <-. exists (c :: r). split; [reflexivity|]. right. now exists c, r.
    + destruct (split_by_cons p r) as (w0 & ws0 & E0). rewrite E0 in H. injection H as <- <-.
      destruct (IH _ _ E0) as (r0 & -> & Hr). exists r0. split; [reflexivity|]. exact Hr.
Qed.

Lemma join_cons sep w ws : ws <> [] -> join sep (w :: ws) = w ++ sep ++ join sep ws.
Proof. destruct ws; [congruence|reflexivity]. Qed.

Lemma join_split c s : join [c] (split_by (N.eqb c) s) = s.
Proof.
  induction s as [|x r IH]; [reflexivity|]. cbn [split_by].
  destruct (split_by_cons (N.eqb c) r) as (w & ws & E). rewrite E in IH |- *.
  destruct (N.eqb_spec c x) as [<-|_].
  - rewrite join_cons by discriminate. cbn [app]. now rewrite IH.
  - destruct ws as [|w1 ws1].
    + cbn [join] in IH |- *. now rewrite IH.
    + rewrite join_cons in IH by discriminate. rewrite join_cons by discriminate.
      rewrite <- app_comm_cons. f_equal. exact IH.
Qed.

Lemma split_join c ps : ps <> [] -> Forall (Forall (fun x => x <> c)) ps ->
  split_by (N.eqb c) (join [c] ps) = ps.
Proof.
  intros Hne H. induction H as [|p ps Hp Hps IH]; [congruence|].
  assert (Hs : split_by (N.eqb c) p = [p]).
  { apply split_by_none. eapply Forall_impl; [|exact Hp]. intros x Hx. cbv beta in Hx.
    apply N.eqb_neq. congruence. }
  destruct ps as [|q qs]; [exact Hs|].
  rewrite join_cons by discriminate. cbn [app].
  rewrite split_by_app by apply N.eqb_refl. rewrite Hs, IH by discriminate. reflexivity.
Qed.

(** ** Words and lines *)

Lemma blank_ws c : blank c -> is_ws c = true /\ is_break c = false /\ c <> hash.
Proof. unfold blank, is_ws, is_break, hash. intros [->|[->| ->]]; repeat split; discriminate. Qed.
Lemma is_ws_spec c : is_ws c = true <-> blank c \/ eol c.
Proof. unfold is_ws, blank, eol. lia. Qed.
Lemma is_break_spec c : is_break c = true <-> eol c.
Proof. unfold is_break, eol. lia. Qed.
Lemma word_char c : ~ blank c /\ ~ eol c /\ c <> hash -> is_ws c = false /\ is_break c = false.
Proof. unfold is_ws, is_break, blank, eol. lia. Qed.

Lemma words_ws g s : Forall (fun c => is_ws c = true) g -> words (g ++ s) = words s.
Proof.
  unfold words. induction 1 as [|c r Hc _ IH]; [reflexivity|]. cbn [app split_by]. rewrite Hc.
  cbn [filter nonempty]. exact IH.
Qed.
Lemma words_nil g : Forall (fun c => is_ws c = true) g -> words g = [].
Proof. intros H. rewrite <- (app_nil_r g), words_ws by exact H. reflexivity. Qed.
Lemma words_word w s : w <> [] -> Forall (fun c => is_ws c = false) w ->
  (s = [] \/ exists c r, s = c :: r /\ is_ws c = true) -> words (w ++ s) = w :: words s.
Proof.
  intros Hne Hw [->|(c & r & -> & Hc)].
  - rewrite app_nil_r. unfold words. rewrite split_by_none by exact Hw. cbn [filter].
    destruct w; [congruence|reflexivity].
  - unfold words. rewrite split_by_app by exact Hc. rewrite split_by_none by exact Hw.
    cbn [split_by app]. rewrite Hc. destruct w; [congruence|reflexivity].
Qed.

Lemma strip_comment_app a s : Forall (fun c => c <> hash) a -> strip_comment (a ++ s) = a ++ strip_comment s.
Proof.
  induction 1 as [|c r Hc _ IH]; [reflexivity|]. cbn [app strip_comment].
  destruct (N.eqb_spec c 35); [unfold hash in Hc; congruence|]. now rewrite IH.
Qed.
Lemma strip_comment_comment c : comment c -> strip_comment c = [].
Proof. intros [->|(r & -> & _)]; reflexivity. Qed.

Lemma blanks_ws g : Forall blank g -> Forall (fun c => is_ws c = true) g.
Proof. intros H. eapply Forall_impl; [|exact H]. intros c Hc. apply blank_ws in Hc. tauto. Qed.
Lemma blanks_hash g : Forall blank g -> Forall (fun c => c <> hash) g.
Proof. intros H. eapply Forall_impl; [|exact H]. intros c Hc. apply blank_ws in Hc. tauto. Qed.
Lemma blanks_break g : Forall blank g -> Forall (fun c => is_break c = false) g.
Proof. intros H. eapply Forall_impl; [|exact H]. intros c Hc. apply blank_ws in Hc. tauto. Qed.

Lemma line_words l s : line_of l s -> words (strip_comment s) = l.
Proof.
  induction 1 as [g c Hg Hc|g w ws s Hg (Hne & Hw) Hl IH Ha].
  - rewrite strip_comment_app by now apply blanks_hash. rewrite strip_comment_comment by exact Hc.
    rewrite app_nil_r. apply words_nil. now apply blanks_ws.
  - assert (Hwh : Forall (fun c => c <> hash) w) by (eapply Forall_impl; [|exact Hw]; cbv beta; tauto).
    rewrite strip_comment_app by now apply blanks_hash. rewrite strip_comment_app by exact Hwh.
    rewrite words_ws by now apply blanks_ws.
    rewrite words_word; [now rewrite IH|exact Hne| |].
    + eapply Forall_impl; [|exact Hw]. intros c Hc. apply word_char in Hc. tauto.
    + destruct s as [|c r]; [now left|]. destruct (Ha c r eq_refl) as [Hb| ->]; [|now left].
      cbn [strip_comment]. apply blank_ws in Hb as (Hb & _ & Hh).
      destruct (N.eqb_spec c 35) as [->|_]; [now destruct Hh|]. right. eauto.
Qed.

Lemma line_no_break l s : line_of l s -> Forall (fun c => is_break c = false) s.
Proof.
  induction 1 as [g c Hg Hc|g w ws s Hg (Hne & Hw) Hl IH Ha].
  - apply Forall_app. split; [now apply blanks_break|].
    destruct Hc as [->|(r & -> & Hr)]; [constructor|]. constructor; [reflexivity|].
    eapply Forall_impl; [|exact Hr]. intros c Hc. cbv beta in Hc.
    destruct (is_break c) eqn:E; [|reflexivity]. apply is_break_spec in E. tauto.
  - apply Forall_app. split; [now apply blanks_break|]. apply Forall_app. split; [|exact IH].
    eapply Forall_impl; [|exact Hw]. intros c Hc. apply word_char in Hc. tauto.
Qed.

Lemma written_lines L s : written L s ->
  map (fun line => words (strip_comment line)) (splitlines s) = L.
Proof.
  unfold splitlines. induction 1 as [l s Hl|l s e L r Hl He Hw IH].
  - rewrite split_by_none by now apply line_no_break in Hl. cbn [map]. now rewrite (line_words _ _ Hl).
  - rewrite split_by_app by now apply is_break_spec.
    rewrite split_by_none by now apply line_no_break in Hl. cbn [map app].
    now rewrite (line_words _ _ Hl), IH.
Qed.

Lemma written_tokens L s : written L s -> tokenize s = filter nonempty L.
Proof. intros H. unfold tokenize. now rewrite (written_lines _ _ H). Qed.

(** Every text has a reading. *)
Lemma blank_dec c : {blank c} + {~ blank c}.
Proof. unfold blank. destruct (N.eq_dec c 32); [left; tauto|]. destruct (N.eq_dec c 9); [left; tauto|].
  destruct (N.eq_dec c 31); [left; tauto|]. right. tauto. Qed.

Lemma line_of_blank x l s : blank x -> line_of l s -> line_of l (x :: s).
Proof.
  intros Hx H. destruct H as [g c Hg Hc|g w ws s Hg Hw Hl Ha].
  - apply (line_end (x :: g) c); [now constructor|exact Hc].
  - apply (line_word (x :: g) w ws s); try assumption. now constructor.
Qed.

Lemma line_of_words a c : Forall (fun x => ~ eol x /\ x <> hash) a -> comment c ->
  line_of (words a) (a ++ c).
Proof.
  intros Ha Hc. induction Ha as [|x a' (Hxe & Hxh) Ha' IH].
  - apply (line_end [] c); [constructor|exact Hc].
  - destruct (blank_dec x) as [Hx|Hx].
    + change (x :: a') with ([x] ++ a') at 1.
      rewrite words_ws by (apply blanks_ws; constructor; [exact Hx|constructor]).
      now apply line_of_blank.
    + assert (Hxw : is_ws x = false).
      { destruct (is_ws x) eqn:E; [|reflexivity]. apply is_ws_spec in E. tauto. }
      assert (Hword : forall w, Forall (fun y => ~ blank y /\ ~ eol y /\ y <> hash) w -> word (x :: w)).
      { intros w Hw. split; [discriminate|]. constructor; [tauto|exact Hw]. }
      unfold words in IH |- *. cbn [split_by]. rewrite Hxw.
      destruct (split_by_cons is_ws a') as (w0 & ws0 & E). rewrite E in IH |- *.
      pose proof (split_by_first _ _ _ _ E) as (r & Er & Hr).
      pose proof (split_by_pieces is_ws a') as Hp. rewrite E in Hp. apply Forall_cons_iff in Hp as (Hw0 & _).
      assert (Hw0' : Forall (fun y => ~ blank y /\ ~ eol y /\ y <> hash) w0).
      { apply Forall_forall. intros y Hy.
        assert (In y a') by (rewrite Er; apply in_or_app; now left).
        rewrite Forall_forall in Ha', Hw0. specialize (Ha' y H). specialize (Hw0 y Hy). cbv beta in *.
        split; [|tauto]. intros Hb. apply blank_ws in Hb. destruct Hb as (Hb & _). congruence. }
      cbn [filter nonempty].
      assert (Hafter : after_word (r ++ c)).
      { intros y t Ey. destruct r as [|y0 r0].
        - cbn [app] in Ey. destruct Hc as [->|(t0 & -> & _)]; [discriminate|]. injection Ey as <- <-. now right.
        - cbn [app] in Ey. injection Ey as <- <-. destruct Hr as [(? & _)|(y1 & r1 & Hy1 & Hws & _)]; [discriminate|].
          injection Hy1 as <- <-. left. apply is_ws_spec in Hws. destruct Hws as [|He]; [assumption|].
          exfalso. rewrite Forall_forall in Ha'. apply (proj1 (Ha' y0 ltac:(rewrite Er; apply in_or_app; right; now left)) He). }
      assert (Hrest : line_of (filter nonempty ws0) (r ++ c)).
      { destruct w0 as [|z w0'].
        - cbn [filter nonempty] in IH. rewrite Er in IH. exact IH.
        - cbn [filter nonempty] in IH. rewrite Er in IH.
          remember ((z :: w0') :: filter nonempty ws0) as l eqn:El.
          remember (((z :: w0') ++ r) ++ c) as s eqn:Es.
          destruct IH as [g c' Hg Hc'|g w ws s Hg Hw Hl Hs]; [discriminate|].
          injection El as -> ->.
          assert (g = []) as ->.
          { destruct g as [|b g']; [reflexivity|]. cbn [app] in Es. injection Es as -> _.
            apply Forall_cons_iff in Hg as (Hb & _). apply Forall_cons_iff in Hw0' as (Hz & _). tauto. }
          cbn [app] in Es. injection Es as Es. rewrite <- app_assoc in Es. apply app_inv_head in Es.
          rewrite <- Es. exact Hl. }
      replace ((x :: a') ++ c) with ([] ++ (x :: w0) ++ (r ++ c))
        by (rewrite Er; cbn [app]; now rewrite <- app_assoc).
      apply line_word; [constructor|now apply Hword|exact Hrest|exact Hafter].
Qed.

Lemma comment_split s : Forall (fun c => ~ eol c) s ->
  exists c, s = strip_comment s ++ c /\ comment c /\ Forall (fun x => ~ eol x /\ x <> hash) (strip_comment s).
Proof.
  induction 1 as [|x r Hx Hr IH]; [exists []; repeat split; [now left|constructor]|].
  cbn [strip_comment]. destruct (N.eqb_spec x 35) as [->|Hn].
  - exists (hash :: r). repeat split; [right; now exists r|constructor].
  - destruct IH as (c & E & Hc & Ha). exists c. cbn [app]. rewrite <- E. repeat split; [exact Hc|].
    constructor; [split; [exact Hx|exact Hn]|exact Ha].
Qed.

Lemma every_text_written s :
  written (map (fun line => words (strip_comment line)) (splitlines s)) s.
Proof.
  unfold splitlines.
  assert (Hline : forall w, Forall (fun c => is_break c = false) w -> line_of (words (strip_comment w)) w).
  { intros w Hw. assert (Hw' : Forall (fun c => ~ eol c) w).
    { eapply Forall_impl; [|exact Hw]. intros c Hc He. apply is_break_spec in He. cbv beta in Hc. congruence. }
    destruct (comment_split w Hw') as (c & E & Hc & Ha). rewrite E at 2. now apply line_of_words. }
  remember (length s) as n eqn:En. assert (Hn : (length s <= n)%nat) by lia. clear En.
  revert s Hn. induction n as [|n IH]; intros s Hn.
  - destruct s; [|cbn in Hn; lia]. cbn [split_by map]. apply written_last, Hline. constructor.
  - destruct (split_by_cons is_break s) as (w & ws & E).
    pose proof (split_by_pieces is_break s) as Hp. rewrite E in Hp. apply Forall_cons_iff in Hp as (Hw & _).
    destruct (split_by_first _ _ _ _ E) as (r & -> & [(-> & ->)|(c & r' & -> & Hc & <-)]).
    + rewrite E, app_nil_r. apply written_last. now apply Hline.
    + rewrite E. cbn [map]. apply written_more; [now apply Hline|now apply is_break_spec|].
      apply IH. rewrite app_length in Hn. cbn [length] in Hn. lia.
Qed.

(** ** Names *)

Lemma matches_spelt (f r : N -> bool) (F R : N -> Prop) s :
  (forall c, f c = true -> F c) -> (forall c, r c = true -> R c) ->
  matches f r s = true -> spelt F R s.
Proof.
  intros HF HR. destruct s as [|c t]; [discriminate|]. cbn [matches]. intros H.
  apply andb_true_iff in H as (Hc & Ht). exists c, t. split; [reflexivity|]. split; [auto|].
  apply Forall_forall. intros x Hx. rewrite forallb_forall in Ht. auto.
Qed.

Lemma enforce_ok b u : enforce b = Ok u -> b = true.
Proof. unfold enforce. destruct b; [reflexivity|discriminate]. Qed.
Lemma refuse_ok {A} (r : res A) x : refuse r = Ok x -> r = Ok x.
Proof. unfold refuse. destruct r; congruence. Qed.

Lemma is_lower_spec c : is_lower c = true -> lower c.
Proof. unfold is_lower, lower. lia. Qed.
Lemma is_upper_spec c : is_upper c = true -> upper c.
Proof. unfold is_upper, upper. lia. Qed.
Lemma ns_char_spec c : ns_char c = true -> lower c \/ digit c \/ c = underscore.
Proof. unfold ns_char, is_lower, is_digit, lower, digit, underscore. lia. Qed.
Lemma name_char_spec c : name_char c = true -> alnum c.
Proof. unfold name_char, is_lower, is_upper, is_digit, alnum, lower, upper, digit, underscore. lia. Qed.

Lemma full_name_join ns short : ns <> [] -> Forall namespace_word ns -> spelt upper alnum short ->
  full_type_name (join [dot] (ns ++ [short])).
Proof.
  intros Hne H Hs. induction H as [|w ws Hw Hws IH]; [congruence|].
  cbn [app]. rewrite join_cons by (destruct ws; discriminate). cbn [app].
  destruct ws as [|v vs]; [now apply name_short|]. apply name_deep; [exact Hw|]. apply IH. discriminate.
Qed.

Lemma validate_full_name nm : validate_compound_type_full_name nm = Ok tt -> full_type_name nm.
Proof.
  unfold validate_compound_type_full_name, validate_namespace_name, namespace_of. intros H.
  apply bind_ok in H as (u0 & Hdot & H). apply bind_ok in H as (u1 & Hns & H).
  apply bind_ok in H as (u2 & Hsh & Hlen). apply bind_ok in Hns as (u3 & Hns & _).
  apply enforce_ok in Hdot, Hns, Hsh.
  pose proof (join_split 46 nm) as Hj. fold (split_dots nm) in Hj.
  pose proof (split_by_pieces (N.eqb 46) nm) as Hp. fold (split_dots nm) in Hp.
  destruct (split_by_cons (N.eqb 46) nm) as (w & ws & E). fold (split_dots nm) in E.
  rewrite E in *. assert (Hws : ws <> []).
  { intros ->. cbn [join] in Hj. subst w. apply Forall_cons_iff in Hp as (Hp & _).
    apply existsb_exists in Hdot as (x & Hx & He). rewrite Forall_forall in Hp.
    specialize (Hp x Hx). cbv beta in Hp. congruence. }
  assert (Hsplit : w :: ws = removelast (w :: ws) ++ [last (w :: ws) []])
    by (apply app_removelast_last; discriminate).
  assert (Hr : removelast (w :: ws) <> []).
  { destruct ws; [congruence|]. cbn [removelast]. discriminate. }
  rewrite <- Hj, Hsplit. apply full_name_join; [exact Hr| |].
  - assert (Hpr : Forall (Forall (fun x => x <> 46)) (removelast (w :: ws))).
    { rewrite Hsplit in Hp. apply Forall_app in Hp as (Hp & _). eapply Forall_impl; [|exact Hp].
      intros l Hl. eapply Forall_impl; [|exact Hl]. intros x Hx. cbv beta in Hx.
      apply N.eqb_neq in Hx. congruence. }
    unfold split_dots in Hns. rewrite split_join in Hns by assumption.
    apply Forall_forall. intros x Hx. rewrite forallb_forall in Hns.
    eapply matches_spelt; [apply is_lower_spec|apply ns_char_spec|now apply Hns].
  - eapply matches_spelt; [apply is_upper_spec|apply name_char_spec|exact Hsh].
Qed.

Lemma validate_attribute nm : validate_attribute_name nm = Ok tt -> attribute_name nm.
Proof.
  unfold validate_attribute_name. intros H. apply enforce_ok in H.
  eapply matches_spelt; [|apply name_char_spec|exact H]. cbv beta. intros c Hc.
  apply orb_true_iff in Hc as [Hc|Hc]; [left; now apply is_lower_spec|right; now apply is_upper_spec].
Qed.

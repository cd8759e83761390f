(** Names of files: the parser against the convention. *)
From Coq Require Import String.
From Verif.Base Require Import Prelude Bits.
From Verif.Model Require Import Types Slcan Parser.
From Verif.Spec Require Import ParserSpec GrammarSpec PathSpec.
From Verif.Proofs Require Import ParserText ParserFacts GrammarNumbers GrammarTypes GrammarLines GrammarFacts.
Open Scope list_scope.
Open Scope N_scope.

(** ** Stripping *)
Lemma drop_while_stop {A} (p : A -> bool) a x b : Forall (fun c => p c = true) a -> p x = false ->
  drop_while p (a ++ x :: b) = x :: b.
Proof.
  intros Ha Hx. induction Ha as [|c a Hc Ha IH]; cbn [app drop_while]; [rewrite Hx; reflexivity|]. rewrite Hc. exact IH.
Qed.
Definition solid (p : N -> bool) (s : text) : Prop :=
  (exists x r, s = x :: r /\ p x = false) /\ (exists y q, s = q ++ [y] /\ p y = false).
Lemma strip_around p a s b : Forall (fun c => p c = true) (a ++ b) -> s = [] \/ solid p s ->
  strip p (a ++ s ++ b) = s.
Proof.
  intros H Hs. apply Forall_app in H as (Ha & Hb). unfold strip. destruct Hs as [-> |((x & r & E1 & Hx) & (y & q & E2 & Hy))].
  - cbn [app]. assert (E : drop_while p (a ++ b) = []).
    { assert (Hab : Forall (fun c => p c = true) (a ++ b)) by (apply Forall_app; auto).
      clear -Hab. induction Hab as [|c l Hc Hl IH]; [reflexivity|]. cbn [drop_while]. rewrite Hc. exact IH. }
    rewrite E. reflexivity.
  - rewrite E1 at 1. cbn [app]. rewrite drop_while_stop by assumption.
    change (x :: r ++ b) with ((x :: r) ++ b). rewrite <- E1, E2, rev_app_distr, rev_app_distr. cbn [rev app].
    rewrite drop_while_stop by (try assumption; apply Forall_rev; assumption).
    change (y :: rev q) with ([y] ++ rev q). rewrite rev_app_distr, rev_involutive. reflexivity.
Qed.
Lemma strip_parts p s : exists a b, s = a ++ strip p s ++ b /\ Forall (fun c => p c = true) (a ++ b).
Proof.
  unfold strip. destruct (drop_while_parts p s) as (a & Ea & Ha). set (t := drop_while p s) in *.
  destruct (drop_while_parts p (rev t)) as (b & Eb & Hb). exists a, (rev b). split.
  - rewrite Ea at 1. f_equal. rewrite <- (rev_involutive t) at 1. rewrite Eb at 1. rewrite rev_app_distr. reflexivity.
  - apply Forall_app. split; [exact Ha|apply Forall_rev; exact Hb].
Qed.

(** ** Numbers *)
Lemma signed_plain s z : signed (digits 10) s z -> Forall plain s /\ s <> [].
Proof.
  intros (v & [(H & _)|[(r & -> & H & _)|(r & -> & H & _)]]); apply digits_plain in H; [exact H|..];
    (split; [constructor; [split; [discriminate|split; [discriminate|reflexivity]]|apply H]|discriminate]).
Qed.
Lemma plain_solid s : Forall plain s -> s <> [] -> solid is_ws s.
Proof.
  intros H Hne. destruct s as [|x r]; [congruence|]. split.
  - exists x, r. split; [reflexivity|]. apply Forall_inv in H. apply H.
  - exists (last (x :: r) 0), (removelast (x :: r)). split; [apply app_removelast_last; discriminate|].
    rewrite Forall_forall in H. apply (H (last (x :: r) 0)).
    rewrite (app_removelast_last 0 (l := x :: r)) at 2 by discriminate. apply in_or_app. right. left. reflexivity.
Qed.
Lemma ws_iff (l : text) : Forall (fun c => is_ws c = true) l <-> Forall (fun c => blank c \/ eol c) l.
Proof. split; apply Forall_impl; intros c Hc; apply is_ws_spec; exact Hc. Qed.
Lemma py_int10 s z : py_int 10 s = Ok z <-> decimal_text s z.
Proof.
  assert (Hcore : forall t, (let '(neg, s) := sign_split t in
     match unsigned_int 10 s with Some n => Ok (if neg then - Z.of_N n else Z.of_N n)%Z | None => Err ValueError end) = Ok z <->
     signed (digits 10) t z).
  { intros t. apply (signed_iff (unsigned_int 10) (digits 10)).
    - intros u v. apply scan_digits. lia.
    - intros r v H. destruct (digits_first _ _ _ H) as (c & r' & E & H1 & H2). congruence.
    - intros r v H. destruct (digits_first _ _ _ H) as (c & r' & E & H1 & H2). congruence. }
  specialize (Hcore (strip is_ws s)). change (py_int 10 s = Ok z <-> signed (digits 10) (strip is_ws s) z) in Hcore.
  rewrite Hcore. split.
  - intros H. destruct (strip_parts is_ws s) as (a & b & E & Hab). exists a, (strip is_ws s), b.
    split; [exact E|]. split; [apply ws_iff; exact Hab|exact H].
  - intros (a & core & b & -> & Hab & H). rewrite strip_around; [exact H|apply ws_iff; exact Hab|].
    right. apply signed_plain in H as (H1 & H2). apply plain_solid; assumption.
Qed.
Lemma digit_not_dot base c d : digit_of base c d -> c <> dot.
Proof. unfold digit_of, dot. lia. Qed.
Lemma more_undotted base acc s v : more base acc s v -> undotted s.
Proof.
  unfold undotted. intros H. induction H as [|acc c d s v Hd H IH|acc c d s v Hd H IH].
  - intros [].
  - intros [E|E]; [exact (digit_not_dot _ _ _ Hd E)|exact (IH E)].
  - intros [E|[E|E]]; [discriminate|exact (digit_not_dot _ _ _ Hd E)|exact (IH E)].
Qed.
Lemma decimal_undotted s z : decimal_text s z -> undotted s.
Proof.
  intros (a & core & b & -> & Hab & H). apply Forall_app in Hab as (Ha & Hb).
  assert (Hws : forall l, Forall (fun c => blank c \/ eol c) l -> ~ In dot l).
  { intros l Hl Hi. rewrite Forall_forall in Hl. apply Hl in Hi. unfold blank, eol, dot in Hi. lia. }
  assert (Hc : undotted core).
  { assert (Hd : forall r v, digits 10 r v -> undotted r).
    { intros r v (c & d & r' & -> & Hd & Hm). intros [E|E]; [exact (digit_not_dot _ _ _ Hd E)|exact (more_undotted _ _ _ _ Hm E)]. }
    destruct H as (v & [(H & _)|[(r & -> & H & _)|(r & -> & H & _)]]); apply Hd in H; [exact H|..];
      (intros [E|E]; [discriminate|exact (H E)]). }
  intros Hi. apply in_app_or in Hi as [Hi|Hi]; [exact (Hws _ Ha Hi)|]. apply in_app_or in Hi as [Hi|Hi]; [exact (Hc Hi)|exact (Hws _ Hb Hi)].
Qed.

(** ** Full names *)
Lemma join_flat c x l : join [c] (x :: l) = x ++ flat_map (fun w => c :: w) l.
Proof.
  revert x. induction l as [|y l IH]; intros x; [cbn; symmetry; apply app_nil_r|].
  rewrite join_cons by discriminate. rewrite IH. reflexivity.
Qed.
Lemma full_type_name_parts nm : full_type_name nm <->
  exists ns short, ns <> [] /\ Forall namespace_word ns /\ spelt upper alnum short /\ nm = join [dot] (ns ++ [short]).
Proof.
  split.
  - intros H. induction H as [ns nm Hn Hs|ns nm Hn H (nss & short & Hne & Hns & Hs & ->)].
    + exists [ns], nm. split; [discriminate|]. split; [constructor; [exact Hn|constructor]|]. split; [exact Hs|reflexivity].
    + exists (ns :: nss), short. split; [discriminate|]. split; [constructor; assumption|]. split; [exact Hs|].
      cbn [app]. rewrite join_cons by (destruct nss; discriminate). reflexivity.
  - intros (ns & short & Hne & Hns & Hs & ->). apply full_name_join; assumption.
Qed.
Lemma namespace_word_undotted w : namespace_word w -> undotted w.
Proof.
  intros (c & r & -> & Hc & Hr) [E|E]; [unfold lower, dot in *; lia|]. rewrite Forall_forall in Hr. apply Hr in E.
  unfold lower, digit, underscore, dot in E. lia.
Qed.
Lemma short_undotted w : spelt upper alnum w -> undotted w.
Proof.
  intros (c & r & -> & Hc & Hr) [E|E]; [unfold upper, dot in *; lia|]. rewrite Forall_forall in Hr. apply Hr in E.
  unfold alnum, lower, upper, digit, underscore, dot in E. lia.
Qed.
Lemma undotted_forall w : undotted w -> Forall (fun x => x <> 46) w.
Proof. intros H. apply Forall_forall. intros x Hx ->. exact (H Hx). Qed.
Lemma ns_word_match w : namespace_word w -> matches is_lower ns_char w = true.
Proof.
  apply spelt_matches; unfold is_lower, ns_char, is_lower, is_digit, lower, digit, underscore; intros c Hc; lia.
Qed.
Lemma split_dotted ws : ws <> [] -> Forall undotted ws -> split_dots (join [46] ws) = ws.
Proof. intros Hne H. apply split_join; [exact Hne|]. eapply Forall_impl; [|exact H]. exact undotted_forall. Qed.
Lemma valid_full_iff nm : validate_compound_type_full_name nm = Ok tt <->
  full_type_name nm /\ (length nm <= 80)%nat.
Proof.
  split.
  - intros H. split; [apply validate_full_name; exact H|]. unfold validate_compound_type_full_name in H.
    apply bind_ok in H as (u & _ & H). apply bind_ok in H as (u1 & _ & H). apply bind_ok in H as (u2 & _ & H).
    apply enforce_ok, Nat.leb_le in H. exact H.
  - intros (H & Hlen). apply full_type_name_parts in H as (ns & short & Hne & Hns & Hs & ->).
    assert (Hu : Forall undotted (ns ++ [short])).
    { apply Forall_app. split; [eapply Forall_impl; [|exact Hns]; exact namespace_word_undotted|].
      constructor; [apply short_undotted; exact Hs|constructor]. }
    assert (Es : split_dots (join [dot] (ns ++ [short])) = ns ++ [short]) by (apply split_dotted; [destruct ns; discriminate|exact Hu]).
    unfold validate_compound_type_full_name, validate_namespace_name, namespace_of. rewrite Es, removelast_last, last_last.
    assert (Esub : split_dots (join [46] ns) = ns).
    { apply split_dotted; [exact Hne|]. apply Forall_app in Hu as (Hu & _). exact Hu. }
    rewrite Esub.
    assert (Hlen2 : (length (join [46%N] ns) <= length (join [dot] (ns ++ [short])))%nat).
    { destruct ns as [|x l]; [congruence|]. cbn [app]. unfold dot. rewrite !join_flat, flat_map_app, !app_length. unfold text in *. lia. }
    assert (Hin : In 46 (join [dot] (ns ++ [short]))).
    { destruct ns as [|x l]; [congruence|]. cbn [app]. rewrite join_flat. apply in_or_app. right.
      rewrite flat_map_app. apply in_or_app. right. left. reflexivity. }
    rewrite (proj2 (existsb_exists _ _)) by (exists 46; split; [exact Hin|reflexivity]). cbn [enforce bind].
    rewrite (proj2 (forallb_forall _ _)) by (intros w Hw; apply ns_word_match; rewrite Forall_forall in Hns; auto).
    cbn [enforce bind]. unfold MAX_FULL_TYPE_NAME_LEN.
    rewrite (proj2 (Nat.leb_le _ _)) by lia. cbn [enforce bind].
    assert (Hm : matches is_upper name_char short = true).
    { eapply spelt_matches; [|apply alnum_name_char|exact Hs]. unfold is_upper, upper. intros c Hc. lia. }
    rewrite Hm. cbn [enforce bind]. rewrite (proj2 (Nat.leb_le _ _)) by exact Hlen. reflexivity.
Qed.

(** ** The base name *)
Lemma dotted_join r ws : dotted r ws = join [46] (r :: ws).
Proof. symmetry. apply join_flat. Qed.
Definition item_form (items : list text) (short : text) (v : option (Z * Z)) (id : option Z) : Prop :=
  match id, v with
  | None, None => items = [short; txt "uavcan"]
  | Some z, None => exists i, items = [i; short; txt "uavcan"] /\ decimal_text i z
  | None, Some (x, y) => exists a b, items = [short; a; b; txt "uavcan"] /\ decimal_text a x /\ decimal_text b y
  | Some z, Some (x, y) =>
      exists i a b, items = [i; short; a; b; txt "uavcan"] /\ decimal_text i z /\ decimal_text a x /\ decimal_text b y
  end.
Lemma name_form_items base short v id : undotted short ->
  name_form base short v id <-> item_form (split_dots base) short v id.
Proof.
  intros Hs. assert (Hu : undotted (txt "uavcan")) by (vm_compute; intuition discriminate).
  assert (Hj : forall items, Forall undotted items -> items <> [] -> base = join [46] items <-> split_dots base = items).
  { intros items Hi Hne. split; [intros ->; apply split_dotted; assumption|]. intros <-. symmetry. apply join_split. }
  assert (Hd : forall z s, decimal_text s z -> undotted s) by (intros z s; apply decimal_undotted).
  unfold name_form, item_form.
  match goal with |- (_ /\ ?Q) <-> ?R => enough (HQ : Q <-> R) by (rewrite <- HQ; intuition) end. destruct id as [z|], v as [(x & y)|].
  - split.
    + intros (bf & af & E & (i & -> & Hi) & (a & b & -> & Ha & Hb)). exists i, a, b. split; [|auto].
      apply Hj; [|discriminate|].
      * constructor; [eauto|]. constructor; [exact Hs|]. constructor; [eauto|]. constructor; [eauto|]. constructor; [exact Hu|constructor].
      * rewrite E. cbn [join app]. rewrite <- !app_assoc. reflexivity.
    + intros (i & a & b & E & Hi & Ha & Hb). exists (i ++ [dot]), (dot :: a ++ dot :: b).
      split; [|split; [eauto|exists a, b; auto]]. rewrite <- (join_split 46 base). fold (split_dots base). rewrite E.
      cbn [join app]. rewrite <- !app_assoc. reflexivity.
  - split.
    + intros (bf & af & E & (i & -> & Hi) & ->). exists i. split; [|auto].
      apply Hj; [|discriminate|].
      * constructor; [eauto|]. constructor; [exact Hs|]. constructor; [exact Hu|constructor].
      * rewrite E. cbn [join app]. rewrite <- !app_assoc. reflexivity.
    + intros (i & E & Hi). exists (i ++ [dot]), []. split; [|split; [eauto|reflexivity]].
      rewrite <- (join_split 46 base). fold (split_dots base). rewrite E. cbn [join app]. rewrite <- !app_assoc. reflexivity.
  - split.
    + intros (bf & af & E & -> & (a & b & -> & Ha & Hb)). exists a, b. split; [|auto].
      apply Hj; [|discriminate|].
      * constructor; [exact Hs|]. constructor; [eauto|]. constructor; [eauto|]. constructor; [exact Hu|constructor].
      * rewrite E. cbn [join app]. rewrite <- ?app_assoc. reflexivity.
    + intros (a & b & E & Ha & Hb). exists [], (dot :: a ++ dot :: b).
      split; [|split; [reflexivity|exists a, b; auto]]. rewrite <- (join_split 46 base). fold (split_dots base). rewrite E.
      cbn [join app]. rewrite <- ?app_assoc. reflexivity.
  - split.
    + intros (bf & af & E & -> & ->). apply Hj; [|discriminate|].
      * constructor; [exact Hs|]. constructor; [exact Hu|constructor].
      * rewrite E. reflexivity.
    + intros E. exists [], []. split; [|auto]. rewrite <- (join_split 46 base). fold (split_dots base). rewrite E. reflexivity.
Qed.

Definition read_items (items : list text) : res (option Z * text * option (Z * Z)) :=
  let n := length items in
  _ <- enforce ((Nat.leb 2 n && Nat.leb n 5)%bool && text_eqb (last items []) (txt "uavcan")) ;;
  '(dtid, name) <-
    (if (Nat.eqb n 2 || Nat.eqb n 4)%bool then Ok (None, nth 0 items [])
     else d <- refuse (py_int 10 (nth 0 items [])) ;; Ok (Some d, nth 1 items [])) ;;
  version <-
    (if (Nat.eqb n 2 || Nat.eqb n 3)%bool then Ok None
     else a <- version_number (nth (n - 3) items []) ;;
          b <- version_number (nth (n - 2) items []) ;; Ok (Some (a, b))) ;;
  Ok (dtid, name, version).
Lemma refuse_int s z : refuse (py_int 10 s) = Ok z <-> decimal_text s z.
Proof. rewrite refuse_iff. apply py_int10. Qed.
Lemma version_int s z : version_number s = Ok z <-> decimal_text s z.
Proof. rewrite <- py_int10. unfold version_number. destruct (py_int 10 s); split; congruence. Qed.
Lemma read_items_iff items id short v : read_items items = Ok (id, short, v) <-> item_form items short v id.
Proof.
  unfold item_form. split.
  - unfold read_items. intros H. apply bind_ok in H as (u & He & H). apply enforce_ok in He.
    apply andb_true_iff in He as (Hn & Hl). apply text_eqb_eq in Hl.
    destruct items as [|a [|b [|c [|d [|e [|f r]]]]]]; try discriminate Hn; cbn [length Nat.eqb orb nth Nat.sub last] in H, Hl; subst.
    + cbn [bind] in H. injection H as <- <- <-. reflexivity.
    + apply bind_ok in H as ((i & nm) & Hi & H). apply bind_ok in Hi as (z & Hz & Hi). apply refuse_int in Hz.
      injection Hi as <- <-. cbn [bind] in H. injection H as <- <- <-. eauto.
    + cbn [bind] in H. apply bind_ok in H as (w & Hw & H). apply bind_ok in Hw as (x & Hx & Hw). apply bind_ok in Hw as (y & Hy & Hw).
      apply version_int in Hx, Hy. injection Hw as <-. injection H as <- <- <-. eauto.
    + apply bind_ok in H as ((i & nm) & Hi & H). apply bind_ok in Hi as (z & Hz & Hi). injection Hi as <- <-.
      apply bind_ok in H as (w & Hw & H). apply bind_ok in Hw as (x & Hx & Hw). apply bind_ok in Hw as (y & Hy & Hw).
      apply version_int in Hx, Hy. apply refuse_int in Hz. injection Hw as <-. injection H as <- <- <-. eauto 7.
  - intros H. destruct id as [z|], v as [(x & y)|].
    + destruct H as (i & a & b & -> & Hi & Ha & Hb). unfold read_items. cbn [length Nat.leb andb last Nat.eqb orb nth Nat.sub].
      rewrite text_eqb_refl. cbn [enforce bind].
      rewrite (proj2 (refuse_int i z) Hi). cbn [bind]. rewrite (proj2 (version_int a x) Ha). cbn [bind]. rewrite (proj2 (version_int b y) Hb). reflexivity.
    + destruct H as (i & -> & Hi). unfold read_items. cbn [length Nat.leb andb last Nat.eqb orb nth Nat.sub].
      rewrite text_eqb_refl. cbn [enforce bind]. rewrite (proj2 (refuse_int i z) Hi). reflexivity.
    + destruct H as (a & b & -> & Ha & Hb). unfold read_items. cbn [length Nat.leb andb last Nat.eqb orb nth Nat.sub].
      rewrite text_eqb_refl. cbn [enforce bind].
      rewrite (proj2 (version_int a x) Ha). cbn [bind]. rewrite (proj2 (version_int b y) Hb). reflexivity.
    + rewrite H. unfold read_items. cbn [length Nat.leb andb last Nat.eqb orb nth Nat.sub].
      rewrite text_eqb_refl. reflexivity.
Qed.

(** ** Paths *)
Lemma slash_split w : ~ In slash w -> Forall (fun c => N.eqb slash c = false) w.
Proof. intros H. apply Forall_forall. intros x Hx. apply N.eqb_neq. intros <-. exact (H Hx). Qed.
Lemma named_last d r : named d r -> last (split_by (N.eqb slash) d) [] = r.
Proof.
  intros (up & -> & Hr). rewrite split_by_app by reflexivity. rewrite (split_by_none _ r) by (apply slash_split; exact Hr).
  apply last_last.
Qed.
Lemma path_snoc d subs base : path d (subs ++ [base]) = path d subs ++ slash :: base.
Proof. unfold path. rewrite flat_map_app. cbn [flat_map]. rewrite app_nil_r, app_assoc. reflexivity. Qed.
Lemma basename_path d subs base : ~ In slash base -> basename (path d (subs ++ [base])) = base.
Proof. intros H. apply named_last. rewrite path_snoc. eexists. split; [reflexivity|exact H]. Qed.

Lemma prefix_comparable {A} (a b x y : list A) : a ++ x = b ++ y -> exists r, a = b ++ r \/ b = a ++ r.
Proof.
  revert b. induction a as [|c a IH]; intros b H.
  - exists b. right. reflexivity.
  - destruct b as [|c' b]; [exists (c :: a); left; reflexivity|]. cbn [app] in H. injection H as <- H.
    apply IH in H as (r & [->| ->]); exists r; [left|right]; reflexivity.
Qed.
Lemma find_root dirs d rest : roots_ok dirs -> In d dirs ->
  find (fun x => starts_with x (d ++ rest)) dirs = Some d.
Proof.
  intros Hok Hd. destruct (find _ dirs) as [d'|] eqn:E.
  - apply find_some in E as (Hd' & E). apply starts_with_app in E as (r & E).
    apply prefix_comparable in E as (q & [Eq|Eq]).
    + assert (q = []) by (eapply Hok; [exact Hd|exact Hd'|exact Eq]). subst q. rewrite app_nil_r in Eq. congruence.
    + assert (q = []) by (eapply Hok; [exact Hd'|exact Hd|exact Eq]). subst q. rewrite app_nil_r in Eq. congruence.
  - exfalso. pose proof (find_none _ _ E d Hd) as H. cbv beta in H.
    assert (starts_with d (d ++ rest) = true) by (apply starts_with_app; eauto). congruence.
Qed.

Lemma undotted_end p w : undotted w -> w <> [] -> (forall c, p c = (46 =? c)) -> solid p w.
Proof.
  intros Hu Hne Hp. assert (H : forall x, In x w -> p x = false).
  { intros x Hx. rewrite Hp. apply N.eqb_neq. intros <-. exact (Hu Hx). }
  destruct w as [|x r]; [congruence|]. split.
  - exists x, r. split; [reflexivity|]. apply H. left. reflexivity.
  - exists (last (x :: r) 0), (removelast (x :: r)). split; [apply app_removelast_last; discriminate|]. apply H.
    rewrite (app_removelast_last 0 (l := x :: r)) at 2 by discriminate. apply in_or_app. right. left. reflexivity.
Qed.
Lemma dotted_solid p r ws : (forall c, p c = (46 =? c)) -> undotted r -> r <> [] ->
  Forall (fun w => undotted w /\ w <> []) ws -> solid p (dotted r ws).
Proof.
  intros Hp Hr Hne Hws. split.
  - destruct (undotted_end p r Hr Hne Hp) as ((x & q & -> & Hx) & _). unfold dotted. cbn [app]. eauto.
  - destruct ws as [|w ws'] using rev_ind.
    + unfold dotted. cbn [flat_map]. rewrite app_nil_r. exact (proj2 (undotted_end p r Hr Hne Hp)).
    + apply Forall_app in Hws as (_ & Hw). apply Forall_inv in Hw as (Hw & Hwn).
      destruct (undotted_end p w Hw Hwn Hp) as (_ & (y & q & -> & Hy)).
      exists y. unfold dotted. rewrite flat_map_app. cbn [flat_map]. rewrite app_nil_r.
      exists (r ++ flat_map (fun w => dot :: w) ws' ++ dot :: q). split; [|exact Hy].
      rewrite <- !app_assoc. reflexivity.
Qed.

Lemma undash subs : Forall directory subs ->
  map (fun c => if c =? slash then 46 else c) (flat_map (fun w => slash :: w) subs) = flat_map (fun w => dot :: w) subs.
Proof.
  intros H. induction H as [|w subs (_ & Hw) H IH]; [reflexivity|]. cbn [flat_map map app]. rewrite N.eqb_refl, map_app, IH.
  f_equal. f_equal. rewrite <- (map_id w) at 2. apply map_ext_in. intros c Hc.
  destruct (N.eqb_spec c slash) as [->|_]; [contradiction|reflexivity].
Qed.

Section Paths.
  Variable dirs : list text.
  Hypothesis Hok : roots_ok dirs.
  Variables (d r : text) (subs : list text).
  Hypothesis Hd : In d dirs.
  Hypothesis Hr : named d r.
  Hypothesis Hru : undotted r.
  Hypothesis Hrn : r <> [].
  Hypothesis Hsubs : Forall (fun w => directory w /\ undotted w) subs.

  Lemma namespace_path base : ~ In slash base ->
    namespace_from_filename dirs (path d (subs ++ [base])) =
    (_ <- validate_namespace_name (dotted r subs) ;; Ok (dotted r subs)).
  Proof.
    intros Hb. unfold namespace_from_filename. rewrite basename_path by exact Hb.
    unfold path at 1. rewrite (find_root dirs d _ Hok Hd). cbv zeta. rewrite (named_last d r Hr).
    set (mid := firstn _ _).
    assert (Em : mid = flat_map (fun w => slash :: w) subs ++ [slash]).
    { subst mid. unfold path. rewrite flat_map_app. cbn [flat_map]. rewrite app_nil_r.
      rewrite skipn_app, skipn_all, Nat.sub_diag. cbn [app skipn].
      change (slash :: base) with ([slash] ++ base). rewrite (app_assoc _ [slash] base).
      rewrite (app_length d), (app_length _ base).
      match goal with |- firstn ?k (?a ++ base) = _ => replace k with (length a) by lia end.
      rewrite firstn_app, Nat.sub_diag, firstn_all. cbn [firstn]. apply app_nil_r. }
    rewrite Em, map_app, undash by (eapply Forall_impl; [|exact Hsubs]; intros w Hw; apply Hw).
    change (map _ [slash]) with [46].
    assert (Hfun : forall c, N.eqb 46 c = (46 =? c)) by reflexivity.
    assert (Hs2 : Forall (fun w => undotted w /\ w <> []) subs).
    { eapply Forall_impl; [|exact Hsubs]. intros w ((H1 & _) & H2). auto. }
    assert (Ens : strip_dots (r ++ [46] ++ strip_dots (flat_map (fun w => dot :: w) subs ++ [46])) = dotted r subs).
    { destruct subs as [|s1 ss] eqn:Es.
      - change (flat_map (fun w => dot :: w) [] ++ [46]) with [46]. change (strip_dots [46]) with (@nil N).
        pose proof (strip_around (N.eqb 46) [] r [46]) as H. cbn [app] in H |- *. unfold strip_dots. rewrite H.
        + unfold dotted. cbn [flat_map]. symmetry. apply app_nil_r.
        + constructor; [reflexivity|constructor].
        + right. apply undotted_end; auto.
      - assert (E1 : strip_dots (flat_map (fun w => dot :: w) (s1 :: ss) ++ [46]) = dotted s1 ss).
        { unfold strip_dots. cbn [flat_map]. pose proof (strip_around (N.eqb 46) [46] (dotted s1 ss) [46]) as H.
          unfold dotted in H at 1. cbn [app] in H |- *. unfold dot at 1. apply H.
          - constructor; [reflexivity|constructor; [reflexivity|constructor]].
          - right. apply Forall_cons_iff in Hs2 as ((H1 & H2) & H3). apply dotted_solid; auto. }
        rewrite E1. change (r ++ [46] ++ dotted s1 ss) with (dotted r (s1 :: ss)).
        pose proof (strip_around (N.eqb 46) [] (dotted r (s1 :: ss)) []) as H. cbn [app] in H. rewrite app_nil_r in H.
        apply H; [constructor|]. right. apply dotted_solid; auto. }
    rewrite Ens. reflexivity.
  Qed.

  Lemma name_path base full v id : ~ In slash base ->
    name_from_filename dirs (path d (subs ++ [base])) = Ok (full, v, id) <->
    exists short, name_form base short v id /\ full = dotted r (subs ++ [short]) /\
      full_type_name full /\ (length full <= 80)%nat.
  Proof.
    intros Hb.
    assert (E : name_from_filename dirs (path d (subs ++ [base])) =
      ('(id, short, v) <- read_items (split_dots base) ;;
       ns <- namespace_from_filename dirs (path d (subs ++ [base])) ;;
       let full := ns ++ [46] ++ short in
       _ <- validate_compound_type_full_name full ;; Ok (full, v, id))).
    { unfold name_from_filename, read_items. rewrite basename_path by exact Hb. cbv zeta.
      destruct (enforce _) as [u|e]; [|reflexivity]. cbn [bind].
      match goal with |- context [bind ?m _] => destruct m as [(i & nm)|e]; [|reflexivity] end. cbn [bind].
      match goal with |- context [bind ?m _] => destruct m as [w|e]; reflexivity end. }
    rewrite E, namespace_path by exact Hb.
    assert (Edot : forall short, dotted r subs ++ [46] ++ short = dotted r (subs ++ [short])).
    { intros short. unfold dotted. rewrite flat_map_app. cbn [flat_map]. rewrite app_nil_r, <- app_assoc. reflexivity. }
    split.
    - intros H. apply bind_ok in H as (((i & short) & w) & Hi & H). apply bind_ok in H as (ns & Hns & H).
      apply bind_ok in Hns as (u & _ & Hns). injection Hns as <-. cbv zeta in H. rewrite Edot in H.
      apply bind_ok in H as ([] & Hv & H). injection H as <- <- <-. apply valid_full_iff in Hv as Hv'. exists short.
      apply read_items_iff in Hi. split; [|split; [reflexivity|exact Hv']].
      apply name_form_items; [|exact Hi]. unfold item_form in Hi.
      destruct i as [z|], w as [(x & y)|].
      + destruct Hi as (i' & a & b & Hi & _). pose proof (split_dots_piece base 1) as Hp. rewrite Hi in Hp. exact Hp.
      + destruct Hi as (i' & Hi & _). pose proof (split_dots_piece base 1) as Hp. rewrite Hi in Hp. exact Hp.
      + destruct Hi as (a & b & Hi & _). pose proof (split_dots_piece base 0) as Hp. rewrite Hi in Hp. exact Hp.
      + pose proof (split_dots_piece base 0) as Hp. rewrite Hi in Hp. exact Hp.
    - intros (short & Hf & -> & Hfull & Hlen).
      assert (Hv : validate_compound_type_full_name (dotted r (subs ++ [short])) = Ok tt) by (apply valid_full_iff; auto).
      assert (Hsu : undotted short) by apply Hf.
      apply name_form_items, read_items_iff in Hf; [|exact Hsu]. rewrite Hf. cbn [bind].
      assert (Hns : validate_namespace_name (dotted r subs) = Ok tt).
      { unfold validate_compound_type_full_name in Hv. apply bind_ok in Hv as (u & _ & Hv). apply bind_ok in Hv as ([] & Hv & _).
        assert (En : namespace_of (dotted r (subs ++ [short])) = dotted r subs).
        { unfold namespace_of. rewrite !dotted_join. change (r :: subs ++ [short]) with ((r :: subs) ++ [short]).
          rewrite split_dotted; [rewrite removelast_last; reflexivity|discriminate|].
          apply Forall_app. split; [|constructor; [exact Hsu|constructor]]. constructor; [exact Hru|].
          eapply Forall_impl; [|exact Hsubs]. intros w Hw. apply Hw. }
        rewrite En in Hv. exact Hv. }
      rewrite Hns. cbn [bind]. cbv zeta. rewrite Edot. unfold text in *. rewrite Hv. reflexivity.
  Qed.
End Paths.

(** ** Looking for a definition *)
Section Look.
  Variable dirs : list text.
  Variable listdir : text -> option (list text).
  Variable read : text -> option text.
  Hypothesis Hok : roots_ok dirs.
  Hypothesis Hdirs : Forall (fun d => exists r, named d r) dirs.
  Hypothesis Hlist : forall dir names base, listdir dir = Some names -> In base names -> ~ In slash base.
  Notation locate_any := (locate_any dirs listdir read).
  Notation locate := (locate dirs listdir read).

  Lemma word_directory w : namespace_word w -> directory w.
  Proof.
    intros (c & r & -> & Hc & Hr). split; [discriminate|]. intros [E|E]; [unfold lower, slash in *; lia|].
    rewrite Forall_forall in Hr. apply Hr in E. unfold lower, digit, underscore, slash in E. lia.
  Qed.
  Lemma full_parts full : full_type_name full ->
    exists r subs short, full = dotted r (subs ++ [short]) /\ Forall namespace_word (r :: subs) /\ spelt upper alnum short /\
      split_dots full = (r :: subs) ++ [short].
  Proof.
    intros H. apply full_type_name_parts in H as (ns & short & Hne & Hns & Hs & ->). destruct ns as [|r subs]; [congruence|].
    exists r, subs, short. split; [symmetry; apply dotted_join|]. split; [exact Hns|]. split; [exact Hs|].
    apply split_dotted; [discriminate|]. apply Forall_app. split; [|constructor; [apply short_undotted; exact Hs|constructor]].
    eapply Forall_impl; [|exact Hns]. exact namespace_word_undotted.
  Qed.
  Lemma named_iff d r : In d dirs -> named d r <-> last (split_by (N.eqb slash) d) [] = r.
  Proof.
    intros Hd. rewrite Forall_forall in Hdirs. destruct (Hdirs d Hd) as (r' & Hr'). rewrite (named_last d r' Hr').
    split; [|intros <-; exact Hr']. intros H. apply named_last in H. apply named_last in Hr'. congruence.
  Qed.

  Definition hit (full dir fn : text) : Prop :=
    exists names base v id, listdir dir = Some names /\ In base names /\ fn = dir ++ slash :: base /\
      read fn <> None /\ name_from_filename dirs fn = Ok (full, v, id).
  Lemma locate_in_some full dir fn : locate_in dirs listdir read full dir = Some fn -> hit full dir fn.
  Proof.
    unfold locate_in, hit. destruct (listdir dir) as [names|]; [|discriminate]. intros E.
    apply find_some in E as (Hi & E). apply in_map_iff in Hi as (base & <- & Hb). cbn [app] in *.
    destruct (read (dir ++ slash :: base)) eqn:Er; [|discriminate].
    destruct (name_from_filename dirs (dir ++ slash :: base)) as [((f & v) & i)|] eqn:En; [|discriminate].
    apply text_eqb_eq in E. subst f. exists names, base, v, i.
    split; [reflexivity|]. split; [exact Hb|]. split; [reflexivity|]. split; [congruence|reflexivity].
  Qed.
  Lemma locate_in_none full dir fn : locate_in dirs listdir read full dir = None -> ~ hit full dir fn.
  Proof.
    unfold locate_in. intros Hnone (names & base & v & i & E & Hb & -> & Hr & Hn). rewrite E in Hnone.
    pose proof (find_none _ _ Hnone (dir ++ [slash] ++ base)) as H. cbv beta in H. cbn [app] in H.
    rewrite Hn, text_eqb_refl in H. destruct (read (dir ++ slash :: base)); [|congruence].
    assert (true = false); [|discriminate]. apply H. apply in_map_iff. exists base. auto.
  Qed.
  Lemma locate_any_some full ds fn : locate_any full ds = Some fn -> exists dir, In dir ds /\ hit full dir fn.
  Proof.
    induction ds as [|d ds IH]; [discriminate|]. cbn [Parser.locate_any].
    destruct (locate_in dirs listdir read full d) as [fn1|] eqn:E.
    - intros H. injection H as ->. exists d. split; [left; reflexivity|]. apply locate_in_some. exact E.
    - intros H. apply IH in H as (dir & Hd & H). exists dir. split; [right; exact Hd|exact H].
  Qed.
  Lemma locate_any_none full ds dir fn : locate_any full ds = None -> In dir ds -> ~ hit full dir fn.
  Proof.
    induction ds as [|d ds IH]; [intros _ []|]. cbn [Parser.locate_any].
    destruct (locate_in dirs listdir read full d) as [fn1|] eqn:E; [discriminate|].
    intros H [->|Hd]; [apply locate_in_none; exact E|]. apply IH; assumption.
  Qed.

  Lemma resolve fn own v id t full : name_from_filename dirs fn = Ok (own, v, id) -> refers own t full ->
    (if existsb (N.eqb 46) t then Ok t
     else ns <- namespace_from_filename dirs fn ;; Ok (ns ++ [46] ++ t)) = Ok full.
  Proof.
    intros Hn Href. destruct (own_name dirs fn own v id Hn) as (ns & short & Hns & Ef & Hs).
    destruct Href as [(Hd & ->)|(Hd & ns' & short' & Eo & Hs' & ->)].
    - rewrite (proj2 (existsb_exists _ _)); [reflexivity|]. exists 46. split; [exact Hd|reflexivity].
    - destruct (existsb (N.eqb 46) t) eqn:E.
      { apply existsb_exists in E as (x & Hx & E). apply N.eqb_eq in E. subst x. contradiction. }
      rewrite Hns. cbn [bind]. assert (ns = ns'); [|subst; reflexivity].
      rewrite Ef in Eo. clear -Eo Hs Hs'. revert ns' Eo. induction ns as [|c ns IH]; intros [|c' ns'] E; [reflexivity|..].
      + cbn [app] in E. injection E as _ E. exfalso. apply Hs. rewrite E. apply in_or_app. right. left. reflexivity.
      + cbn [app] in E. injection E as _ E. exfalso. apply Hs'. rewrite <- E. apply in_or_app. right. left. reflexivity.
      + cbn [app] in E. injection E as <- E. f_equal. apply IH. exact E.
  Qed.

  Lemma hit_full full dir fn : hit full dir fn -> full_type_name full /\ (length full <= 80)%nat.
  Proof.
    intros (names & base & v & i & _ & _ & _ & _ & Hn). unfold name_from_filename in Hn.
    apply bind_ok in Hn as (u & _ & Hn). apply bind_ok in Hn as ((a & b) & _ & Hn). apply bind_ok in Hn as (w & _ & Hn).
    apply bind_ok in Hn as (ns & _ & Hn). cbv zeta in Hn. apply bind_ok in Hn as ([] & Hv & Hn). injection Hn as <- _ _.
    apply valid_full_iff. exact Hv.
  Qed.

  Lemma places full dir fn r subs short :
    full = dotted r (subs ++ [short]) -> Forall namespace_word (r :: subs) -> undotted short ->
    forall d, In d dirs -> named d r -> dir = path d subs -> hit full dir fn -> place dirs listdir read full fn.
  Proof.
    intros Ef Hns Hsh d Hd Hr Edir H. pose proof (hit_full _ _ _ H) as (Hfull & Hlen).
    destruct H as (names & base & v & i & El & Hb & Efn & Hrd & Hn). subst dir. rewrite Efn, <- path_snoc in Hn.
    apply Forall_cons_iff in Hns as (Hr1 & Hsubs).
    assert (Hs2 : Forall (fun w => directory w /\ undotted w) subs).
    { eapply Forall_impl; [|exact Hsubs]. intros w Hw. split; [apply word_directory|apply namespace_word_undotted]; exact Hw. }
    apply (name_path dirs Hok d r subs) in Hn; try assumption.
    - destruct Hn as (short' & Hf & Ef' & _). exists d, r, subs, short', base, names, v, i.
      split; [exact Hd|]. split; [exact Hr|]. split; [apply namespace_word_undotted; exact Hr1|]. split; [exact Hs2|].
      split; [exact Ef'|]. split; [rewrite path_snoc; exact Efn|]. split; [exact Hf|]. split; [exact El|]. split; [exact Hb|exact Hrd].
    - apply namespace_word_undotted. exact Hr1.
    - apply word_directory in Hr1. apply Hr1.
    - eapply Hlist; eassumption.
  Qed.

  Theorem locate_found fn own v id t full fn' : name_from_filename dirs fn = Ok (own, v, id) -> refers own t full ->
    locate fn t = Ok fn' -> place dirs listdir read full fn' /\ full_type_name full /\ (length full <= 80)%nat.
  Proof.
    intros Hn Href H. unfold Parser.locate in H. rewrite (resolve fn own v id t full Hn Href) in H. cbn [bind] in H. cbv zeta in H.
    set (ds := map _ _) in H.
    assert (Hl : locate_any full ds = Some fn').
    { destruct ds as [|d0 ds']; [discriminate|]. destruct (locate_any full (d0 :: ds')) as [f|]; [|discriminate]. congruence. }
    apply locate_any_some in Hl as (dir & Hin & Hhit). pose proof (hit_full _ _ _ Hhit) as (Hfull & Hlen).
    split; [|auto]. destruct (full_parts full Hfull) as (r & subs & short & Ef & Hns & Hs & Esp).
    subst ds. rewrite Esp, removelast_last in Hin. cbn [tl hd] in Hin.
    apply in_map_iff in Hin as (d & Edir & Hin). apply filter_In in Hin as (Hd & Er). apply text_eqb_eq in Er.
    eapply places; [exact Ef|exact Hns|apply short_undotted; exact Hs|exact Hd|apply named_iff; [exact Hd|exact Er]| |exact Hhit].
    rewrite <- Edir. apply join_flat.
  Qed.

  Theorem locate_finds fn own v id t full fn0 : name_from_filename dirs fn = Ok (own, v, id) -> refers own t full ->
    full_type_name full -> (length full <= 80)%nat -> place dirs listdir read full fn0 -> exists fn', locate fn t = Ok fn'.
  Proof.
    intros Hn Href Hfull Hlen (d & r & subs & short & base & names & v0 & i0 & Hd & Hr & Hru & Hsubs & Ef & Efn & Hf & El & Hb & Hrd).
    unfold Parser.locate. rewrite (resolve fn own v id t full Hn Href). cbn [bind]. cbv zeta. set (ds := map _ _).
    assert (Esp : split_dots full = (r :: subs) ++ [short]).
    { rewrite Ef, dotted_join. change (r :: subs ++ [short]) with ((r :: subs) ++ [short]). apply split_dotted; [discriminate|].
      apply Forall_app. split; [|constructor; [apply Hf|constructor]]. constructor; [exact Hru|].
      eapply Forall_impl; [|exact Hsubs]. intros w Hw. apply Hw. }
    assert (Hrn : r <> []).
    { destruct (full_parts full Hfull) as (r' & subs' & short' & _ & Hns & _ & Esp'). rewrite Esp in Esp'. cbn [app] in Esp'.
      injection Esp' as <- _. apply Forall_inv, word_directory in Hns. apply Hns. }
    assert (Hin : In (path d subs) ds).
    { subst ds. rewrite Esp, removelast_last. cbn [tl hd]. apply in_map_iff. exists d. split; [apply join_flat|].
      apply filter_In. split; [exact Hd|]. apply text_eqb_eq. apply named_last. exact Hr. }
    assert (Hhit : hit full (path d subs) fn0).
    { exists names, base, v0, i0. split; [exact El|]. split; [exact Hb|]. split; [rewrite <- path_snoc; exact Efn|]. split; [exact Hrd|].
      rewrite Efn. apply name_path with (r := r); try assumption; [eapply Hlist; eassumption|]. exists short. auto. }
    destruct (locate_any full ds) as [f|] eqn:E.
    - exists f. destruct ds; [destruct Hin|reflexivity].
    - exfalso. exact (locate_any_none _ _ _ _ E Hin Hhit).
  Qed.
End Look.

Lemma same_place dirs d r subs base d' r' subs' base' full v id v' id' :
  roots_ok dirs -> In d dirs -> In d' dirs -> named d r -> named d' r' -> r <> [] -> r' <> [] -> undotted r -> undotted r' ->
  Forall (fun w => directory w /\ undotted w) subs -> Forall (fun w => directory w /\ undotted w) subs' ->
  ~ In slash base -> ~ In slash base' ->
  name_from_filename dirs (path d (subs ++ [base])) = Ok (full, v, id) ->
  name_from_filename dirs (path d' (subs' ++ [base'])) = Ok (full, v', id') ->
  r = r' /\ subs = subs' /\ exists short, name_form base short v id /\ name_form base' short v' id'.
Proof.
  intros Hok Hd Hd' Hr Hr' Hn Hn' Hu Hu' Hs Hs' Hb Hb' H H'.
  apply (name_path dirs Hok d r subs) in H; try assumption. apply (name_path dirs Hok d' r' subs') in H'; try assumption.
  destruct H as (short & Hf & E & _), H' as (short' & Hf' & E' & _). rewrite E in E'. rewrite !dotted_join in E'.
  apply (f_equal split_dots) in E'.
  assert (Hx : forall r subs short, undotted r -> Forall (fun w => directory w /\ undotted w) subs -> undotted short ->
    split_dots (join [46] (r :: subs ++ [short])) = r :: subs ++ [short]).
  { clear. intros r subs short Hr Hs Hsh. apply split_dotted; [discriminate|]. constructor; [exact Hr|].
    apply Forall_app. split; [|constructor; [exact Hsh|constructor]]. eapply Forall_impl; [|exact Hs]. intros w Hw. apply Hw. }
  rewrite !Hx in E'; try assumption; [|apply Hf'|apply Hf].
  assert (Er : r = r') by congruence. assert (El : subs ++ [short] = subs' ++ [short']) by congruence.
  apply app_inj_tail in El as (-> & ->). split; [exact Er|]. split; [reflexivity|]. eauto.
Qed.

(** The normalised definition determines the layout. *)
From Coq Require Import String.
From Verif.Base Require Import Prelude Bits.
From Verif.Model Require Import Types Prim Float Slcan Parser.
From Verif.Spec Require Import ParserSpec.
From Verif.Proofs Require Import ParserText ParserFacts.
Open Scope list_scope.
Open Scope N_scope.

(** ** Runs of characters *)

Definition stops (p : N -> bool) (r : text) : Prop := forall c r', r = c :: r' -> p c = false.
Lemma span_eq p (a b r s : text) :
  Forall (fun c => p c = true) a -> Forall (fun c => p c = true) b -> stops p r -> stops p s ->
  a ++ r = b ++ s -> a = b /\ r = s.
Proof.
  intros Ha. revert b. induction Ha as [|x a Hx Ha IH]; intros b Hb Hr Hs E.
  - destruct b as [|y b]; [now split|]. cbn [app] in E. apply Forall_cons_iff in Hb as (Hy & _).
    rewrite (Hr y (b ++ s) E) in Hy. discriminate.
  - destruct b as [|y b].
    + cbn [app] in E. rewrite (Hs x (a ++ r) (eq_sym E)) in Hx. discriminate.
    + cbn [app] in E. injection E as <- E. apply Forall_cons_iff in Hb as (_ & Hb).
      destruct (IH b Hb Hr Hs E) as (-> & ->). now split.
Qed.
Lemma stops_nil p : stops p [].
Proof. intros c r. discriminate. Qed.
Lemma stops_cons p c r : p c = false -> stops p (c :: r).
Proof. intros H c' r' E. injection E as <- <-. exact H. Qed.

(** ** Decimal numbers *)

Definition dval (s : text) : N := fold_left (fun a c => 10 * a + (c - 48)) s 0.
Lemma decimal_aux_spec f n acc : n < 10 ^ N.of_nat f -> (0 < f)%nat ->
  exists ds, decimal_aux f n acc = ds ++ acc /\ ds <> [] /\ Forall (fun c => is_digit c = true) ds /\ dval ds = n.
Proof.
  revert n acc. induction f as [|f IH]; intros n acc Hn Hf; [lia|]. cbn [decimal_aux].
  assert (Hd : is_digit (decimal_digit (n mod 10)) = true) by (unfold is_digit, decimal_digit; lia).
  destruct (N.eqb_spec (n / 10) 0) as [E|E].
  - exists [decimal_digit (n mod 10)]. split; [reflexivity|]. split; [discriminate|].
    split; [constructor; [exact Hd|constructor]|]. unfold dval, decimal_digit. cbn [fold_left]. lia.
  - destruct f as [|f]; [change (10 ^ N.of_nat 1) with 10 in Hn; lia|].
    destruct (IH (n / 10) (decimal_digit (n mod 10) :: acc)) as (ds & E1 & E2 & E3 & E4); [|lia|].
    { replace (N.of_nat (S (S f))) with (N.succ (N.of_nat (S f))) in Hn by lia. rewrite N.pow_succ_r' in Hn.
      remember (10 ^ N.of_nat (S f)) as q. lia. }
    exists (ds ++ [decimal_digit (n mod 10)]). split; [rewrite E1, <- app_assoc; reflexivity|].
    split; [destruct ds; discriminate|]. split; [apply Forall_app; split; [exact E3|constructor; [exact Hd|constructor]]|].
    unfold dval in *. rewrite fold_left_app, E4. cbn [fold_left]. unfold decimal_digit. lia.
Qed.
Lemma decimal_spec n : decimal n <> [] /\ Forall (fun c => is_digit c = true) (decimal n) /\ dval (decimal n) = n.
Proof.
  unfold decimal. destruct (decimal_aux_spec (S (N.to_nat (N.size n))) n []) as (ds & E & H1 & H2 & H3); [|lia|].
  - apply N.lt_le_trans with (2 ^ N.size n).
    + destruct (N.eq_dec n 0) as [->|Hn]; [reflexivity|]. rewrite N.size_log2 by exact Hn.
      apply N.log2_spec. lia.
    + transitivity (2 ^ N.of_nat (S (N.to_nat (N.size n)))).
      * apply N.pow_le_mono_r; lia.
      * apply N.pow_le_mono_l. lia.
  - rewrite E, app_nil_r. auto.
Qed.
Lemma decimal_eq a b r s : stops is_digit r -> stops is_digit s -> decimal a ++ r = decimal b ++ s -> a = b /\ r = s.
Proof.
  intros Hr Hs E. destruct (decimal_spec a) as (_ & Ha & Va), (decimal_spec b) as (_ & Hb & Vb).
  destruct (span_eq _ _ _ _ _ Ha Hb Hr Hs E) as (E1 & E2). split; [congruence|exact E2].
Qed.

(** ** Types *)

(** The characters of names. *)
Definition wordy (c : N) : bool := name_char c || (c =? 46).
Lemma digits_wordy s : Forall (fun c => is_digit c = true) s -> Forall (fun c => wordy c = true) s.
Proof. intros H. eapply Forall_impl; [|exact H]. unfold wordy, name_char. cbv beta. intros c Hc. rewrite Hc. lia. Qed.
Lemma alnum_wordy c : alnum c -> wordy c = true.
Proof. unfold alnum, wordy, name_char, is_lower, is_upper, is_digit, lower, upper, digit, underscore. lia. Qed.

Lemma full_name_chars nm : full_type_name nm ->
  Forall (fun c => wordy c = true) nm /\ In 46 nm /\ exists c r, nm = c :: r /\ lower c.
Proof.
  assert (Hns : forall ns, namespace_word ns -> Forall (fun c => wordy c = true) ns /\ exists c r, ns = c :: r /\ lower c).
  { intros ns (c & r & -> & Hc & Hr). split; [|eauto]. constructor; [apply alnum_wordy; now left|].
    eapply Forall_impl; [|exact Hr]. intros x Hx. apply alnum_wordy. unfold alnum. cbv beta in Hx. tauto. }
  intros H. assert (Hrest : forall ns r, namespace_word ns -> Forall (fun c => wordy c = true) r ->
    Forall (fun c => wordy c = true) (ns ++ dot :: r) /\ In 46 (ns ++ dot :: r) /\ exists c q, ns ++ dot :: r = c :: q /\ lower c).
  { intros ns r Hn Hr. destruct (Hns ns Hn) as (H1 & c & q & -> & Hc). split.
    - apply Forall_app. split; [exact H1|]. constructor; [reflexivity|exact Hr].
    - split; [apply in_or_app; right; now left|]. exists c, (q ++ dot :: r). now split. }
  induction H as [ns nm Hn (c & r & -> & Hc & Hr)|ns nm Hn Hm IH].
  - apply Hrest; [exact Hn|]. constructor; [apply alnum_wordy; right; now left|].
    eapply Forall_impl; [|exact Hr]. intros x. apply alnum_wordy.
  - apply Hrest; [exact Hn|apply IH].
Qed.

Definition kind_text (k : kind) (n : nat) : text :=
  match k with
  | KBool => txt "bool"
  | KUint => txt "uint" ++ decimal (N.of_nat n)
  | KInt => txt "int" ++ decimal (N.of_nat n)
  | KFloat => txt "float" ++ decimal (N.of_nat n)
  end.
Lemma wordy_txt w : forallb wordy (txt w) = true -> Forall (fun c => wordy c = true) (txt w).
Proof. intros H. apply Forall_forall. intros x Hx. rewrite forallb_forall in H. auto. Qed.
Lemma kind_text_wordy k n : Forall (fun c => wordy c = true) (kind_text k n).
Proof.
  pose proof (digits_wordy _ (proj1 (proj2 (decimal_spec (N.of_nat n))))) as H.
  destruct k; cbn [kind_text]; try (apply Forall_app; split; [|exact H]); apply wordy_txt; reflexivity.
Qed.
Lemma decimal_inj a b : decimal a = decimal b -> a = b.
Proof.
  intros E. apply (decimal_eq a b [] []); try apply stops_nil. now rewrite !app_nil_r.
Qed.
Lemma kind_text_eq k n k' n' cm cm' : legal_type (QPrim k n cm) -> legal_type (QPrim k' n' cm') ->
  kind_text k n = kind_text k' n' -> k = k' /\ n = n'.
Proof.
  intros H H' E. destruct k, k'; cbn [kind_text] in E; try discriminate E.
  - split; [reflexivity|]. inversion H; inversion H'; subst; try reflexivity; intuition discriminate.
  - apply app_inv_head, decimal_inj in E. split; [reflexivity|lia].
  - apply app_inv_head, decimal_inj in E. split; [reflexivity|lia].
  - apply app_inv_head, decimal_inj in E. split; [reflexivity|lia].
Qed.

Definition cast_text (cm : cast_mode) : text :=
  match cm with Saturated => txt "saturated" | Truncated => txt "truncated" end.
Lemma normalized_prim k n cm : normalized (QPrim k n cm) = cast_text cm ++ 32 :: kind_text k n.
Proof. reflexivity. Qed.
Lemma cast_wordy cm : Forall (fun c => wordy c = true) (cast_text cm).
Proof. destruct cm; apply wordy_txt; reflexivity. Qed.

Definition void_text (n : nat) : text := txt "void" ++ decimal (N.of_nat n).
Lemma void_wordy n : Forall (fun c => wordy c = true) (void_text n).
Proof.
  apply Forall_app. split; [apply wordy_txt; reflexivity|].
  apply digits_wordy, decimal_spec.
Qed.
Lemma void_no_dot n : ~ In 46 (void_text n).
Proof.
  intros H. apply in_app_or in H as [H|H].
  - revert H. change (txt "void") with [118; 111; 105; 100]. cbn [In]. lia.
  - pose proof (proj1 (proj2 (decimal_spec (N.of_nat n)))) as Hd. rewrite Forall_forall in Hd.
    specialize (Hd 46 H). discriminate.
Qed.

Lemma app_cons_assoc (a : text) c b r : (a ++ c :: b) ++ r = a ++ c :: (b ++ r).
Proof. now rewrite <- app_assoc. Qed.

(** Types that are not arrays. *)
Lemma base_eq t t' r r' : legal_type t -> legal_type t' -> ~ is_array t -> ~ is_array t' ->
  stops wordy r -> stops wordy r' ->
  normalized t ++ r = normalized t' ++ r' -> same_type t t' /\ r = r'.
Proof.
  intros L L' A A' Hr Hr' E.
  assert (Hspace : forall q, stops wordy (32 :: q)) by (intros q; apply stops_cons; reflexivity).
  assert (Hname : forall w, ~ In 46 w -> Forall (fun c => wordy c = true) w ->
            forall nm, full_type_name nm -> w <> nm).
  { intros w Hw _ nm Hn ->. apply Hw. now apply full_name_chars. }
  assert (Hcast : forall cm, ~ In 46 (cast_text cm)).
  { intros cm H. destruct cm; revert H; vm_compute; intuition discriminate. }
  destruct t as [k n cm|n|d e m|nm u fs ov]; [| |exfalso; apply A; unfold is_array; eauto|];
  destruct t' as [k' n' cm'|n'|d' e' m'|nm' u' fs' ov']; try (exfalso; apply A'; unfold is_array; eauto; fail);
  rewrite ?normalized_prim, ?app_cons_assoc in E;
  try change (normalized (QVoid n)) with (void_text n) in E;
  try change (normalized (QVoid n')) with (void_text n') in E;
  try change (normalized (QMsg nm u fs ov)) with nm in E;
  try change (normalized (QMsg nm' u' fs' ov')) with nm' in E;
  try (assert (Hnm : full_type_name nm) by (inversion L; assumption); pose proof (proj1 (full_name_chars _ Hnm)) as Hw);
  try (assert (Hnm' : full_type_name nm') by (inversion L'; assumption); pose proof (proj1 (full_name_chars _ Hnm')) as Hw').
  - apply (span_eq wordy) in E as (E1 & E2); auto using cast_wordy.
    assert (cm = cm') by (destruct cm, cm'; try reflexivity; discriminate E1). subst cm'.
    injection E2 as E2. apply (span_eq wordy) in E2 as (E2 & ->); auto using kind_text_wordy.
    destruct (kind_text_eq _ _ _ _ _ _ L L' E2) as (-> & ->). split; [constructor|reflexivity].
  - apply (span_eq wordy) in E as (E1 & E2); auto using cast_wordy, void_wordy. destruct cm; discriminate E1.
  - apply (span_eq wordy) in E as (E1 & E2); auto using cast_wordy.
    exfalso. exact (Hname _ (Hcast cm) (cast_wordy cm) _ Hnm' E1).
  - apply (span_eq wordy) in E as (E1 & E2); auto using cast_wordy, void_wordy. destruct cm'; discriminate E1.
  - apply (span_eq wordy) in E as (E1 & ->); auto using void_wordy.
    apply app_inv_head, decimal_inj in E1. assert (n = n') by lia. subst n'. split; [constructor|reflexivity].
  - apply (span_eq wordy) in E as (E1 & E2); auto using void_wordy.
    exfalso. exact (Hname _ (void_no_dot n) (void_wordy n) _ Hnm' E1).
  - apply (span_eq wordy) in E as (E1 & E2); auto using cast_wordy.
    exfalso. exact (Hname _ (Hcast cm') (cast_wordy cm') _ Hnm (eq_sym E1)).
  - apply (span_eq wordy) in E as (E1 & E2); auto using void_wordy.
    exfalso. exact (Hname _ (void_no_dot n') (void_wordy n') _ Hnm (eq_sym E1)).
  - apply (span_eq wordy) in E as (-> & ->); auto. split; [constructor|reflexivity].
Qed.

(** The end of the text or a space. *)
Definition ended (r : text) : Prop := forall c r', r = c :: r' -> c = 32.
Lemma ended_stops r : ended r -> stops wordy r.
Proof. intros H c r' E. now rewrite (H c r' E). Qed.

Definition size_text (dyn : bool) (mx : Z) : text :=
  (if dyn then txt "[<=" else txt "[") ++ decimal (Z.to_N mx) ++ txt "]".
Lemma normalized_arr dyn et mx r : normalized (QArr dyn et mx) ++ r = normalized et ++ (size_text dyn mx ++ r).
Proof. cbn [normalized]. unfold size_text. now rewrite <- !app_assoc. Qed.
Lemma size_text_head dyn mx : exists q, size_text dyn mx = 91 :: q.
Proof. destruct dyn; eexists; reflexivity. Qed.
Lemma decimal_head n : exists c r, decimal n = c :: r /\ is_digit c = true.
Proof.
  destruct (decimal_spec n) as (Hne & Hd & _). destruct (decimal n) as [|c r]; [congruence|].
  apply Forall_cons_iff in Hd as (Hc & _). eauto.
Qed.

Lemma normalized_eq t t' r r' : legal_type t -> legal_type t' -> ended r -> ended r' ->
  normalized t ++ r = normalized t' ++ r' -> same_type t t' /\ r = r'.
Proof.
  intros L L' Hr Hr' E.
  assert (Hsz : forall dyn mx q, stops wordy (size_text dyn mx ++ q)).
  { intros dyn mx q. destruct (size_text_head dyn mx) as (s & ->). now apply stops_cons. }
  assert (Hno : forall dyn mx q s, ended s -> size_text dyn mx ++ q <> s).
  { intros dyn mx q s Hs Eq. destruct (size_text_head dyn mx) as (w & Ew). rewrite Ew in Eq.
    specialize (Hs 91 (w ++ q) (eq_sym Eq)). discriminate. }
  assert (Harr : forall t, {is_array t} + {~ is_array t}).
  { intros [| |d e m|]; [right|right|left; unfold is_array; eauto|right]; intros (? & ? & ? & K); discriminate K. }
  destruct (Harr t) as [(d & e & m & ->)|A], (Harr t') as [(d' & e' & m' & ->)|A'].
  - inversion L as [| | | |? ? ? Le La Lm|]; subst. inversion L' as [| | | |? ? ? Le' La' Lm'|]; subst.
    rewrite !normalized_arr in E. apply base_eq in E as (E1 & E2); auto.
    assert (Hd : d = d' /\ decimal (Z.to_N m) ++ 93 :: r = decimal (Z.to_N m') ++ 93 :: r').
    { unfold size_text in E2. change (txt "]") with [93] in E2. rewrite <- !app_assoc in E2. cbn [app] in E2.
      destruct (decimal_head (Z.to_N m)) as (c & q & Ec & Hc), (decimal_head (Z.to_N m')) as (c' & q' & Ec' & Hc').
      change (txt "[<=") with [91; 60; 61] in E2. change (txt "[") with [91] in E2.
      destruct d, d'; cbn [app] in E2.
      - injection E2 as E2. now split.
      - rewrite Ec' in E2. cbn [app] in E2. injection E2 as E2 _. subst c'. discriminate.
      - rewrite Ec in E2. cbn [app] in E2. injection E2 as E2 _. subst c. discriminate.
      - injection E2 as E2. now split. }
    destruct Hd as (<- & Hm). apply decimal_eq in Hm as (Hm & Hrr); [|now apply stops_cons..].
    injection Hrr as <-. assert (m = m') by lia. subst m'. split; [now constructor|reflexivity].
  - exfalso. inversion L as [| | | |? ? ? Le La Lm|]; subst. rewrite normalized_arr in E.
    apply base_eq in E as (_ & E2); auto using ended_stops. exact (Hno _ _ _ _ Hr' E2).
  - exfalso. inversion L' as [| | | |? ? ? Le La Lm|]; subst. rewrite normalized_arr in E.
    apply base_eq in E as (_ & E2); auto using ended_stops. exact (Hno _ _ _ _ Hr (eq_sym E2)).
  - apply base_eq in E; auto using ended_stops.
Qed.

Lemma same_voidish t t' : same_type t t' -> voidish t' -> voidish t.
Proof.
  intros H. induction H as [| |dyn et et' mx H IH|nm u fs ov u' fs' ov']; intros Hv; try assumption.
  - inversion Hv; subst. constructor. auto.
  - inversion Hv; subst. constructor.
Qed.

Definition field_ok (f : field) : Prop := legal_type (snd f) /\ (fst f = None -> voidish (snd f)).

Lemma field_text_eq f g : field_ok f -> field_ok g -> field_text f = field_text g -> same_field f g.
Proof.
  intros (Lf & Nf) (Lg & Ng) E. unfold same_field.
  assert (Hsp : forall q, ended (32 :: q)) by (intros q c r Ec; now injection Ec as <- _).
  assert (Hnil : ended []) by (intros c r; discriminate).
  assert (Hshape : forall h : field, (is_void (snd h) /\ field_text h = normalized (snd h) ++ []) \/
            (~ is_void (snd h) /\ field_text h = normalized (snd h) ++ 32 :: match fst h with Some nm => nm | None => txt "None" end)).
  { intros [nm t]. unfold field_text. cbn [fst snd]. destruct t.
    1,3,4: right; split; [intros (? & K); discriminate K|reflexivity].
    left. split; [eexists; reflexivity|now rewrite app_nil_r]. }
  destruct (Hshape f) as [(Vf & Ef)|(Vf & Ef)], (Hshape g) as [(Vg & Eg)|(Vg & Eg)]; rewrite Ef, Eg in E;
    apply normalized_eq in E as (E1 & E2); auto; try discriminate E2.
  - split; [exact E1|]. left. destruct Vf as (n & ->). constructor.
  - split; [exact E1|]. injection E2 as E2. destruct (fst f) as [a|] eqn:Fa; [|left; now apply Nf].
    destruct (fst g) as [b|] eqn:Fb; [right; congruence|]. left. apply (same_voidish _ _ E1). now apply Ng.
Qed.

(** ** Lines *)

Definition lf (c : N) : bool := N.eqb LF c.
Definition lines (s : text) : list text := filter nonempty (split_by lf s).
Lemma lines_app a b : lines (a ++ LF :: b) = lines a ++ lines b.
Proof. unfold lines. rewrite split_by_app by reflexivity. apply filter_app. Qed.
Lemma lines_one l : l <> [] -> Forall (fun c => lf c = false) l -> lines l = [l].
Proof. intros Hn H. unfold lines. rewrite split_by_none by exact H. destruct l; [congruence|reflexivity]. Qed.
Lemma lines_lf b : lines (LF :: b) = lines b.
Proof. exact (lines_app [] b). Qed.
Lemma lines_repeat k b : lines (repeat LF k ++ b) = lines b.
Proof. induction k as [|k IH]; [reflexivity|]. cbn [repeat app]. now rewrite lines_lf. Qed.
Lemma lines_join ls : Forall (fun l => l <> [] /\ Forall (fun c => lf c = false) l) ls ->
  lines (join [LF] ls ++ [LF]) = ls.
Proof.
  intros H. rewrite lines_app. change (lines []) with (@nil text). rewrite app_nil_r.
  induction H as [|l ls (Hn & Hl) Hls IH]; [reflexivity|].
  destruct ls as [|l2 ls]; [now apply lines_one|].
  rewrite join_cons by discriminate. cbn [app]. rewrite lines_app, lines_one by assumption.
  cbn [app]. now rewrite IH.
Qed.

(** Shortening runs of line feeds keeps the lines. *)
Lemma lines_cons c s : lf c = false ->
  exists w ws, split_by lf s = w :: ws /\ lines (c :: s) = (c :: w) :: filter nonempty ws.
Proof.
  intros Hc. destruct (split_by_cons lf s) as (w & ws & E). exists w, ws. split; [exact E|].
  unfold lines. cbn [split_by]. rewrite Hc, E. reflexivity.
Qed.
(** The first piece and the lines after it. *)
Definition shape (s : text) : text * list text :=
  match split_by lf s with w :: ws => (w, filter nonempty ws) | [] => ([], []) end.
Lemma shape_lines s t : shape s = shape t -> lines s = lines t.
Proof.
  unfold shape, lines. destruct (split_by_cons lf s) as (w & ws & ->), (split_by_cons lf t) as (v & vs & ->).
  intros E. injection E as -> E. cbn [filter]. now rewrite E.
Qed.
Lemma shape_lf s : shape (LF :: s) = ([], lines s).
Proof. unfold shape. cbn [split_by]. reflexivity. Qed.
Lemma shape_cons c s t : lf c = false -> shape s = shape t -> shape (c :: s) = shape (c :: t).
Proof.
  intros Hc. unfold shape. cbn [split_by]. rewrite Hc.
  destruct (split_by_cons lf s) as (w & ws & ->), (split_by_cons lf t) as (v & vs & ->).
  intros E. injection E as -> ->. reflexivity.
Qed.
Lemma shape_any c s t : shape s = shape t -> shape (c :: s) = shape (c :: t).
Proof.
  intros E. destruct (lf c) eqn:Hc; [|now apply shape_cons].
  apply N.eqb_eq in Hc. subst c. rewrite !shape_lf. f_equal. now apply shape_lines.
Qed.
Lemma squeeze_shape f k s : shape (squeeze f (repeat LF (S k)) s) = shape s.
Proof.
  revert s. induction f as [|f IH]; intros s; [reflexivity|]. cbn [squeeze]. destruct s as [|c r]; [reflexivity|].
  destruct (starts_with (repeat LF (S k)) (c :: r)) eqn:E.
  - apply starts_with_app in E as (q & ->). rewrite skipn_app, Nat.sub_diag, skipn_all. cbn [skipn app].
    cbn [repeat app]. rewrite !shape_lf. f_equal. rewrite lines_repeat. now apply shape_lines.
  - now apply shape_any.
Qed.
Lemma replace_lines k s : lines (replace_run (S k) s) = lines s.
Proof. apply shape_lines, squeeze_shape. Qed.

(** Stripping does, too, unless a line has white space at its ends. *)
Definition trimmed (w : text) : Prop :=
  (forall c r, w = c :: r -> is_ws c = false) /\ (forall c r, rev w = c :: r -> is_ws c = false).
Lemma split_snoc p a c : p c = false ->
  exists h t, split_by p a = h ++ [t] /\ split_by p (a ++ [c]) = h ++ [t ++ [c]].
Proof.
  intros Hc. induction a as [|x a IH]; cbn [split_by app].
  - exists [], []. rewrite Hc. now split.
  - destruct IH as (h & t & E1 & E2). rewrite E1, E2. destruct (p x).
    + exists ([] :: h), t. now split.
    + destruct h as [|w h]; cbn [app]; [exists [], (x :: t); now split|exists ((x :: w) :: h), t; now split].
Qed.
Lemma split_rev p s : split_by p (rev s) = rev (map (@rev N) (split_by p s)).
Proof.
  induction s as [|c r IH]; [reflexivity|]. cbn [rev split_by]. destruct (p c) eqn:Hc.
  - rewrite split_by_app by exact Hc. rewrite IH. reflexivity.
  - destruct (split_snoc p (rev r) c Hc) as (h & t & E1 & E2). rewrite E2. rewrite E1 in IH.
    destruct (split_by_cons p r) as (w & ws & Ew). rewrite Ew in IH |- *. cbn [map rev] in IH |- *.
    apply app_inj_tail in IH as (-> & ->). reflexivity.
Qed.
Lemma lines_rev s : lines (rev s) = rev (map (@rev N) (lines s)).
Proof.
  unfold lines. rewrite split_rev. induction (split_by lf s) as [|w ws IH]; [reflexivity|].
  cbn [map rev]. rewrite filter_app, IH. cbn [filter]. destruct w as [|c w]; cbn [nonempty].
  - cbn [rev nonempty]. now rewrite app_nil_r.
  - assert (Hne : nonempty (rev (c :: w)) = true) by (cbn [rev]; destruct (rev w); reflexivity).
    rewrite Hne. reflexivity.
Qed.
Lemma drop_lines s : Forall (fun w => forall c r, w = c :: r -> is_ws c = false) (lines s) ->
  lines (drop_while is_ws s) = lines s.
Proof.
  induction s as [|c r IH]; intros H; [reflexivity|]. cbn [drop_while]. destruct (is_ws c) eqn:Hc; [|reflexivity].
  destruct (lf c) eqn:El.
  - apply N.eqb_eq in El. subst c. rewrite lines_lf in H |- *. now apply IH.
  - exfalso. destruct (lines_cons c r El) as (w & ws & _ & E). rewrite E in H.
    apply Forall_cons_iff in H as (H & _). rewrite (H c w eq_refl) in Hc. discriminate.
Qed.
Lemma strip_lines s : Forall trimmed (lines s) -> lines (strip is_ws s) = lines s.
Proof.
  intros H. unfold strip. rewrite lines_rev.
  assert (E : lines (drop_while is_ws s) = lines s).
  { apply drop_lines. eapply Forall_impl; [|exact H]. intros w (Hw & _). exact Hw. }
  rewrite drop_lines; rewrite lines_rev, E.
  - rewrite map_rev, rev_involutive, map_map. rewrite <- (map_id (lines s)) at 2. apply map_ext.
    intros w. apply rev_involutive.
  - apply Forall_rev. apply Forall_map. eapply Forall_impl; [|exact H]. intros w (_ & Hw). exact Hw.
Qed.

(** ** Definitions *)

(** A line of a definition: no line feed, nor white space at the ends. *)
Definition clean (l : text) : Prop := l <> [] /\ Forall (fun c => lf c = false) l /\ trimmed l.
Lemma wordy_lf c : wordy c = true -> lf c = false /\ is_ws c = false.
Proof. unfold wordy, name_char, is_lower, is_upper, is_digit, lf, LF, is_ws. lia. Qed.

Lemma clean_intro a m z : wordy a = true -> Forall (fun c => lf c = false) m -> is_ws z = false -> lf z = false ->
  clean (a :: m ++ [z]).
Proof.
  intros Ha Hm Hz Hl. apply wordy_lf in Ha as (Ha1 & Ha2). split; [discriminate|]. split.
  - constructor; [exact Ha1|]. apply Forall_app. split; [exact Hm|now constructor].
  - split.
    + intros c r E. injection E as <- _. exact Ha2.
    + intros c r E. change (a :: m ++ [z]) with ((a :: m) ++ [z]) in E. rewrite rev_app_distr in E. cbn [rev app] in E.
      now injection E as <- _.
Qed.
(** A text that begins with a letter, ends with a character that is not white
    space, and has no line feed. *)
Lemma clean_by_parts a l z : wordy a = true -> Forall (fun c => lf c = false) (a :: l) ->
  (exists q, a :: l = q ++ [z]) -> is_ws z = false -> clean (a :: l).
Proof.
  intros Ha Hl (q & E) Hz. destruct q as [|b q].
  - cbn [app] in E. injection E as -> ->. apply wordy_lf in Ha as (Ha1 & _).
    split; [discriminate|]. split; [exact Hl|]. split; intros c r Ec; cbn in Ec; now injection Ec as <- _.
  - cbn [app] in E. injection E as <- ->. apply Forall_cons_iff in Hl as (_ & Hl). apply Forall_app in Hl as (Hq & Hzl).
    apply Forall_cons_iff in Hzl as (Hzl & _). now apply clean_intro.
Qed.

Lemma no_lf_digits s : Forall (fun c => is_digit c = true) s -> Forall (fun c => lf c = false) s.
Proof. intros H. eapply Forall_impl; [|exact H]. unfold is_digit, lf, LF. cbv beta. intros c. lia. Qed.
Lemma no_lf_wordy s : Forall (fun c => wordy c = true) s -> Forall (fun c => lf c = false) s.
Proof. intros H. eapply Forall_impl; [|exact H]. intros c Hc. now apply wordy_lf. Qed.
Lemma last_wordy s : s <> [] -> Forall (fun c => wordy c = true) s -> exists q z, s = q ++ [z] /\ wordy z = true.
Proof.
  intros Hn H. destruct (exists_last Hn) as (q & z & E). exists q, z. split; [exact E|].
  rewrite E in H. apply Forall_app in H as (_ & H). now apply Forall_cons_iff in H as (H & _).
Qed.

(** Beginning with a lower-case letter and so on. *)
Definition line_like (l : text) : Prop :=
  (exists c r, l = c :: r /\ lower c) /\ Forall (fun c => lf c = false) l /\ exists q z, l = q ++ [z] /\ is_ws z = false.
Lemma line_like_clean l : line_like l -> clean l.
Proof.
  intros ((c & r & -> & Hc) & Hl & q & z & E & Hz). eapply clean_by_parts; [|exact Hl|exists q; exact E|exact Hz].
  apply alnum_wordy. now left.
Qed.
Lemma lower_txt w : forall c r, txt w = c :: r -> is_lower c = true -> exists c r, txt w = c :: r /\ lower c.
Proof. intros c r E H. exists c, r. split; [exact E|]. now apply is_lower_spec. Qed.

Lemma wordy_line l : (exists c r, l = c :: r /\ lower c) -> Forall (fun c => wordy c = true) l -> line_like l.
Proof.
  intros (c & r & -> & Hc) H. split; [eauto|]. split; [now apply no_lf_wordy|].
  destruct (last_wordy (c :: r) ltac:(discriminate) H) as (q & z & E & Hz). exists q, z. split; [exact E|].
  now apply wordy_lf.
Qed.
Lemma line_app a b q z : line_like a -> Forall (fun c => lf c = false) b -> b = q ++ [z] -> is_ws z = false -> line_like (a ++ b).
Proof.
  intros ((c & r & -> & Hc) & Ha & _) Hb -> Hz. split; [exists c, (r ++ q ++ [z]); now split|].
  split; [apply Forall_app; now split|]. exists ((c :: r) ++ q), z. split; [now rewrite app_assoc|exact Hz].
Qed.
Lemma full_name_line nm : full_type_name nm -> line_like nm.
Proof. intros H. destruct (full_name_chars _ H) as (H1 & _ & H2). now apply wordy_line. Qed.
Lemma normalized_line t : legal_type t -> line_like (normalized t).
Proof.
  induction t as [k n cm|n|dyn et mx IH|nm u fs ov IH] using ptype_ind'; intros L.
  - rewrite normalized_prim.
    assert (Hc : line_like (cast_text cm)).
    { apply wordy_line; [|apply cast_wordy]. destruct cm; eapply lower_txt; reflexivity. }
    destruct (last_wordy (kind_text k n)) as (q & z & E & Hz); [destruct k; discriminate|apply kind_text_wordy|].
    apply (line_app _ (32 :: kind_text k n) (32 :: q) z Hc).
    + constructor; [reflexivity|]. apply no_lf_wordy, kind_text_wordy.
    + now rewrite E.
    + now apply wordy_lf.
  - change (line_like (void_text n)). apply wordy_line; [|apply void_wordy].
    exists 118, ([111; 105; 100] ++ decimal (N.of_nat n)). split; [reflexivity|unfold lower; lia].
  - inversion L; subst. rewrite <- (app_nil_r (normalized (QArr dyn et mx))), normalized_arr, app_nil_r.
    apply (line_app _ _ ((if dyn then txt "[<=" else txt "[") ++ decimal (Z.to_N mx)) 93); [now apply IH| | |reflexivity].
    + unfold size_text. apply Forall_app. split; [destruct dyn; repeat constructor|].
      apply Forall_app. split; [apply no_lf_digits, decimal_spec|repeat constructor].
    + unfold size_text. rewrite <- app_assoc. reflexivity.
  - inversion L; subst. now apply full_name_line.
Qed.
Lemma attribute_name_wordy nm : attribute_name nm -> nm <> [] /\ Forall (fun c => wordy c = true) nm.
Proof.
  intros (c & r & -> & Hc & Hr). split; [discriminate|]. constructor; [apply alnum_wordy; unfold alnum; tauto|].
  eapply Forall_impl; [|exact Hr]. intros x. apply alnum_wordy.
Qed.
Definition field_good (f : field) : Prop := field_ok f /\ (forall nm, fst f = Some nm -> attribute_name nm).
Lemma field_line f : field_good f -> line_like (field_text f).
Proof.
  destruct f as [nm t]. intros ((L & _) & Hn). unfold field_text. cbn [fst snd] in *.
  pose proof (normalized_line t L) as Hl. 
  assert (Hname : line_like (normalized t ++ txt " " ++ match nm with Some nm => nm | None => txt "None" end)).
  { set (w := match nm with Some nm => nm | None => txt "None" end).
    assert (Hw : w <> [] /\ Forall (fun c => wordy c = true) w).
    { unfold w. destruct nm as [nm|]; [apply attribute_name_wordy; now apply Hn|].
      split; [discriminate|apply wordy_txt; reflexivity]. }
    destruct (last_wordy w (proj1 Hw) (proj2 Hw)) as (q & z & E & Hz).
    apply (line_app _ (txt " " ++ w) (32 :: q) z Hl).
    - constructor; [reflexivity|]. now apply no_lf_wordy.
    - rewrite E. reflexivity.
    - now apply wordy_lf. }
  destruct t; try exact Hname. exact Hl.
Qed.

Definition mark_lines (u : bool) : list text := if u then [txt "@union"] else [].
Definition section_lines (p : part) : list text := mark_lines (p_union p) ++ map field_text (p_fields p).
Definition body_lines (b : body) : list text :=
  match b with
  | Message p => section_lines p
  | Service rq rs => section_lines rq ++ txt "---" :: section_lines rs
  end.

Lemma union_clean : clean (txt "@union").
Proof.
  split; [discriminate|]. split; [repeat constructor|]. split; intros c r E; vm_compute in E; now injection E as <- _.
Qed.
Lemma dashes_clean : clean (txt "---").
Proof.
  split; [discriminate|]. split; [repeat constructor|]. split; intros c r E; vm_compute in E; now injection E as <- _.
Qed.

Lemma lines_section p r : Forall field_good (p_fields p) ->
  lines (union_mark (p_union p) ++ adjoin (p_fields p) ++ r) = section_lines p ++ lines r.
Proof.
  intros H. assert (Hf : lines (adjoin (p_fields p) ++ r) = map field_text (p_fields p) ++ lines r).
  { assert (Hj : lines (adjoin (p_fields p)) = map field_text (p_fields p)).
    { unfold adjoin. apply lines_join. apply Forall_map. eapply Forall_impl; [|exact H].
      intros f Hg. apply field_line, line_like_clean in Hg. destruct Hg as (H1 & H2 & _). now split. }
    unfold adjoin in Hj |- *. rewrite <- app_assoc. cbn [app]. rewrite lines_app in Hj |- *.
    change (lines []) with (@nil text) in Hj. rewrite app_nil_r in Hj. now rewrite Hj. }
  unfold section_lines, mark_lines, union_mark. destruct (p_union p); [|exact Hf].
  rewrite <- !app_assoc. cbn [app]. rewrite lines_lf.
  change (LF :: adjoin (p_fields p) ++ r) with ([] ++ LF :: adjoin (p_fields p) ++ r).
  rewrite app_nil_l, lines_app, Hf, lines_one; [reflexivity|apply union_clean|apply union_clean].
Qed.

Lemma section_clean p : Forall field_good (p_fields p) -> Forall trimmed (section_lines p).
Proof.
  intros H. apply Forall_app. split.
  - destruct (p_union p); [|constructor]. constructor; [apply union_clean|constructor].
  - apply Forall_map. eapply Forall_impl; [|exact H]. intros f Hf. now apply line_like_clean, field_line.
Qed.

Lemma source_lines name b : full_type_name name -> Forall (fun p => Forall field_good (p_fields p)) (parts b) ->
  lines (source_definition name b) = name :: body_lines b.
Proof.
  intros Hn Hb. unfold source_definition. rewrite !replace_lines.
  assert (Hname : clean name) by now apply line_like_clean, full_name_line.
  match goal with |- lines (strip is_ws ?t) = _ => assert (E : lines t = name :: body_lines b) end.
  { cbn [app]. rewrite lines_app, lines_one by apply Hname. cbn [app]. f_equal. destruct b as [p|rq rs]; cbn [parts] in Hb.
    - apply Forall_cons_iff in Hb as (Hp & _). pose proof (lines_section p [] Hp) as K.
      rewrite !app_nil_r in K. exact K.
    - apply Forall_cons_iff in Hb as (Hrq & Hb). apply Forall_cons_iff in Hb as (Hrs & _).
      rewrite lines_section by exact Hrq. cbn [body_lines app]. f_equal. rewrite lines_lf.
      rewrite lines_app, lines_one by apply dashes_clean. cbn [app]. f_equal.
      pose proof (lines_section rs [] Hrs) as K. rewrite !app_nil_r in K. exact K. }
  rewrite strip_lines; rewrite E; [reflexivity|]. constructor; [apply Hname|].
  destruct b as [p|rq rs]; cbn [parts body_lines] in *.
  - apply Forall_cons_iff in Hb as (Hp & _). now apply section_clean.
  - apply Forall_cons_iff in Hb as (Hrq & Hb). apply Forall_cons_iff in Hb as (Hrs & _).
    apply Forall_app. split; [now apply section_clean|]. constructor; [apply dashes_clean|now apply section_clean].
Qed.

(** ** Reading the lines back *)

Definition ends (T : list text) : Prop := T = [] \/ exists q, T = txt "---" :: q.
Lemma field_text_head f : field_good f -> exists c r, field_text f = c :: r /\ lower c.
Proof. intros H. apply field_line in H. apply H. Qed.
Lemma fields_eq fs gs T U : Forall field_good fs -> Forall field_good gs -> ends T -> ends U ->
  map field_text fs ++ T = map field_text gs ++ U -> Forall2 same_field fs gs /\ T = U.
Proof.
  intros Hf. revert gs. induction Hf as [|f fs Hf Hfs IH]; intros gs Hg HT HU E.
  - destruct gs as [|g gs]; [now split|]. exfalso. cbn [map app] in E. apply Forall_cons_iff in Hg as (Hg & _).
    destruct (field_text_head g Hg) as (c & r & Ec & Hc). rewrite Ec in E. destruct HT as [->|(q & ->)]; [discriminate|].
    injection E as E _. subst c. unfold lower in Hc. lia.
  - destruct gs as [|g gs].
    + exfalso. cbn [map app] in E. destruct (field_text_head f Hf) as (c & r & Ec & Hc). rewrite Ec in E.
      destruct HU as [->|(q & ->)]; [discriminate|]. injection E as E _. subst c. unfold lower in Hc. lia.
    + cbn [map app] in E. assert (E1 : field_text f = field_text g) by congruence.
      assert (E2 : map field_text fs ++ T = map field_text gs ++ U) by congruence.
      apply Forall_cons_iff in Hg as (Hg & Hgs). destruct (IH gs Hgs HT HU E2) as (H1 & H2).
      split; [|exact H2]. constructor; [|exact H1]. apply field_text_eq; [apply Hf|apply Hg|exact E1].
Qed.
Lemma section_eq p q T U : Forall field_good (p_fields p) -> Forall field_good (p_fields q) -> ends T -> ends U ->
  section_lines p ++ T = section_lines q ++ U -> same_part p q /\ T = U.
Proof.
  intros Hp Hq HT HU E. unfold section_lines in E. rewrite <- !app_assoc in E.
  assert (Hno : forall fs V L, Forall field_good fs -> ends V -> map field_text fs ++ V <> txt "@union" :: L).
  { intros fs V L Hfs HV EV. destruct Hfs as [|f fs Hf Hfs].
    - cbn [map app] in EV. destruct HV as [->|(w & ->)]; discriminate EV.
    - cbn [map app] in EV. destruct (field_text_head f Hf) as (c & r & Ec & Hc). rewrite Ec in EV.
      injection EV as EV _. subst c. unfold lower in Hc. lia. }
  unfold same_part. destruct (p_union p), (p_union q); cbn [mark_lines app] in E.
  - injection E as E. apply fields_eq in E as (H1 & H2); auto.
  - exfalso. symmetry in E. revert E. now apply Hno.
  - exfalso. revert E. now apply Hno.
  - apply fields_eq in E as (H1 & H2); auto.
Qed.

Lemma body_eq a b : Forall (fun p => Forall field_good (p_fields p)) (parts a) ->
  Forall (fun p => Forall field_good (p_fields p)) (parts b) -> body_lines a = body_lines b -> same_body a b.
Proof.
  intros Ha Hb E. assert (Hnil : ends []) by now left. assert (Hd : forall q, ends (txt "---" :: q)) by (right; eauto).
  destruct a as [p|p1 p2], b as [q|q1 q2]; cbn [parts body_lines same_body] in *;
    repeat match goal with H : Forall _ (_ :: _) |- _ => apply Forall_cons_iff in H as (? & H) end.
  - rewrite <- (app_nil_r (section_lines p)), <- (app_nil_r (section_lines q)) in E.
    apply section_eq in E as (E & _); auto.
  - rewrite <- (app_nil_r (section_lines p)) in E. apply section_eq in E as (_ & E); auto. discriminate.
  - rewrite <- (app_nil_r (section_lines q)) in E. apply section_eq in E as (_ & E); auto. discriminate.
  - apply section_eq in E as (E1 & E2); auto. assert (E3 : section_lines p2 = section_lines q2) by congruence.
    rewrite <- (app_nil_r (section_lines p2)), <- (app_nil_r (section_lines q2)) in E3.
    apply section_eq in E3 as (E3 & _); auto.
Qed.

Lemma legal_good d : legal_definition d -> Forall (fun p => Forall field_good (p_fields p)) (parts (d_body d)).
Proof.
  intros (_ & H & _). eapply Forall_impl; [|exact H]. intros p ((_ & Hn & Hv) & _ & Ht & _ & _).
  apply Forall_forall. intros f Hf. rewrite Forall_forall in Hv, Ht. split; [split; auto|].
  intros nm E. rewrite Forall_forall in Hn. apply Hn. clear - Hf E.
  induction (p_fields p) as [|[[a|] t] fs IH]; [destruct Hf| |].
  - cbn [field_names]. destruct Hf as [<-|Hf]; [left; cbn in E; congruence|right; auto].
  - cbn [field_names]. destruct Hf as [<-|Hf]; [discriminate E|auto].
Qed.

Lemma source_determines d1 d2 : legal_definition d1 -> legal_definition d2 ->
  source_definition (d_name d1) (d_body d1) = source_definition (d_name d2) (d_body d2) ->
  d_name d1 = d_name d2 /\ same_body (d_body d1) (d_body d2).
Proof.
  intros L1 L2 E. pose proof (legal_good _ L1) as G1. pose proof (legal_good _ L2) as G2.
  apply (f_equal lines) in E. rewrite !source_lines in E by (try exact G1; try exact G2; try apply L1; apply L2).
  assert (E1 : d_name d1 = d_name d2) by congruence. assert (E2 : body_lines (d_body d1) = body_lines (d_body d2)) by congruence.
  split; [exact E1|]. now apply body_eq.
Qed.

(** Facts about the file server. *)
From Verif.Base Require Import Prelude.
From Verif.Model Require Import FileServer.
From Verif.Spec Require Import FileSpec.
Local Open Scope N_scope.

Lemma str_eqb_spec a b : str_eqb a b = true <-> a = b.
Proof. unfold str_eqb. destruct (list_eq_dec _ _ _); split; congruence. Qed.
Lemma str_eqb_neq a b : str_eqb a b = false <-> a <> b.
Proof. unfold str_eqb. destruct (list_eq_dec _ _ _); split; congruence. Qed.

(** Components. *)
Definition plain (c : str) : Prop := c <> [] /\ c <> [dot] /\ c <> [dot; dot] /\ ~ In slash c.

Lemma split_nonempty s : split_slash s <> [].
Proof.
  destruct s as [|c s]; cbn; [discriminate|]. destruct (c =? slash); [discriminate|].
  destruct (split_slash s); discriminate.
Qed.

Lemma split_no_slash s c : In c (split_slash s) -> ~ In slash c.
Proof.
  revert c. induction s as [|x s IH]; cbn; [intros c [<-|[]] []|].
  destruct (x =? slash) eqn:E.
  - intros c [<-|H]; [intros []|auto].
  - destruct (split_slash s) as [|w ws] eqn:Es; [exfalso; apply (split_nonempty s Es)|].
    intros c [<-|H]; [|apply IH; right; exact H]. intros [Hx|Hx]; [lia|].
    apply (IH w); [left; reflexivity|exact Hx].
Qed.

Lemma split_app p q : split_slash (p ++ slash :: q) = split_slash p ++ split_slash q.
Proof.
  induction p as [|c p IH]; cbn; [reflexivity|]. destruct (c =? slash); [rewrite IH; reflexivity|].
  rewrite IH. destruct (split_slash p) as [|w ws] eqn:E; [exfalso; apply (split_nonempty p E)|]. reflexivity.
Qed.

Lemma split_word w : ~ In slash w -> split_slash w = [w].
Proof.
  induction w as [|c w IH]; cbn; [reflexivity|]. intros H. destruct (c =? slash) eqn:E; [exfalso; apply H; left; lia|].
  rewrite IH by tauto. reflexivity.
Qed.

Lemma split_join l : l <> [] -> (forall c, In c l -> ~ In slash c) -> split_slash (join_slash l) = l.
Proof.
  induction l as [|w l IH]; [congruence|]. intros _ H. destruct l as [|w' l].
  - cbn. apply split_word. apply H. left. reflexivity.
  - change (join_slash (w :: w' :: l)) with (w ++ slash :: join_slash (w' :: l)).
    rewrite split_app, split_word by (apply H; left; reflexivity). cbn [app]. f_equal.
    apply IH; [discriminate|]. intros c Hc. apply H. right. exact Hc.
Qed.

(** Normalization of a path that never leads above its start. *)
Lemma norm_walk l acc : (forall c, In c l -> ~ In slash c) -> Forall plain acc ->
  never_above (length acc) l = true ->
  Forall plain (fold_left (norm_step false) l acc) /\
  rev (fold_left (norm_step false) l acc) = fold_left walk l (rev acc).
Proof.
  revert acc. induction l as [|c l IH]; intros acc Hl Ha Hn; [cbn; auto|].
  cbn [fold_left never_above] in *.
  assert (Hl' : forall c, In c l -> ~ In slash c) by (intros x Hx; apply Hl; right; exact Hx).
  unfold norm_step at 2 4, walk at 2. destruct (str_eqb c [] || str_eqb c [dot]) eqn:E1; [apply IH; assumption|].
  destruct (str_eqb c [dot; dot]) eqn:E2; cbn [negb].
  - destruct acc as [|top rest]; [discriminate|]. inversion Ha as [|? ? Hp Hr]; subst.
    destruct Hp as (_ & _ & Hp & _). apply str_eqb_neq in Hp. rewrite Hp. cbn [rev]. rewrite removelast_last.
    apply IH; assumption.
  - change (rev acc ++ [c]) with (rev (c :: acc)). apply IH; [exact Hl'| |exact Hn].
    constructor; [|exact Ha]. apply orb_false_iff in E1 as (Ea & Eb).
    apply str_eqb_neq in Ea, Eb, E2. repeat split; auto. apply Hl. left. reflexivity.
Qed.

Lemma walk_plain l here : Forall plain l -> fold_left walk l here = here ++ l.
Proof.
  intros H. revert here. induction H as [|c l Hc Hl IH]; intros here; cbn; [symmetry; apply app_nil_r|].
  destruct Hc as (H1 & H2 & H3 & _). apply str_eqb_neq in H1, H2, H3.
  unfold walk at 2. rewrite H1, H2, H3. cbn. rewrite IH, <- app_assoc. reflexivity.
Qed.

Lemma relative_initial s : relative s = true -> initial_slashes s = 0%nat.
Proof.
  destruct s as [|c s]; [reflexivity|]. cbn. intros H. apply negb_true_iff in H.
  unfold initial_slashes. cbn [nth]. rewrite H. reflexivity.
Qed.

Lemma normpath_place s : relative s = true -> never_above 0 (split_slash s) = true ->
  relative (normpath s) = true /\ exists rest, Forall plain rest /\ rest = place s /\
  forall here, fold_left walk (split_slash (normpath s)) here = here ++ rest.
Proof.
  intros Hr Hn. unfold normpath. rewrite (relative_initial s Hr). cbn [repeat app Nat.eqb negb].
  unfold norm_comps. destruct (norm_walk (split_slash s) []) as (Hp & He); [apply split_no_slash|constructor|exact Hn|].
  cbn [rev] in He. fold (place s) in He. rewrite He. set (l := place s) in *.
  assert (Hpl : Forall plain l).
  { rewrite <- He. apply Forall_forall. intros x Hx. apply in_rev in Hx. rewrite Forall_forall in Hp. auto. }
  destruct l as [|w l'] eqn:El.
  - cbn. split; [reflexivity|]. exists []. split; [constructor|]. split; [reflexivity|].
    intros here. rewrite app_nil_r. reflexivity.
  - assert (Hj : split_slash (join_slash (w :: l')) = w :: l').
    { apply split_join; [discriminate|]. intros c Hc. rewrite Forall_forall in Hpl. apply (Hpl c Hc). }
    assert (Hw : plain w) by (inversion Hpl; assumption).
    destruct (join_slash (w :: l')) as [|c r] eqn:Ej.
    { exfalso. cbn in Hj. injection Hj as <- _. destruct Hw as (Hw & _). congruence. }
    split.
    + cbn. destruct (c =? slash) eqn:Ec; [|reflexivity]. exfalso. cbn in Hj. rewrite Ec in Hj.
      injection Hj as <- _. destruct Hw as (Hw & _). congruence.
    + exists (w :: l'). split; [exact Hpl|]. split; [reflexivity|]. intros here. rewrite Hj. apply walk_plain. exact Hpl.
Qed.

Lemma join_place p q : relative q = true -> q <> [] ->
  place (join p q) = fold_left walk (split_slash q) (place p).
Proof.
  intros Hr Hq. destruct q as [|c q]; [congruence|]. cbn in Hr. apply negb_true_iff in Hr.
  unfold join. rewrite Hr. destruct (rev p) as [|l r] eqn:Ep.
  - apply (f_equal (@rev N)) in Ep. rewrite rev_involutive in Ep. subst p. reflexivity.
  - assert (Ep' : p = rev r ++ [l]) by (rewrite <- (rev_involutive p), Ep; reflexivity).
    unfold place. destruct (l =? slash) eqn:El.
    + apply N.eqb_eq in El. subst l p. rewrite <- app_assoc. cbn [app].
      change (slash :: c :: q) with (slash :: (c :: q)). rewrite !split_app, !fold_left_app. reflexivity.
    + rewrite split_app, fold_left_app. reflexivity.
Qed.

Lemma normpath_nonempty s : normpath s <> [].
Proof. unfold normpath. destruct (_ ++ _); discriminate. Qed.

Lemma skipn_twice {A} a b (l : list A) : skipn a (skipn b l) = skipn (b + a) l.
Proof.
  revert l. induction b as [|b IH]; intros l; [reflexivity|]. destruct l as [|x l]; [rewrite !skipn_nil; reflexivity|].
  cbn. apply IH.
Qed.

Section Facts.
  Variable isfile : str -> bool.
  Variable abspath : str -> str.
  Variable contents : str -> option (list N).
  Variable decode : list N -> option str.

  Lemma try_resolve_cases search rel out : try_resolve isfile abspath search rel = Some out ->
    isfile out = true /\ exists p, In p search /\ (out = abspath p \/ out = join (abspath p) rel).
  Proof.
    induction search as [|p search IH]; cbn; [discriminate|].
    destruct (ends_with (abspath p) rel && isfile (abspath p)) eqn:E1.
    - intros [= <-]. apply andb_true_iff in E1 as (_ & E1). split; [exact E1|].
      exists p. split; [left|left]; reflexivity.
    - destruct (isfile (join (abspath p) rel)) eqn:E2.
      + intros [= <-]. split; [exact E2|]. exists p. split; [left|right]; reflexivity.
      + intros H. destruct (IH H) as (Hf & q & Hq & Ho). split; [exact Hf|]. exists q. split; [right|]; assumption.
  Qed.

  Theorem confined lookup pm path out : relative path = true -> never_above 0 (split_slash path) = true ->
    resolve_path isfile abspath lookup pm path = Ok out ->
    In (path, out) pm \/
    isfile out = true /\ exists p, In p lookup /\
      (out = abspath p \/ place out = place (abspath p) ++ place path).
  Proof.
    intros Hr Hn. unfold resolve_path. destruct (dget str_eqb pm path) as [m|] eqn:Em.
    - intros [= <-]. left. apply (dget_In _ str_eqb_spec). exact Em.
    - destruct (try_resolve isfile abspath lookup (normpath path)) as [[|c o]|] eqn:Et; try discriminate.
      intros [= <-]. right. apply try_resolve_cases in Et as (Hf & p & Hp & Ho). split; [exact Hf|].
      exists p. split; [exact Hp|]. destruct Ho as [Ho|Ho]; [left; exact Ho|]. right. rewrite Ho.
      destruct (normpath_place path Hr Hn) as (Hr' & rest & _ & -> & Hw).
      rewrite join_place; [apply Hw|exact Hr'|apply normpath_nonempty].
  Qed.

  (** Reading. *)
  Lemma fetch_data data k off rd :
    (forall o, (o <= N.of_nat (length data)) -> rd o = Some (firstn chunk_size (skipn (N.to_nat o) data))) ->
    (off <= N.of_nat (length data)) ->
    (length (skipn (N.to_nat off) data) < k * chunk_size)%nat ->
    fetch k rd chunk_size off = Some (skipn (N.to_nat off) data).
  Proof.
    intros Hrd. revert off. induction k as [|k IH]; intros off Ho Hk; [cbn in Hk; lia|].
    cbn [fetch]. rewrite Hrd by exact Ho. set (d := skipn (N.to_nat off) data) in *.
    assert (Hc : chunk_size = 256%nat) by reflexivity.
    destruct (Nat.ltb (length (firstn chunk_size d)) chunk_size) eqn:E.
    - apply Nat.ltb_lt in E. rewrite firstn_length in E. rewrite firstn_all2 by lia. reflexivity.
    - apply Nat.ltb_ge in E. rewrite firstn_length in E. assert (Hd : (chunk_size <= length d)%nat) by lia.
      assert (Hl : (length d = length data - N.to_nat off)%nat) by apply skipn_length.
      rewrite IH.
      + cbn [option_map]. f_equal. replace (N.to_nat (off + N.of_nat chunk_size)) with (N.to_nat off + chunk_size)%nat by lia.
        rewrite <- (skipn_twice chunk_size (N.to_nat off) data). fold d. apply firstn_skipn.
      + lia.
      + rewrite skipn_length in *. subst d. rewrite skipn_length in *. nia.
  Qed.

  Theorem fetch_file lookup pm raw path out data k :
    decode raw = Some path -> resolve_path isfile abspath lookup pm path = Ok out ->
    contents out = Some data -> (N.of_nat (length data) <= max_offset) ->
    (length data < k * chunk_size)%nat ->
    fetch k (fun o => match read isfile abspath contents decode lookup pm raw o with Ok r => r | Err _ => None end)
          chunk_size 0 = Some data.
  Proof.
    intros Hd Hr Hc Hm Hk. apply (fetch_data data k 0).
    - intros o Ho. unfold read. rewrite Hd, Hr, Hc. rewrite N.min_l by lia. reflexivity.
    - lia.
    - exact Hk.
  Qed.

  Lemma info_fetch lookup pm raw n k :
    get_info isfile abspath contents decode lookup pm raw = Ok (Some n) -> n < max_offset ->
    n < N.of_nat (k * chunk_size) ->
    exists data,
      fetch k (fun o => match read isfile abspath contents decode lookup pm raw o with Ok r => r | Err _ => None end)
        chunk_size 0 = Some data /\ N.of_nat (length data) = n.
  Proof.
    unfold get_info. intros H Hn Hk. destruct (decode raw) as [path|] eqn:Hd; [|discriminate].
    destruct (resolve_path isfile abspath lookup pm path) as [out|] eqn:Hr; [|discriminate].
    destruct (contents out) as [data|] eqn:Hc; [|discriminate].
    assert (E : n = N.min (N.of_nat (length data)) max_offset) by congruence.
    exists data. split; [|lia]. apply (fetch_file lookup pm raw path out data k Hd Hr Hc); lia.
  Qed.
  Lemma info_read lookup pm raw :
    (get_info isfile abspath contents decode lookup pm raw = Ok None <->
     forall o, read isfile abspath contents decode lookup pm raw o = Ok None) /\
    ((exists e, get_info isfile abspath contents decode lookup pm raw = Err e) <-> decode raw = None) /\
    (forall o, (exists e, read isfile abspath contents decode lookup pm raw o = Err e) <-> decode raw = None).
  Proof.
    unfold get_info, read. destruct (decode raw) as [path|].
    - destruct (resolve_path isfile abspath lookup pm path) as [out|].
      + destruct (contents out) as [data|].
        * split; [split; [discriminate|intros H; discriminate (H 0)]|].
          split; [split; [intros (e & H); discriminate|discriminate]|].
          intros o. split; [intros (e & H); discriminate|discriminate].
        * split; [now split|]. split; [split; [intros (e & H); discriminate|discriminate]|].
          intros o. split; [intros (e & H); discriminate|discriminate].
      + split; [now split|]. split; [split; [intros (e' & H); discriminate|discriminate]|].
        intros o. split; [intros (e' & H); discriminate|discriminate].
    - split; [split; [discriminate|intros H; discriminate (H 0)]|]. split; [split; eauto|].
      intros o. split; eauto.
  Qed.
End Facts.

(** Slashes in front. *)
Lemma norm_slashes rooted n s acc : fold_left (norm_step rooted) (split_slash (repeat slash n ++ s)) acc = fold_left (norm_step rooted) (split_slash s) acc.
Proof. induction n as [|n IH]; [reflexivity|]. cbn [repeat app split_slash]. rewrite N.eqb_refl. cbn [fold_left]. exact IH. Qed.
Lemma initial_three n s : (3 <= n)%nat -> initial_slashes (repeat slash n ++ s) = 1%nat.
Proof. intros H. do 3 (destruct n as [|n]; [lia|]). reflexivity. Qed.
Lemma normpath_slashes n s : relative s = true -> (3 <= n)%nat -> normpath (repeat slash n ++ s) = normpath (slash :: s).
Proof.
  intros R H. unfold normpath. rewrite (initial_three n s H).
  assert (initial_slashes (slash :: s) = 1%nat) as ->.
  { destruct s as [|c s]; [reflexivity|]. unfold initial_slashes. cbn in *. destruct (c =? slash); [discriminate|reflexivity]. }
  cbn [repeat app Nat.eqb negb]. unfold norm_comps. rewrite norm_slashes.
  change (slash :: s) with (repeat slash 1 ++ s). rewrite norm_slashes. reflexivity.
Qed.
Lemma normpath_two s : relative s = true -> normpath (slash :: slash :: s) = slash :: normpath (slash :: s).
Proof.
  intros R. unfold normpath.
  assert (initial_slashes (slash :: s) = 1%nat) as ->.
  { destruct s as [|c s]; [reflexivity|]. unfold initial_slashes. cbn in *. destruct (c =? slash); [discriminate|reflexivity]. }
  assert (initial_slashes (slash :: slash :: s) = 2%nat) as ->.
  { destruct s as [|c s]; [reflexivity|]. unfold initial_slashes. cbn in *. destruct (c =? slash); [discriminate|reflexivity]. }
  cbn [repeat app Nat.eqb negb]. unfold norm_comps.
  change (slash :: slash :: s) with (repeat slash 2 ++ s). change (slash :: s) with (repeat slash 1 ++ s). rewrite !norm_slashes. reflexivity.
Qed.

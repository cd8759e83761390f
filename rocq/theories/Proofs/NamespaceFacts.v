(** Attribute lookup agrees with the table of names. *)
From Coq Require Import String.
From Verif.Base Require Import Prelude Bits.
From Verif.Model Require Import Types Prim Float Slcan Parser Namespaces.
From Verif.Spec Require Import FloatSpec PrimSpec ParserSpec GrammarSpec PathSpec NamespaceSpec.
From Verif.Proofs Require Import FloatFacts FloatTop PrimFacts ParserText ParserFacts ParserMeaning ParserLoad PathFacts.
Open Scope list_scope.
Open Scope N_scope.

Notation get := (dget text_eqb).
Notation set := (dset text_eqb).
Lemma get_same {V} (d : list (text * V)) k v : get (set d k v) k = Some v.
Proof. apply (dget_dset_same _ text_eqb_eq). Qed.
Lemma get_other {V} (d : list (text * V)) k k' v : k <> k' -> get (set d k v) k' = get d k'.
Proof. apply (dget_dset_other _ text_eqb_eq). Qed.
Lemma get_set {V} (d : list (text * V)) k k' v : get (set d k v) k' = if text_eqb k k' then Some v else get d k'.
Proof.
  destruct (text_eqb k k') eqn:E; [apply text_eqb_eq in E as ->; apply get_same|].
  apply get_other. intros ->. rewrite (proj2 (text_eqb_eq k' k') eq_refl) in E. discriminate.
Qed.
Lemma eqb_same w : text_eqb w w = true.
Proof. apply text_eqb_eq. reflexivity. Qed.

(** Namespaces are lower case, types are not; [namespaces] lists the former. *)
Inductive tidy : item -> Prop :=
| tidy_type d : tidy (IType d)
| tidy_space es ns :
    (forall k d, get es k = Some (IType d) -> ~ namespace_word k) ->
    (forall k es' ns', get es k = Some (ISpace es' ns') -> namespace_word k /\ In k ns /\ tidy (ISpace es' ns')) ->
    (forall k, In k ns -> exists es' ns', get es k = Some (ISpace es' ns')) ->
    tidy (ISpace es ns).
Definition typed (i : item) (q : list text) : option definition :=
  match attribute i q with Some (IType d) => Some d | _ => None end.

Lemma typed_nil es ns : typed (ISpace es ns) [] = None.
Proof. reflexivity. Qed.
Lemma typed_cons es ns w q : typed (ISpace es ns) (w :: q) = match get es w with Some i => typed i q | None => None end.
Proof. unfold typed. cbn [attribute]. destruct (get es w); reflexivity. Qed.
Lemma typed_empty q : typed (ISpace [] []) q = None.
Proof. destruct q; reflexivity. Qed.
Lemma tidy_empty : tidy (ISpace [] []).
Proof. constructor; intros; try discriminate. destruct H. Qed.

Lemma ensure_tidy es ns w es' ns' : tidy (ISpace es ns) -> namespace_word w -> ensure es ns w = (es', ns') ->
  tidy (ISpace es' ns') /\ (forall q, typed (ISpace es' ns') q = typed (ISpace es ns) q) /\
  exists a b, get es' w = Some (ISpace a b) /\ tidy (ISpace a b).
Proof.
  intros T Hw E. unfold ensure in E. inversion T as [|? ? T1 T2 T3]; subst.
  destruct (get es w) as [i|] eqn:G; injection E as <- <-.
  - split; [exact T|]. split; [reflexivity|]. destruct i as [d|a b]; [exfalso; exact (T1 _ _ G Hw)|].
    exists a, b. split; [exact G|]. apply (T2 _ _ _ G).
  - split; [|split].
    + constructor.
      * intros k d H. rewrite get_set in H. destruct (text_eqb w k); [discriminate|]. eauto.
      * intros k a b H. rewrite get_set in H. destruct (text_eqb w k) eqn:Ek.
        -- apply text_eqb_eq in Ek as <-. injection H as <- <-. split; [exact Hw|]. split; [apply in_or_app; right; now left|].
           exact tidy_empty.
        -- destruct (T2 _ _ _ H) as (H1 & H2 & H3). split; [exact H1|]. split; [apply in_or_app; now left|exact H3].
      * intros k H. rewrite get_set. destruct (text_eqb w k) eqn:Ek; [eauto|]. apply in_app_or in H as [H|[<-|[]]]; [eauto|].
        rewrite eqb_same in Ek. discriminate.
    + intros [|k q]; [reflexivity|]. rewrite !typed_cons, get_set. destruct (text_eqb w k) eqn:Ek; [|reflexivity].
      apply text_eqb_eq in Ek as <-. rewrite G. apply typed_empty.
    + exists [], []. split; [apply get_same|exact tidy_empty].
Qed.

Lemma path_eq_dec (p q : list text) : {p = q} + {p <> q}.
Proof. apply list_eq_dec, list_eq_dec, N.eq_dec. Qed.

Lemma store_ok tn d : ~ namespace_word tn -> forall ws es ns, tidy (ISpace es ns) -> Forall namespace_word ws ->
  exists es' ns', store ws tn d (ISpace es ns) = Ok (ISpace es' ns') /\ tidy (ISpace es' ns') /\
    (forall q, typed (ISpace es' ns') q = if path_eq_dec q (ws ++ [tn]) then Some d else typed (ISpace es ns) q).
Proof.
  intros Ht. induction ws as [|w ws IH]; intros es ns T H.
  - cbn [store app]. eexists _, _. split; [reflexivity|]. inversion T as [|? ? T1 T2 T3]; subst. split.
    + constructor.
      * intros k d' H'. rewrite get_set in H'. destruct (text_eqb tn k) eqn:Ek; [apply text_eqb_eq in Ek as <-; exact Ht|eauto].
      * intros k a b H'. rewrite get_set in H'. destruct (text_eqb tn k) eqn:Ek; [discriminate|eauto].
      * intros k Hk. rewrite get_set. destruct (text_eqb tn k) eqn:Ek; [|eauto]. apply text_eqb_eq in Ek as <-.
        destruct (T3 _ Hk) as (a & b & G). exfalso. exact (Ht (proj1 (T2 _ _ _ G))).
    + intros [|k q]; [destruct (path_eq_dec [] [tn]); [discriminate|reflexivity]|]. rewrite !typed_cons, get_set.
      destruct (text_eqb tn k) eqn:Ek.
      * apply text_eqb_eq in Ek as <-. destruct q as [|k' q].
        -- destruct (path_eq_dec [tn] [tn]); [reflexivity|congruence].
        -- destruct (path_eq_dec (tn :: k' :: q) [tn]); [discriminate|].
           destruct (get es tn) as [[d'|a b]|] eqn:G; [reflexivity| |reflexivity].
           exfalso. exact (Ht (proj1 (T2 _ _ _ G))).
      * destruct (path_eq_dec (k :: q) [tn]) as [e|_]; [|reflexivity]. injection e as -> ->. rewrite eqb_same in Ek. discriminate.
  - apply Forall_cons_iff in H as (Hw & H). cbn [store app]. destruct (ensure es ns w) as [es1 ns1] eqn:E.
    destruct (ensure_tidy _ _ _ _ _ T Hw E) as (T' & Hq & a & b & G & Tab). rewrite G.
    destruct (IH a b Tab H) as (a' & b' & E' & Tab' & Hq'). rewrite E'. cbn [bind].
    eexists _, _. split; [reflexivity|]. inversion T' as [|? ? T1 T2 T3]; subst. split.
    + constructor.
      * intros k d' H'. rewrite get_set in H'. destruct (text_eqb w k) eqn:Ek; [discriminate|eauto].
      * intros k x y H'. rewrite get_set in H'. destruct (text_eqb w k) eqn:Ek; [|eauto].
        apply text_eqb_eq in Ek as <-. injection H' as <- <-. destruct (T2 _ _ _ G) as (H1 & H2 & _). auto.
      * intros k Hk. rewrite get_set. destruct (text_eqb w k); eauto.
    + intros q. rewrite <- Hq. destruct q as [|k q]; [destruct (path_eq_dec [] (w :: ws ++ [tn])); [discriminate|reflexivity]|].
      rewrite !typed_cons, get_set. destruct (text_eqb w k) eqn:Ek.
      * apply text_eqb_eq in Ek as <-. rewrite G, Hq'. destruct (path_eq_dec q (ws ++ [tn])) as [->|n].
        -- destruct (path_eq_dec (w :: ws ++ [tn]) (w :: ws ++ [tn])); [reflexivity|congruence].
        -- destruct (path_eq_dec (w :: q) (w :: ws ++ [tn])); [congruence|reflexivity].
      * destruct (path_eq_dec (k :: q) (w :: ws ++ [tn])) as [e|_]; [|reflexivity]. injection e as -> ->. rewrite eqb_same in Ek. discriminate.
Qed.

(** Names *)
Lemma path_words_plain a : undotted a -> forall b, path_words b a = [b ++ a].
Proof.
  induction a as [|c a IH]; intros H b; cbn [path_words]; [now rewrite app_nil_r|].
  destruct (N.eqb_spec c 46) as [->|_]; [exfalso; apply H; now left|].
  rewrite IH by (intros K; apply H; now right). now rewrite <- app_assoc.
Qed.
Lemma path_words_dot a : undotted a -> forall b r, r <> [] -> path_words b (a ++ 46 :: r) = (b ++ a) :: path_words [] r.
Proof.
  induction a as [|c a IH]; intros H b r Hr.
  - rewrite app_nil_r. cbn [app path_words]. destruct r; [congruence|reflexivity].
  - cbn [app path_words]. destruct (N.eqb_spec c 46) as [->|_]; [exfalso; apply H; now left|].
    rewrite IH; [now rewrite <- app_assoc|intros K; apply H; now right|exact Hr].
Qed.
Lemma path_words_join ws : ws <> [] -> Forall (fun w => undotted w /\ w <> []) ws -> path_words [] (join [46] ws) = ws.
Proof.
  induction ws as [|w ws IH]; [congruence|]. intros _ H. apply Forall_cons_iff in H as ((Hu & Hn) & H).
  destruct ws as [|w' ws]; [apply (path_words_plain w Hu [])|].
  rewrite join_cons by discriminate. change (w ++ [46] ++ join [46] (w' :: ws)) with (w ++ 46 :: join [46] (w' :: ws)).
  rewrite path_words_dot; [|exact Hu|].
  - cbn [app]. f_equal. apply IH; [discriminate|exact H].
  - apply Forall_cons_iff in H as ((_ & Hn') & _). rewrite join_flat. destruct w'; [congruence|discriminate].
Qed.
Lemma join_inj p q : p <> [] -> q <> [] -> Forall undotted p -> Forall undotted q -> join [46] p = join [46] q -> p = q.
Proof. intros Hp Hq Up Uq E. rewrite <- (split_dotted p), <- (split_dotted q), E by assumption. reflexivity. Qed.

Lemma name_split nm : full_type_name nm -> exists ns short,
  ns <> [] /\ Forall namespace_word ns /\ ~ namespace_word short /\ spells nm (ns ++ [short]) /\
  path_words [] (namespace_of nm) = ns /\ last (split_dots nm) [] = short.
Proof.
  intros H. apply full_type_name_parts in H as (ns & short & Hne & Hns & Hs & ->). exists ns, short.
  split; [exact Hne|]. split; [exact Hns|].
  assert (Hu : Forall undotted (ns ++ [short])).
  { apply Forall_app. split; [eapply Forall_impl; [|exact Hns]; exact namespace_word_undotted|].
    constructor; [apply short_undotted; exact Hs|constructor]. }
  assert (Es : split_dots (join [dot] (ns ++ [short])) = ns ++ [short]) by (apply split_dotted; [destruct ns; discriminate|exact Hu]).
  split; [|split; [|split]].
  - intros (c & r & E & Hc & _). destruct Hs as (c' & r' & E' & Hc' & _). rewrite E in E'. injection E' as <- _.
    unfold lower, upper in *. lia.
  - split; [destruct ns; discriminate|]. split; [exact Hu|reflexivity].
  - unfold namespace_of. rewrite Es, removelast_last. apply path_words_join; [exact Hne|].
    eapply Forall_impl; [|exact Hns]. intros w Hw. split; [apply namespace_word_undotted; exact Hw|].
    destruct Hw as (c & r & -> & _). discriminate.
  - rewrite Es. apply last_last.
Qed.

(** The root agrees with the table of names. *)
Lemma root_agrees ds : Forall (fun d => full_type_name (d_name d)) ds -> forall t es ns,
  tidy (ISpace es ns) ->
  (forall q, q <> [] -> Forall undotted q -> typed (ISpace es ns) q = get (t_names t) (join [46] q)) ->
  exists es' ns', store_types (ISpace es ns) ds = Ok (ISpace es' ns') /\ tidy (ISpace es' ns') /\
    forall q, q <> [] -> Forall undotted q -> typed (ISpace es' ns') q = get (t_names (load t ds)) (join [46] q).
Proof.
  induction ds as [|d ds IH]; intros H t es ns T A.
  - exists es, ns. split; [reflexivity|]. split; [exact T|exact A].
  - apply Forall_cons_iff in H as (Hd & H). cbn [store_types].
    destruct (name_split _ Hd) as (nss & short & Hne & Hns & Hs & (_ & Hu & En) & E1 & E2).
    unfold store_type. rewrite E1, E2.
    destruct (store_ok short d Hs nss es ns T Hns) as (es1 & ns1 & E & T1 & Hq). rewrite E. cbn [bind].
    apply (IH H (load_one t d) es1 ns1 T1). intros q Hqn Hqu. rewrite Hq. cbn [load_one t_names]. rewrite get_set, (A q Hqn Hqu).
    destruct (path_eq_dec q (nss ++ [short])) as [->|n].
    + rewrite En. change (join [dot] (nss ++ [short])) with (join [46] (nss ++ [short])). rewrite eqb_same. reflexivity.
    + destruct (text_eqb (d_name d) (join [46] q)) eqn:Ek; [|reflexivity]. apply text_eqb_eq in Ek. rewrite En in Ek.
      exfalso. apply n. symmetry. apply join_inj; [destruct nss; discriminate|exact Hqn|exact Hu|exact Hqu|exact Ek].
Qed.

(** Sharing *)
Lemma share_ok es ns : (forall k, In k ns -> exists i, get es k = Some i) ->
  exists r, share es ns = Ok r /\ forall k, (In k ns -> get r k = get es k) /\ (~ In k ns -> get r k = None).
Proof.
  induction ns as [|n ns IH]; intros H; [exists []; split; [reflexivity|]; split; [intros []|reflexivity]|].
  cbn [share]. destruct (H n (or_introl eq_refl)) as (i & G). rewrite G.
  destruct IH as (r & E & Hr); [intros k Hk; apply H; now right|]. rewrite E. cbn [bind]. eexists. split; [reflexivity|].
  intros k. rewrite get_set. destruct (text_eqb n k) eqn:Ek.
  - apply text_eqb_eq in Ek as <-. split; [now rewrite G|]. intros K. exfalso. apply K. now left.
  - assert (n <> k) by (intros ->; rewrite eqb_same in Ek; discriminate). destruct (Hr k) as (H1 & H2).
    split; intros K; [apply H1; destruct K; [congruence|assumption]|apply H2; intros K'; apply K; now right].
Qed.
(** What a shared namespace shows: everything but the types directly in it. *)
Definition deep (q : list text) : bool := match q with _ :: _ :: _ => true | _ => false end.
Lemma share_typed es ns r : tidy (ISpace es ns) -> share es ns = Ok r ->
  forall q, typed (ISpace r []) q = if deep q then typed (ISpace es ns) q else None.
Proof.
  intros T E q. inversion T as [|? ? T1 T2 T3]; subst.
  destruct (share_ok es ns) as (r' & E' & Hr); [intros k Hk; destruct (T3 k Hk) as (a & b & G); eauto|].
  rewrite E in E'. injection E' as <-. destruct q as [|k q]; [reflexivity|]. rewrite !typed_cons.
  destruct (in_dec (list_eq_dec N.eq_dec) k ns) as [Hk|Hk].
  - rewrite (proj1 (Hr k) Hk). destruct (T3 k Hk) as (a & b & ->). destruct q; [reflexivity|reflexivity].
  - rewrite (proj2 (Hr k) Hk). destruct q as [|k' q]; [reflexivity|]. cbn [deep].
    destruct (get es k) as [[d|a b]|] eqn:G; [reflexivity| |reflexivity]. exfalso. apply Hk. apply (T2 _ _ _ G).
Qed.

Lemma toplevel_words : Forall namespace_word toplevel.
Proof.
  assert (H : forallb (matches is_lower ns_char) toplevel = true) by reflexivity.
  rewrite forallb_forall in H. apply Forall_forall. intros w Hw. apply H in Hw.
  unfold matches in Hw. destruct w as [|c r]; [discriminate|]. apply andb_true_iff in Hw as (Hc & Hr).
  exists c, r. split; [reflexivity|]. split; [unfold is_lower in Hc; unfold lower; lia|].
  rewrite forallb_forall in Hr. apply Forall_forall. intros x Hx. apply Hr in Hx.
  unfold ns_char, is_lower, is_digit in Hx. unfold lower, digit, underscore. lia.
Qed.

Lemma publish_ok ns : Forall namespace_word ns -> forall es names g, tidy (ISpace es names) ->
  exists es' names' g', publish ns (es, names) g = Ok ((es', names'), g') /\ tidy (ISpace es' names') /\
    (forall q, typed (ISpace es' names') q = typed (ISpace es names) q) /\
    (forall n q, In n ns -> typed (ISpace g' []) (n :: q) = if deep q then typed (ISpace es names) (n :: q) else None) /\
    (forall k, ~ In k ns -> get g' k = get g k).
Proof.
  induction ns as [|n ns IH]; intros H es names g T.
  - exists es, names, g. split; [reflexivity|]. split; [exact T|]. split; [reflexivity|]. split; [intros n q []|reflexivity].
  - apply Forall_cons_iff in H as (Hn & H). cbn [publish fst snd].
    destruct (ensure es names n) as [es1 names1] eqn:E. cbn [fst].
    destruct (ensure_tidy _ _ _ _ _ T Hn E) as (T1 & Hq1 & a & b & G & Tab). rewrite G.
    destruct (share_ok a b) as (r & Er & _).
    { inversion Tab as [|? ? _ _ T3]; subst. intros k Hk. destruct (T3 k Hk) as (x & y & Gk); eauto. }
    rewrite Er. cbn [bind].
    destruct (IH H es1 names1 (set g n (ISpace r [])) T1) as (es2 & names2 & g' & E2 & T2 & Hq2 & Hn2 & Ho2).
    exists es2, names2, g'. split; [exact E2|]. split; [exact T2|]. split; [intros q; now rewrite Hq2|]. split.
    + intros m q Hm. destruct (in_dec (list_eq_dec N.eq_dec) m ns) as [Hin|Hout]; [rewrite (Hn2 m q Hin), Hq1; reflexivity|].
      destruct Hm as [<-|Hm]; [|contradiction]. rewrite typed_cons, (Ho2 n Hout), get_same.
      rewrite (share_typed a b r Tab Er). rewrite <- Hq1, typed_cons, G. reflexivity.
    + intros k Hk. rewrite Ho2 by (intros K; apply Hk; now right). apply get_other. intros ->. apply Hk. now left.
Qed.

Definition no_tables : tables := {| t_names := []; t_ids := [] |}.

Lemma load_module_ok g ds : Forall (fun d => full_type_name (d_name d)) ds ->
  exists g', load_module g ds = Ok g' /\
    (forall n q, In n toplevel -> Forall undotted q ->
       type_at g' (n :: q) = if deep q then get (t_names (load no_tables ds)) (join [46] (n :: q)) else None) /\
    (forall n q, Forall undotted (n :: q) ->
       type_at g' (txt "thirdparty" :: n :: q) =
         if negb (text_eqb n (txt "uavcan")) && match q with [] => false | _ => true end
         then get (t_names (load no_tables ds)) (join [46] (n :: q)) else None) /\
    (forall k, ~ In k (txt "thirdparty" :: toplevel) -> get g' k = get g k).
Proof.
  intros H. destruct (root_agrees ds H no_tables [] [] tidy_empty) as (es & ns & E & T & A).
  { intros q _ _. rewrite typed_empty. reflexivity. }
  unfold load_module. rewrite E. cbn [bind].
  destruct (publish_ok toplevel toplevel_words es ns g T) as (es' & ns' & g' & E' & T' & Hq & Hn & Ho). rewrite E'. cbn [bind fst snd].
  inversion T' as [|? ? T1 T2 T3]; subst.
  set (names := filter (fun n => negb (text_eqb n (txt "uavcan"))) ns').
  destruct (share_ok es' names) as (r & Er & Hr).
  { intros k Hk. apply filter_In in Hk as (Hk & _). destruct (T3 k Hk) as (a & b & G). eauto. }
  rewrite Er. cbn [bind]. eexists. split; [reflexivity|].
  assert (Hth : ~ In (txt "thirdparty") toplevel).
  { intros K. assert (X : existsb (text_eqb (txt "thirdparty")) toplevel = true)
      by (apply existsb_exists; exists (txt "thirdparty"); split; [exact K|apply eqb_same]).
    discriminate X. }
  split; [|split].
  - intros n q Hin Hu. unfold type_at. change (typed (ISpace (set g' (txt "thirdparty") (ISpace r [])) []) (n :: q) = if deep q then get (t_names (load no_tables ds)) (join [46] (n :: q)) else None).
    rewrite typed_cons, get_other by (intros <-; contradiction). rewrite <- (typed_cons g' []). rewrite (Hn n q Hin).
    destruct (deep q) eqn:Ed; [|reflexivity]. apply A; [discriminate|]. constructor; [|exact Hu].
    apply namespace_word_undotted. pose proof toplevel_words as W. rewrite Forall_forall in W. auto.
  - intros n q Hu.
    change (typed (ISpace (set g' (txt "thirdparty") (ISpace r [])) []) (txt "thirdparty" :: n :: q) = if negb (text_eqb n (txt "uavcan")) && match q with [] => false | _ => true end then get (t_names (load no_tables ds)) (join [46] (n :: q)) else None).
    rewrite typed_cons, get_same, typed_cons.
    rewrite <- (A (n :: q)) by (assumption || discriminate). rewrite <- Hq, typed_cons.
    destruct (Hr n) as (H1 & H2). destruct (in_dec (list_eq_dec N.eq_dec) n names) as [K|K].
    + rewrite (H1 K). unfold names in K. apply filter_In in K as (K & ->). cbn [andb].
      destruct (T3 n K) as (a & b & ->). destruct q; reflexivity.
    + rewrite (H2 K). destruct (text_eqb n (txt "uavcan")) eqn:Eu; [reflexivity|]. cbn [negb andb]. destruct q as [|k q]; [reflexivity|].
      destruct (get es' n) as [[d|a b]|] eqn:G; [reflexivity| |reflexivity].
      exfalso. apply K. unfold names. apply filter_In. split; [apply (T2 _ _ _ G)|now rewrite Eu].
  - intros k Hk. rewrite get_other by (intros <-; apply Hk; now left). apply Ho. intros K. apply Hk. now right.
Qed.

(** What the tables say about the types of the last call. *)
Lemma load_any t ds nm : In nm (map d_name ds) -> get (t_names (load t ds)) nm = get (t_names (load no_tables ds)) nm.
Proof.
  induction ds as [|d ds IH] using rev_ind; [intros []|]. rewrite !load_app, map_app. cbn [load fold_left load_one t_names map].
  fold (load t ds). fold (load no_tables ds). intros H. rewrite !get_set. destruct (text_eqb (d_name d) nm) eqn:E; [reflexivity|].
  apply in_app_or in H as [H|[<-|[]]]; [auto|]. rewrite eqb_same in E. discriminate.
Qed.
Lemma load_only ds nm d : get (t_names (load no_tables ds)) nm = Some d -> In d ds /\ d_name d = nm.
Proof. intros E. pose proof (load_names no_tables ds nm) as K. rewrite E in K. destruct K as [K|(_ & K)]; [exact K|discriminate]. Qed.

Lemma parsed_names search_dirs listdir read ev depth search source ds :
  parse_namespaces search_dirs listdir read ev depth search source = Ok ds -> Forall (fun d => full_type_name (d_name d)) ds.
Proof.
  unfold parse_namespaces. intros H. apply bind_ok in H as ((x & seen) & _ & H). apply bind_ok in H as ((ds' & seen') & E & H).
  injection H as <-. revert seen ds' seen' E. induction source as [|fn fs IH]; intros seen ds' seen' E; cbn [parse_files] in E.
  - injection E as <- _. constructor.
  - apply bind_ok in E as (d & Ed & E). apply bind_ok in E as (s1 & _ & E). apply bind_ok in E as ((ds1 & s2) & E1 & E).
    injection E as <- _. constructor; [|eauto]. destruct (parse_sound _ _ _ _ _ _ _ Ed) as (K & _). apply K.
Qed.
Lemma full_type_name_dot nm : full_type_name nm -> In dot nm.
Proof. intros H. inversion H; subst; apply in_or_app; right; left; reflexivity. Qed.

(** Names of constants (C62, C92). *)
From Coq Require Import String.
From Verif.Base Require Import Prelude Bits.
From Verif.Model Require Import Types Codec Float Parser ObjectApi Introspect.
From Verif.Spec Require Import IntrospectSpec.
From Verif.Proofs Require Import ParserText ParserFacts ParserNorm.
Open Scope list_scope.
Open Scope N_scope.

(** ** Case *)
Lemma lower_like a b : lower a = lower b <-> like a b.
Proof. unfold lower, like, is_upper. dif; lia. Qed.
Lemma lower_alike a b : map lower a = map lower b <-> alike a b.
Proof.
  unfold alike. revert b. induction a as [|x a IH]; intros [|y b]; cbn [map]; split; intros H; try discriminate; try (inversion H; fail); try constructor.
  - apply lower_like. congruence.
  - apply IH. congruence.
  - inversion H; subst. f_equal; [apply lower_like; assumption|apply IH; assumption].
Qed.
Lemma lower_sep c : lower c = 95 <-> c = 95.
Proof. unfold lower, is_upper. dif; lia. Qed.

Lemma prefix_spec p s :
  starts_with (map lower p) (map lower s) = true <-> exists q r, s = q ++ r /\ alike q p.
Proof.
  rewrite starts_with_app. split.
  - intros (r & E). exists (firstn (length p) s), (skipn (length p) s).
    split; [symmetry; apply firstn_skipn|]. apply lower_alike.
    apply (f_equal (firstn (length p))) in E. rewrite firstn_map in E.
    rewrite firstn_app in E. rewrite map_length in E.
    rewrite Nat.sub_diag in E. cbn [firstn] in E. rewrite app_nil_r in E.
    rewrite E. apply firstn_all2. rewrite map_length. lia.
  - intros (q & r & -> & H). apply lower_alike in H. exists (map lower r). rewrite map_app, H. reflexivity.
Qed.
Lemma alike_length a b : alike a b -> length a = length b.
Proof. intros H. induction H; cbn; congruence. Qed.

(** ** Removal of the prefix *)
Definition seps (s : text) : nat := length (filter (N.eqb 95) s).
Lemma split_length s : length (split_by (N.eqb 95) s) = S (seps s).
Proof.
  unfold seps. induction s as [|c s IH]; [reflexivity|]. cbn [split_by filter].
  destruct (N.eqb 95 c) eqn:E.
  - cbn [length]. rewrite IH. reflexivity.
  - destruct (split_by (N.eqb 95) s) as [|w ws]; [discriminate|]. exact IH.
Qed.
Lemma seps_app a b : seps (a ++ b) = (seps a + seps b)%nat.
Proof. unfold seps. rewrite filter_app, app_length. reflexivity. Qed.
Lemma seps_alike a b : alike a b -> seps a = seps b.
Proof.
  unfold alike, seps. intros H. induction H as [|x y a b Hx H IH]; [reflexivity|]. cbn [filter].
  assert (N.eqb 95 x = N.eqb 95 y) as -> by (unfold like in Hx; lia).
  destruct (N.eqb 95 y); cbn [length]; congruence.
Qed.

Lemma remove_prefix f p s : alike p (f ++ [95]) ->
  join [95] (skipn (S (seps f)) (split_by (N.eqb 95) (p ++ s))) = s.
Proof.
  intros H. pose proof (seps_alike _ _ H) as Hs. rewrite seps_app in Hs. change (seps [95]) with 1%nat in Hs.
  apply Forall2_app_inv_r in H as (p1 & p2 & H1 & H2 & ->).
  inversion H2 as [|x y l l' Hx Hl E1 E2]; subst. inversion Hl; subst.
  assert (x = 95) as -> by (unfold like in Hx; lia).
  rewrite <- app_assoc. change ([95] ++ s) with (95 :: s).
  rewrite split_by_app by reflexivity. rewrite skipn_app_exact.
  - apply join_split.
  - rewrite split_length. f_equal. apply seps_alike. exact H1.
Qed.

(** ** Decimal texts *)
Lemma decimal_text_z z : decimal_text (decimal_z z) z.
Proof.
  unfold decimal_z, decimal_text. destruct (z <? 0)%Z eqn:E.
  - destruct (decimal_spec (Z.to_N (- z))) as (A & B & C). exists (decimal (Z.to_N (- z))).
    split; [eapply Forall_impl; [|exact B]; intros c Hc; cbv beta in Hc; unfold is_digit in Hc; lia|].
    split; [exact A|]. split; [reflexivity|]. change (digits_value ?d) with (dval d). rewrite C. lia.
  - destruct (decimal_spec (Z.to_N z)) as (A & B & C). exists (decimal (Z.to_N z)).
    split; [eapply Forall_impl; [|exact B]; intros c Hc; cbv beta in Hc; unfold is_digit in Hc; lia|].
    split; [exact A|]. split; [reflexivity|]. change (digits_value ?d) with (dval d). rewrite C. lia.
Qed.

Lemma cvalue_is_spec c z : cvalue_is c z = true <-> equals c z.
Proof.
  unfold cvalue_is, equals, signed_mantissa. destruct c as [x|[|s|s m e]]; try (split; [discriminate|tauto]).
  - lia.
  - destruct (0 <=? e)%Z eqn:E.
    + replace (Z.max e 0) with e by lia. replace (Z.max (- e) 0)%Z with 0%Z by lia.
      change (2 ^ 0)%Z with 1%Z. rewrite Z.mul_1_r. apply Z.eqb_eq.
    + replace (Z.max e 0) with 0%Z by lia. replace (Z.max (- e) 0)%Z with (- e)%Z by lia.
      change (2 ^ 0)%Z with 1%Z. rewrite Z.mul_1_r. apply Z.eqb_eq.
Qed.

(** ** Bits *)
Lemma powers_in f i x z : (0 <= i)%Z -> (0 < x)%Z -> (Z.log2 x < i + Z.of_nat f)%Z ->
  In z (powers_from f (2 ^ i) x) <-> exists k, (i <= k)%Z /\ Z.testbit x k = true /\ z = (2 ^ k)%Z.
Proof.
  revert i. induction f as [|f IH]; intros i Hi Hx Hf.
  - cbn. split; [tauto|]. intros (k & Hk & Ht & _).
    rewrite Z.bits_above_log2 in Ht by lia. discriminate.
  - cbn [powers_from]. destruct (2 ^ i <=? x)%Z eqn:E.
    + replace (Z.shiftl (2 ^ i) 1) with (2 ^ (i + 1))%Z by (rewrite Z.shiftl_mul_pow2, Z.pow_add_r by lia; reflexivity).
      rewrite in_app_iff, IH by lia.
      assert (Hl : (Z.land (2 ^ i) x =? 0)%Z = negb (Z.testbit x i)).
      { destruct (Z.testbit x i) eqn:Et.
        - apply Z.eqb_neq. intros H0. apply (f_equal (fun y => Z.testbit y i)) in H0.
          rewrite Z.land_spec, Z.pow2_bits_true, Et, Z.bits_0 in H0 by lia. discriminate.
        - apply Z.eqb_eq. apply Z.bits_inj'. intros m Hm. rewrite Z.land_spec, Z.bits_0.
          destruct (Z.eq_dec m i) as [->|Hne]; [rewrite Et; apply andb_false_r|].
          rewrite Z.pow2_bits_false by congruence. reflexivity. }
      rewrite Hl. split.
      * intros [H|(k & Hk & Ht & ->)]; [|exists k; split; [lia|auto]].
        destruct (Z.testbit x i) eqn:Et; [|destruct H]. destruct H as [<-|[]]. exists i. auto with zarith.
      * intros (k & Hk & Ht & ->). destruct (Z.eq_dec k i) as [->|Hne].
        -- left. rewrite Ht. left. reflexivity.
        -- right. exists k. split; [lia|auto].
    + split; [intros []|]. intros (k & Hk & Ht & ->). exfalso.
      assert (k <= Z.log2 x)%Z by (destruct (Z_lt_le_dec (Z.log2 x) k); [rewrite Z.bits_above_log2 in Ht by lia; discriminate|lia]).
      assert (2 ^ i <= 2 ^ Z.log2 x)%Z by (apply Z.pow_le_mono_r; lia).
      pose proof (Z.log2_spec x Hx). lia.
Qed.
Lemma powers_of_2_in x z : (0 < x)%Z ->
  In z (powers_of_2 x) <-> exists k, (0 <= k)%Z /\ Z.testbit x k = true /\ z = (2 ^ k)%Z.
Proof.
  intros Hx. unfold powers_of_2. apply (powers_in _ 0 x z); [lia|exact Hx|].
  pose proof (Z.log2_nonneg x). lia.
Qed.
Lemma powers_of_2_none x : (x <= 0)%Z -> powers_of_2 x = [].
Proof. intros H. unfold powers_of_2. cbn [powers_from]. destruct (1 <=? x)%Z eqn:E; [lia|reflexivity]. Qed.

Lemma powers_nodup f i x : (0 <= i)%Z -> NoDup (powers_from f (2 ^ i) x) /\ Forall (fun z => 2 ^ i <= z)%Z (powers_from f (2 ^ i) x).
Proof.
  revert i. induction f as [|f IH]; intros i Hi; [split; constructor|]. cbn [powers_from].
  destruct (2 ^ i <=? x)%Z; [|split; constructor].
  replace (Z.shiftl (2 ^ i) 1) with (2 ^ (i + 1))%Z by (rewrite Z.shiftl_mul_pow2, Z.pow_add_r by lia; reflexivity).
  destruct (IH (i + 1)%Z) as (A & B); [lia|].
  assert (Hlt : (2 ^ i < 2 ^ (i + 1))%Z) by (apply Z.pow_lt_mono_r; lia).
  assert (B' : Forall (fun z => 2 ^ i <= z)%Z (powers_from f (2 ^ (i + 1)) x)).
  { eapply Forall_impl; [|exact B]. intros z Hz. cbv beta in Hz. lia. }
  destruct (Z.land (2 ^ i) x =? 0)%Z; cbn [app]; [split; assumption|]. split.
  - constructor; [|exact A]. intros Hin. rewrite Forall_forall in B. specialize (B _ Hin). cbv beta in B. lia.
  - constructor; [lia|exact B'].
Qed.

Section Facts.
  Variables (consts : list (text * cvalue)) (nf : nat) (field : text) (keep : bool).
  Notation match_value := (match_value consts nf field keep).
  Notation vname := (value_to_constant_name consts nf field keep).
  Notation stands_for := (stands_for consts nf field keep).

  Lemma truthy_some o t : truthy o = Some t -> o = Some t /\ t <> [].
  Proof. destruct o as [[|c r]|]; cbn; try discriminate. intros [= <-]. split; [reflexivity|discriminate]. Qed.

  Lemma match_one_some prefix z m : match_one_prefix consts prefix z = Some m ->
    exists c q r, In (m, c) consts /\ equals c z /\ m = q ++ r /\ alike q prefix.
  Proof.
    unfold match_one_prefix.
    match goal with |- context [filter ?g consts] => destruct (filter g consts) as [|c [|]] eqn:E end;
      try discriminate. intros [= <-].
    assert (Hin : In c [c]) by (left; reflexivity). rewrite <- E in Hin.
    apply filter_In in Hin as (Hin & Hb). apply andb_true_iff in Hb as (Hp & Hc).
    apply prefix_spec in Hp as (q & r & Eq & Ha). apply cvalue_is_spec in Hc.
    exists (snd c), q, r. destruct c as (nm & cv). cbn [fst snd] in *. auto.
  Qed.

  Lemma output_direct p s z :
    skipn (length (split_by (N.eqb 95) field)) (split_by (N.eqb 95) (p ++ s)) = split_by (N.eqb 95) s ->
    format_output field keep (p ++ s) z true = if keep then s ++ txt " (" ++ decimal_z z ++ txt ")" else s.
  Proof. intros H. unfold format_output. rewrite H, join_split. reflexivity. Qed.

  Lemma format_spec f p s z : seps f = seps field -> alike p (f ++ [95]) ->
    format_output field keep (p ++ s) z true = if keep then s ++ txt " (" ++ decimal_z z ++ txt ")" else s.
  Proof.
    intros Hs H. unfold format_output. rewrite split_length, <- Hs, (remove_prefix f p s H). reflexivity.
  Qed.

  Lemma plural_seps f : field = f ++ [115] -> seps f = seps field.
  Proof. intros ->. rewrite seps_app. change (seps [115]) with 0%nat. lia. Qed.
  Lemma plural_split : last field 0 = 115 -> field = removelast field ++ [115].
  Proof.
    intros H. destruct field as [|c r]; [discriminate|].
    rewrite <- H. apply app_removelast_last. discriminate.
  Qed.

  Lemma match_value_sound z t : match_value z = Some t -> stands_for t z.
  Proof.
    unfold Introspect.match_value. intros H.
    destruct (truthy (match_one_prefix consts (field ++ [95]) z)) as [m|] eqn:E1.
    { apply truthy_some in E1 as (E1 & _). apply match_one_some in E1 as (c & q & r & Hin & Hc & -> & Ha).
      injection H as <-. rewrite (format_spec field) by auto.
      exists (q ++ r), c, r. split; [exact Hin|]. split; [exact Hc|].
      split; [apply short_direct; exact Ha|]. destruct keep; [|reflexivity].
      exists (decimal_z z). split; [apply decimal_text_z|reflexivity]. }
    destruct (last field 0 =? 115) eqn:El.
    - apply N.eqb_eq in El. pose proof (plural_split El) as Ef.
      destruct (truthy (match_one_prefix consts (removelast field ++ [95]) z)) as [m|] eqn:E2.
      + apply truthy_some in E2 as (E2 & _). apply match_one_some in E2 as (c & q & r & Hin & Hc & -> & Ha).
        injection H as <-. rewrite (format_spec (removelast field)) by (auto using plural_seps).
        exists (q ++ r), c, r. split; [exact Hin|]. split; [exact Hc|].
        split; [exact (short_plural _ _ (removelast field) q r Ef Ha)|]. destruct keep; [|reflexivity].
        exists (decimal_z z). split; [apply decimal_text_z|reflexivity].
      + destruct (Nat.eqb nf 1) eqn:En; [|discriminate].
        destruct (truthy (match_one_prefix consts [] z)) as [m|] eqn:E3; [|discriminate].
        apply truthy_some in E3 as (E3 & _). apply match_one_some in E3 as (c & q & r & Hin & Hc & Em & Ha).
        injection H as <-. exists m, c, m. split; [exact Hin|]. split; [exact Hc|].
        apply Nat.eqb_eq in En. split; [apply short_only; exact En|]. unfold format_output.
        destruct keep; [|reflexivity]. exists (decimal_z z). split; [apply decimal_text_z|reflexivity].
    - destruct (Nat.eqb nf 1) eqn:En; [|discriminate].
      destruct (truthy (match_one_prefix consts [] z)) as [m|] eqn:E3; [|discriminate].
      apply truthy_some in E3 as (E3 & _). apply match_one_some in E3 as (c & q & r & Hin & Hc & Em & Ha).
      injection H as <-. exists m, c, m. split; [exact Hin|]. split; [exact Hc|].
      apply Nat.eqb_eq in En. split; [apply short_only; exact En|]. unfold format_output.
      destruct keep; [|reflexivity]. exists (decimal_z z). split; [apply decimal_text_z|reflexivity].
  Qed.

  Lemma match_all_sound ps : match_all consts nf field keep ps <> [] ->
    Forall2 stands_for (match_all consts nf field keep ps) ps.
  Proof.
    induction ps as [|p ps IH]; intros H; [exfalso; apply H; reflexivity|].
    cbn [match_all] in *. destruct (truthy (match_value p)) as [m|] eqn:E; [|exfalso; apply H; reflexivity].
    apply truthy_some in E as (E & _). apply match_value_sound in E.
    destruct ps as [|p' ps]; [constructor; [exact E|constructor]|].
    destruct (match_all consts nf field keep (p' :: ps)) as [|a l] eqn:Em; [exfalso; apply H; reflexivity|].
    constructor; [exact E|]. apply IH. discriminate.
  Qed.

  Lemma barred_join ps : ps <> [] -> barred ps (join (txt " | ") ps).
  Proof.
    induction ps as [|p ps IH]; intros H; [congruence|]. destruct ps as [|q ps].
    - apply barred_one.
    - change (join (txt " | ") (p :: q :: ps)) with (p ++ txt " | " ++ join (txt " | ") (q :: ps)).
      apply barred_more, IH. discriminate.
  Qed.

  Lemma named_sound v t : vname v = Name t ->
    exists parts zs, barred parts t /\ Forall2 stands_for parts zs /\ makes_up zs v.
  Proof.
    unfold value_to_constant_name. destruct (truthy (match_value v)) as [m|] eqn:E.
    - intros [= <-]. apply truthy_some in E as (E & _). apply match_value_sound in E.
      exists [m], [v]. split; [apply barred_one|]. split; [constructor; [exact E|constructor]|]. left. reflexivity.
    - destruct (match_all consts nf field keep (powers_of_2 v)) as [|a l] eqn:Em; [discriminate|].
      intros [= <-]. exists (a :: l), (powers_of_2 v). split; [apply barred_join; discriminate|]. split.
      + rewrite <- Em. apply match_all_sound. rewrite Em. discriminate.
      + right. assert (Hv : (0 < v)%Z).
        { destruct (Z_lt_le_dec 0 v) as [H|H]; [exact H|]. rewrite powers_of_2_none in Em by exact H. discriminate. }
        split; [exact Hv|]. split.
        * apply (proj1 (powers_nodup _ 0 v ltac:(lia))).
        * intros z. apply powers_of_2_in. exact Hv.
  Qed.
  Lemma plain_same v z : vname v = Plain z -> z = v.
  Proof.
    unfold value_to_constant_name. destruct (truthy (match_value v)); [discriminate|].
    destruct (match_all consts nf field keep (powers_of_2 v)); [congruence|discriminate].
  Qed.

  (** ** Completeness *)
  Lemma just_one_match z s : just_one consts field z s ->
    truthy (match_value z) = Some (if keep then s ++ txt " (" ++ decimal_z z ++ txt ")" else s).
  Proof.
    intros (Hs & before & p & c & after & Ec & Ha & Hc & Huniq).
    assert (E : match_one_prefix consts (field ++ [95]) z = Some (p ++ s)).
    { unfold match_one_prefix. rewrite Ec, filter_app. cbn [filter fst snd].
      assert (Hnone : forall l, (forall x, In x l -> In x (before ++ after)) ->
                filter (fun c0 : text * cvalue => starts_with (map lower (field ++ [95])) (map lower (fst c0)) && cvalue_is (snd c0) z) l = []).
      { induction l as [|(nm & cv) l IH]; intros Hl; [reflexivity|]. cbn [filter fst snd].
        destruct (starts_with (map lower (field ++ [95])) (map lower nm) && cvalue_is cv z) eqn:Eb.
        - exfalso. apply andb_true_iff in Eb as (Hp & Hv). apply prefix_spec in Hp as (q & r & Eq & Hq).
          apply cvalue_is_spec in Hv. apply (Huniq nm cv (Hl _ (or_introl eq_refl)) Hv). exists q, r. auto.
        - apply IH. intros x Hx. apply Hl. right. exact Hx. }
      pose proof (Hnone before ltac:(intros x Hx; apply in_or_app; auto)) as E1.
      pose proof (Hnone after ltac:(intros x Hx; apply in_or_app; auto)) as E2.
      unfold text in *. rewrite E1, E2.
      assert (starts_with (map lower (field ++ [95])) (map lower (p ++ s)) && cvalue_is c z = true) as ->.
      { apply andb_true_iff. split; [apply prefix_spec; exists p, s; auto|apply cvalue_is_spec; exact Hc]. }
      reflexivity. }
    unfold Introspect.match_value. rewrite E.
    assert (p ++ s <> []) by (intros E0; apply app_eq_nil in E0; tauto).
    destruct (p ++ s) as [|x r] eqn:Eps; [congruence|]. cbn [truthy]. rewrite <- Eps.
    rewrite (format_spec field) by auto. destruct keep; cbn [truthy].
    - destruct s; [congruence|]. reflexivity.
    - destruct s; [congruence|reflexivity].
  Qed.

  Lemma found_direct v s : just_one consts field v s ->
    exists t, vname v = Name t /\
      if keep then exists d, decimal_text d v /\ t = s ++ txt " (" ++ d ++ txt ")" else t = s.
  Proof.
    intros H. eexists. unfold value_to_constant_name. rewrite (just_one_match v s H).
    split; [reflexivity|]. destruct keep; [|reflexivity].
    exists (decimal_z v). split; [apply decimal_text_z|reflexivity].
  Qed.

  Lemma found_bits v : (0 < v)%Z ->
    (forall k, (0 <= k)%Z -> Z.testbit v k = true -> exists s, just_one consts field (2 ^ k) s) ->
    exists t, vname v = Name t.
  Proof.
    intros Hv H. unfold value_to_constant_name.
    destruct (truthy (match_value v)) as [m|]; [eauto|].
    assert (Hall : forall ps, ps <> [] -> (forall z, In z ps -> exists m, truthy (match_value z) = Some m) ->
              match_all consts nf field keep ps <> []).
    { induction ps as [|p ps IH]; intros Hne Hp; [congruence|]. cbn [match_all].
      destruct (Hp p (or_introl eq_refl)) as (m & ->). destruct ps as [|p' ps]; [discriminate|].
      specialize (IH ltac:(discriminate) (fun z Hz => Hp z (or_intror Hz))).
      destruct (match_all consts nf field keep (p' :: ps)); [congruence|discriminate]. }
    specialize (Hall (powers_of_2 v)).
    destruct (match_all consts nf field keep (powers_of_2 v)) as [|a l]; [|eauto].
    exfalso. apply Hall; [| |reflexivity].
    - intros E. assert (Hin : In (2 ^ Z.log2 v)%Z (powers_of_2 v)).
      { apply powers_of_2_in; [exact Hv|]. exists (Z.log2 v). split; [apply Z.log2_nonneg|].
        split; [apply Z.bit_log2; exact Hv|reflexivity]. }
      rewrite E in Hin. destruct Hin.
    - intros z Hz. apply powers_of_2_in in Hz as (k & Hk & Ht & ->); [|exact Hv].
      destruct (H k Hk Ht) as (s & Hs). eexists. apply (just_one_match _ _ Hs).
  Qed.

  (** ** Different values, different texts *)
  Lemma bar_free_stands t z : Forall (fun c => ~ In 124 (fst c)) consts -> stands_for t z -> ~ In 124 t.
  Proof.
    intros Hc (name & c & s & Hin & _ & Hs & Ht). rewrite Forall_forall in Hc. specialize (Hc _ Hin). cbn [fst] in Hc.
    assert (Hn : ~ In 124 s).
    { inversion Hs; subst; [| |exact Hc]; intros Hb; apply Hc, in_or_app; right; exact Hb. }
    destruct keep; [|subst; exact Hn]. destruct Ht as (d & (ds & Hd & _ & Ed & _) & ->).
    assert (Hdd : ~ In 124 d).
    { assert (Hds : ~ In 124 ds) by (intros H0; rewrite Forall_forall in Hd; specialize (Hd _ H0); cbv beta in Hd; lia).
      destruct (z <? 0)%Z; subst d; [|exact Hds]. intros [H0|H0]; [discriminate|auto]. }
    rewrite !in_app_iff. intros [H0|[H0|[H0|H0]]]; auto; cbn in H0; lia.
  Qed.
  Lemma barred_inj ps qs t : barred ps t -> barred qs t ->
    Forall (fun p => ~ In 124 p) ps -> Forall (fun p => ~ In 124 p) qs -> ps = qs.
  Proof.
    intros Hp. revert qs. induction Hp as [t|t ts r Hp IH]; intros qs Hq Fp Fq.
    - inversion Hq as [t'|t' ts' r' Hq' E1 E2]; subst; [reflexivity|]. exfalso.
      apply Forall_inv in Fp. apply Fp. rewrite !in_app_iff. right. left. cbn. auto.
    - inversion Hq as [t'|t' ts' r' Hq' E1 E2]; subst.
      + exfalso. apply Forall_inv in Fq. apply Fq. rewrite !in_app_iff. right. left. cbn. auto.
      + apply Forall_cons_iff in Fp as (F1 & Fp). apply Forall_cons_iff in Fq as (F2 & Fq).
        assert (G : forall a b x y, ~ In 124 a -> ~ In 124 b -> a ++ 124 :: x = b ++ 124 :: y -> a = b /\ x = y).
        { induction a as [|u a IHa]; intros [|w b] x y Ha Hb E; cbn in E.
          - injection E; auto.
          - injection E as <- E. exfalso. apply Hb. left. reflexivity.
          - injection E as -> E. exfalso. apply Ha. left. reflexivity.
          - injection E as -> E. destruct (IHa b x y) as (-> & ->); auto;
              intros H0; [apply Ha|apply Hb]; right; exact H0. }
        change (txt " | ") with ([32] ++ [124] ++ [32]) in E2.
        assert (Et : (t' ++ [32]) ++ 124 :: ([32] ++ r') = (t ++ [32]) ++ 124 :: ([32] ++ r)).
        { rewrite <- !app_assoc. exact E2. }
        apply G in Et as (Et & Er).
        * apply app_inj_tail in Et as (-> & _). injection Er as ->. f_equal. apply IH; assumption.
        * rewrite in_app_iff. cbn. intros [H0|[H0|[]]]; [auto|discriminate].
        * rewrite in_app_iff. cbn. intros [H0|[H0|[]]]; [auto|discriminate].
  Qed.

  Lemma makes_up_inj zs v w : makes_up zs v -> makes_up zs w -> v = w.
  Proof.
    assert (Hone : forall v w, zs = [v] -> (0 < w)%Z ->
              (forall z, In z zs <-> exists k, (0 <= k)%Z /\ Z.testbit w k = true /\ z = (2 ^ k)%Z) -> v = w).
    { intros v0 w0 -> Hw Hi. destruct (proj1 (Hi v0) (or_introl eq_refl)) as (k & Hk & Ht & ->).
      apply Z.bits_inj'. intros m Hm. destruct (Z.eq_dec m k) as [->|Hne].
      - rewrite Z.pow2_bits_true by lia. congruence.
      - rewrite Z.pow2_bits_false by congruence. symmetry. apply not_true_is_false. intros Hmt.
        destruct (proj2 (Hi (2 ^ m)%Z)) as [E|[]]; [exists m; auto|].
        apply Hne. symmetry. apply (Z.pow_inj_r 2); [lia|lia|lia|exact E]. }
    intros [E|(Hv & Hn & Hi)] [E'|(Hw & Hn' & Hi')].
    - congruence.
    - apply Hone; assumption.
    - symmetry. apply Hone; assumption.
    - apply Z.bits_inj'. intros m Hm.
      assert (Z.testbit v m = true <-> Z.testbit w m = true).
      { split; intros Ht.
        - destruct (proj1 (Hi' (2 ^ m)%Z)) as (k & Hk & Hkt & E); [apply Hi; exists m; auto|].
          assert (m = k) as -> by (apply (Z.pow_inj_r 2); [lia|lia|lia|exact E]). exact Hkt.
        - destruct (proj1 (Hi (2 ^ m)%Z)) as (k & Hk & Hkt & E); [apply Hi'; exists m; auto|].
          assert (m = k) as -> by (apply (Z.pow_inj_r 2); [lia|lia|lia|exact E]). exact Hkt. }
      destruct (Z.testbit v m), (Z.testbit w m); auto; [symmetry|]; apply H; reflexivity.
  Qed.

  Lemma names_differ v w t : Forall (fun c => ~ In 124 (fst c)) consts ->
    (forall t z z', stands_for t z -> stands_for t z' -> z = z') ->
    vname v = Name t -> vname w = Name t -> v = w.
  Proof.
    intros Hc Hu Hv Hw.
    destruct (named_sound v t Hv) as (ps & zs & Hb & Hf & Hm).
    destruct (named_sound w t Hw) as (ps' & zs' & Hb' & Hf' & Hm').
    assert (Hfree : forall ps zs, Forall2 stands_for ps zs -> Forall (fun p => ~ In 124 p) ps).
    { intros ps0 zs0 H. induction H; constructor; eauto using bar_free_stands. }
    assert (ps = ps') as <- by (eapply barred_inj; eauto).
    assert (zs = zs') as <-.
    { clear Hb Hb' Hm Hm'. revert zs' Hf'. induction Hf as [|p z ps zs H1 H2 IH]; intros zs' Hf'; inversion Hf'; subst.
      - reflexivity.
      - f_equal; [eapply Hu; eauto|apply IH; assumption]. }
    eapply makes_up_inj; eauto.
  Qed.
End Facts.

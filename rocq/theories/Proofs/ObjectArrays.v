(** Contents of arrays: what the methods and assignments do. *)
From Coq Require Import String.
From Verif.Base Require Import Prelude Bits.
From Verif.Model Require Import BitCodec Types Codec Prim Float Utf8 ObjectApi.
From Verif.Spec Require Import PrimSpec CodecSpec ObjectSpec.
From Verif.Proofs Require Import CodecFacts PrimFacts Utf8Facts ObjectFacts ObjectTop.
Open Scope list_scope.

(** A rejected single-element operation changes nothing. *)
Lemma rejected_unchanged h o e h' : element_op o = true -> step h o = (Err e, h') -> h' = h.
Proof.
  intros Ho H.
  assert (forall a i v e h', arr_insert h a i v = (Err e, h') -> h' = h) as Hins.
  { clear. intros a i v e h' H. unfold arr_insert in H.
    destruct (nth_error h a) as [[dyn et mx items| |]|]; try congruence.
    destruct (_ <=? _)%Z; [congruence|]. destruct (Nat.eqb _ _); [congruence|].
    destruct et; try discriminate. destruct (prim_set _ _ _ _ _); congruence. }
  assert (forall a i e h', arr_delitem h a i = (Err e, h') -> h' = h) as Hdel.
  { clear. intros a i e h' H. unfold arr_delitem in H.
    destruct (nth_error h a) as [[dyn et mx items| |]|]; try congruence.
    destruct (norm_index _ _); congruence. }
  destruct o; try discriminate; cbn [step] in H.
  - congruence.
  - unfold arr_setitem in H.
    destruct (nth_error h a) as [[dyn et mx items| |]|]; try congruence.
    destruct (_ <=? _)%Z; [congruence|]. destruct (norm_index _ _); [|congruence].
    destruct et; try discriminate. destruct (prim_set _ _ _ _ _); congruence.
  - eapply Hdel. exact H.
  - eapply Hins. exact H.
  - unfold arr_append in H. destruct (nth_error h a) as [[dyn et mx items| |]|]; try congruence.
    eapply Hins. exact H.
  - unfold arr_pop in H. destruct (arr_getitem h a i); [|congruence].
    destruct (arr_delitem h a i) as ([v|e0] & h1) eqn:E; [discriminate|].
    assert (h' = h1) by congruence. subst h1. eapply Hdel. exact E.
Qed.

(** ** Items and values *)

Definition holds (et : atype) (s : slot) (v : pyval) : Prop := item_value et s = Ok v.

Lemma Forall2_nth {A B} (R : A -> B -> Prop) la lb d :
  length la = length lb ->
  (forall i a, nth_error la i = Some a -> R a (nth i lb d)) -> Forall2 R la lb.
Proof.
  revert lb. induction la as [|a la IH]; intros [|b lb] Hl H; cbn in Hl; try discriminate; constructor.
  - exact (H 0 a eq_refl).
  - apply IH; [lia|]. intros i x Hx. exact (H (S i) x Hx).
Qed.
Lemma Forall2_nth_inv {A B} (R : A -> B -> Prop) la lb d i a :
  Forall2 R la lb -> nth_error la i = Some a -> R a (nth i lb d).
Proof.
  intros H. revert i. induction H as [|x y la lb Hxy H IH]; intros [|i] Hi; try discriminate.
  - cbn in Hi. injection Hi as <-. exact Hxy.
  - cbn in *. auto.
Qed.
Lemma Forall2_len {A B} (R : A -> B -> Prop) la lb : Forall2 R la lb -> length la = length lb.
Proof. induction 1; cbn; congruence. Qed.
Lemma Forall2_firstn {A B} (R : A -> B -> Prop) la lb n : Forall2 R la lb -> Forall2 R (firstn n la) (firstn n lb).
Proof. intros H. revert n. induction H; intros [|n]; cbn; constructor; auto. Qed.
Lemma Forall2_skipn {A B} (R : A -> B -> Prop) la lb n : Forall2 R la lb -> Forall2 R (skipn n la) (skipn n lb).
Proof. intros H. revert n. induction H; intros [|n]; cbn; auto. Qed.

(** Python indices. *)
Lemma norm_index_mod n i : (- Z.of_nat n <= i < Z.of_nat n)%Z ->
  norm_index n i = Some (Z.to_nat (i mod Z.of_nat n)) /\ Z.to_nat (i mod Z.of_nat n) < n.
Proof.
  intros H. assert (i mod Z.of_nat n = if (i <? 0)%Z then i + Z.of_nat n else i)%Z as E.
  { destruct (i <? 0)%Z eqn:E.
    - symmetry. apply Z.mod_unique with (q := (-1)%Z); lia.
    - apply Z.mod_small. lia. }
  rewrite E. unfold norm_index. destruct (i <? 0)%Z eqn:E1.
  - replace ((0 <=? i + Z.of_nat n)%Z && (i + Z.of_nat n <? Z.of_nat n)%Z) with true by lia.
    split; [reflexivity|lia].
  - replace ((0 <=? i)%Z && (i <? Z.of_nat n)%Z) with true by lia. split; [reflexivity|lia].
Qed.
Lemma norm_index_out n i : ~ (- Z.of_nat n <= i < Z.of_nat n)%Z -> norm_index n i = None.
Proof.
  intros H. unfold norm_index. destruct (i <? 0)%Z eqn:E1.
  - replace ((0 <=? i + Z.of_nat n)%Z && (i + Z.of_nat n <? Z.of_nat n)%Z) with false by lia.
    reflexivity.
  - replace ((0 <=? i)%Z && (i <? Z.of_nat n)%Z) with false by lia. reflexivity.
Qed.

Lemma reads_items h a dyn et mx items vs : nth_error h a = Some (CArr dyn et mx items) ->
  (reads_as h a vs <-> Forall2 (holds et) items vs).
Proof.
  intros E. unfold reads_as, arr_len, arr_getitem. rewrite E. split.
  - intros (Hl & H). assert (length items = length vs) as Hl' by congruence.
    apply (Forall2_nth _ _ _ PNone); [exact Hl'|]. intros i s Hs.
    assert (i < length items) as Hi by (apply nth_error_Some; congruence).
    specialize (H (Z.of_nat i)). cbv zeta in H.
    destruct (norm_index_mod (length items) (Z.of_nat i) ltac:(lia)) as (En & _).
    rewrite En in H. rewrite Z.mod_small in H by lia. rewrite Nat2Z.id, Hs in H.
    rewrite <- Hl' in H.
    replace ((- Z.of_nat (length items) <=? Z.of_nat i)%Z && (Z.of_nat i <? Z.of_nat (length items))%Z)
      with true in H by lia.
    rewrite Z.mod_small in H by lia. rewrite Nat2Z.id in H. exact H.
  - intros H. pose proof (Forall2_len _ _ _ H) as Hl. split; [congruence|].
    intros i. cbv zeta. rewrite <- Hl.
    destruct ((- Z.of_nat (length items) <=? i)%Z && (i <? Z.of_nat (length items))%Z) eqn:Ei.
    + destruct (norm_index_mod (length items) i ltac:(lia)) as (En & Hlt). rewrite En.
      destruct (nth_error items (Z.to_nat (i mod Z.of_nat (length items)))) as [s|] eqn:Es.
      2:{ apply nth_error_None in Es. lia. }
      exact (Forall2_nth_inv _ _ _ PNone _ _ H Es).
    + rewrite norm_index_out by lia. reflexivity.
Qed.

(** Storing a value that the array keeps. *)
Lemma prim_set_keeps h k n cm v : keeps (APrim k n cm) v ->
  exists b, prim_set h k n cm v = Ok b /\ holds (APrim k n cm) (SPrim b) v.
Proof.
  intros (Ht & z & -> & Hr).
  destruct (assign_read k n cm z Ht Hr) as (b & Es & Eg).
  destruct (set_get k n cm z Ht) as (b' & Es' & Hl & _).
  assert (b' = b) by congruence. subst b'.
  assert (n <> 0) as Hn by (destruct k; cbn in Ht; lia || contradiction).
  exists b. split.
  - unfold prim_set. destruct k; try exact Es. contradiction.
  - unfold holds, item_value. destruct b as [|x b]; [cbn in Hl; lia|].
    unfold prim_get. destruct k; try contradiction; rewrite Eg; reflexivity.
Qed.

(** What [insert] stores. *)
Definition stored (h : heap) (et : atype) (v : pyval) (s : slot) : Prop :=
  match et with
  | APrim k n cm => exists b, prim_set h k n cm v = Ok b /\ s = SPrim b
  | _ => s = SObj v
  end.
Lemma keeps_stored h et v : keeps et v -> exists s, stored h et v s /\ holds et s v.
Proof.
  intros H. destruct et.
  - destruct (prim_set_keeps h _ _ _ _ H) as (b & A & B). exists (SPrim b).
    split; [exists b; auto|exact B].
  - exists (SObj v). split; reflexivity.
  - exists (SObj v). split; reflexivity.
  - exists (SObj v). split; reflexivity.
Qed.

Lemma insert_at h a dyn et mx items i v s :
  nth_error h a = Some (CArr dyn et mx items) -> length items < mx -> (i < Z.of_nat mx)%Z ->
  stored h et v s ->
  arr_insert h a i v =
    (Ok PNone, put h a (CArr dyn et mx (list_insert (insert_index (length items) i) s items))).
Proof.
  intros E Hl Hi Hs. unfold arr_insert. rewrite E.
  replace (Z.of_nat mx <=? i)%Z with false by lia.
  replace (Nat.eqb (length items) mx) with false by (symmetry; apply Nat.eqb_neq; lia).
  destruct et; cbn [stored] in Hs; try (rewrite Hs; reflexivity).
  destruct Hs as (b & -> & ->). reflexivity.
Qed.

Lemma insert_effect h a et mx vs i v :
  array_at h a et mx -> reads_as h a vs -> length vs < mx -> (i < Z.of_nat mx)%Z -> keeps et v ->
  exists h', step h (OInsert a i v) = (Ok PNone, h') /\ array_at h' a et mx /\
    reads_as h' a (py_insert i v vs) /\ forall b, b <> a -> nth_error h' b = nth_error h b.
Proof.
  intros (dyn & items & E) Hr Hl Hi Hk. apply (reads_items _ _ _ _ _ _ _ E) in Hr.
  pose proof (Forall2_len _ _ _ Hr) as HL.
  destruct (keeps_stored h et v Hk) as (s & Hs & Hh).
  eexists. split; [cbn [step]; apply (insert_at h a dyn et mx items i v s E); [lia|exact Hi|exact Hs]|].
  set (items' := list_insert _ _ _).
  assert (nth_error (put h a (CArr dyn et mx items')) a = Some (CArr dyn et mx items')) as E'
    by apply (put_same _ _ _ _ E).
  split; [exists dyn, items'; exact E'|]. split.
  - apply (reads_items _ _ _ _ _ _ _ E'). unfold items', list_insert, py_insert. cbv zeta.
    rewrite HL. replace (insert_index (length vs) i) with
      (Z.to_nat (if (i <? 0)%Z then Z.max 0 (i + Z.of_nat (length vs))
                 else Z.min i (Z.of_nat (length vs)))).
    2:{ unfold insert_index. destruct (i <? 0)%Z eqn:?; lia. }
    apply Forall2_app; [apply Forall2_firstn; exact Hr|].
    cbn [app]. constructor; [exact Hh|]. apply Forall2_skipn. exact Hr.
  - intros b Hb. apply put_other. congruence.
Qed.

Lemma append_is_insert h a et mx vs v : array_at h a et mx -> reads_as h a vs ->
  arr_append h a v = arr_insert h a (Z.of_nat (length vs)) v.
Proof.
  intros (dyn & items & E) (Hl & _). unfold arr_append. rewrite E.
  unfold arr_len in Hl. rewrite E in Hl. replace (length vs) with (length items) by congruence.
  reflexivity.
Qed.
Lemma py_insert_end v vs : py_insert (Z.of_nat (length vs)) v vs = vs ++ [v].
Proof.
  unfold py_insert. cbv zeta. replace (Z.of_nat (length vs) <? 0)%Z with false by lia.
  rewrite Z.min_id, Nat2Z.id, firstn_all, skipn_all. rewrite app_nil_r. reflexivity.
Qed.

Lemma append_effect h a et mx vs v :
  array_at h a et mx -> reads_as h a vs -> length vs < mx -> keeps et v ->
  exists h', step h (OAppend a v) = (Ok PNone, h') /\ array_at h' a et mx /\
    reads_as h' a (vs ++ [v]) /\ forall b, b <> a -> nth_error h' b = nth_error h b.
Proof.
  intros HA Hr Hl Hk. cbn [step]. rewrite (append_is_insert _ _ _ _ _ _ HA Hr).
  rewrite <- py_insert_end. apply (insert_effect _ _ _ _ _ _ _ HA Hr Hl); [lia|exact Hk].
Qed.

Lemma full_refuses h a et mx vs i v : array_at h a et mx -> reads_as h a vs -> length vs = mx ->
  step h (OInsert a i v) = (Err IndexError, h) /\ step h (OAppend a v) = (Err IndexError, h).
Proof.
  intros HA Hr Hl. cbn [step]. rewrite (append_is_insert _ _ _ _ _ _ HA Hr).
  destruct HA as (dyn & items & E). destruct Hr as (Hn & _).
  unfold arr_len in Hn. rewrite E in Hn.
  assert (length items = mx) as Hi by congruence.
  unfold arr_insert. rewrite E, Hi, Nat.eqb_refl. split; dif; reflexivity.
Qed.

Lemma list_set_split {A} (l : list A) i x : i < length l ->
  list_set l i x = firstn i l ++ [x] ++ skipn (S i) l.
Proof.
  revert i. induction l as [|y l IH]; intros i H; cbn in H; [lia|].
  destruct i; [reflexivity|]. cbn [list_set firstn skipn app]. f_equal. apply IH. lia.
Qed.

Lemma setitem_effect h a et mx vs i v :
  array_at h a et mx -> reads_as h a vs -> length vs <= mx -> in_bounds i vs -> keeps et v ->
  exists h', step h (OSetItem a i v) = (Ok PNone, h') /\ array_at h' a et mx /\
    reads_as h' a (py_replace i v vs) /\ forall b, b <> a -> nth_error h' b = nth_error h b.
Proof.
  intros (dyn & items & E) Hr Hl Hi Hk. apply (reads_items _ _ _ _ _ _ _ E) in Hr.
  pose proof (Forall2_len _ _ _ Hr) as HL. unfold in_bounds in Hi.
  destruct (keeps_stored h et v Hk) as (s & Hs & Hh).
  destruct (norm_index_mod (length items) i ltac:(lia)) as (En & Hlt).
  set (j := Z.to_nat (i mod Z.of_nat (length items))) in *.
  set (items' := list_set items j s).
  assert (step h (OSetItem a i v) = (Ok PNone, put h a (CArr dyn et mx items'))) as ES.
  { cbn [step]. unfold arr_setitem. rewrite E.
    replace (Z.of_nat mx <=? i)%Z with false by lia. rewrite En.
    destruct et; cbn [stored] in Hs; try (unfold items'; rewrite Hs; reflexivity).
    destruct Hs as (b & -> & Eb). unfold items'. rewrite Eb. reflexivity. }
  eexists. split; [exact ES|].
  assert (nth_error (put h a (CArr dyn et mx items')) a = Some (CArr dyn et mx items')) as E'
    by apply (put_same _ _ _ _ E).
  split; [exists dyn, items'; exact E'|]. split.
  - apply (reads_items _ _ _ _ _ _ _ E'). unfold items', py_replace. cbv zeta.
    rewrite list_set_split by exact Hlt. subst j. rewrite HL.
    apply Forall2_app; [apply Forall2_firstn; exact Hr|].
    cbn [app]. constructor; [exact Hh|]. apply Forall2_skipn. exact Hr.
  - intros b Hb. apply put_other. congruence.
Qed.

Lemma delitem_effect h a et mx vs i :
  array_at h a et mx -> reads_as h a vs -> in_bounds i vs ->
  exists h', step h (ODel a i) = (Ok PNone, h') /\
    step h (OPop a i) = (arr_getitem h a i, h') /\ array_at h' a et mx /\
    reads_as h' a (py_delete i vs) /\ forall b, b <> a -> nth_error h' b = nth_error h b.
Proof.
  intros (dyn & items & E) Hr0 Hi. pose proof Hr0 as Hr. apply (reads_items _ _ _ _ _ _ _ E) in Hr.
  pose proof (Forall2_len _ _ _ Hr) as HL. unfold in_bounds in Hi.
  destruct (norm_index_mod (length items) i ltac:(lia)) as (En & Hlt).
  set (j := Z.to_nat (i mod Z.of_nat (length items))) in *.
  set (items' := list_remove j items).
  assert (arr_delitem h a i = (Ok PNone, put h a (CArr dyn et mx items'))) as ES.
  { unfold arr_delitem. rewrite E, En. reflexivity. }
  eexists. split; [exact ES|]. split.
  { cbn [step]. unfold arr_pop. rewrite ES. destruct Hr0 as (_ & Hg). rewrite (Hg i). cbv zeta.
    replace ((- Z.of_nat (length vs) <=? i)%Z && (i <? Z.of_nat (length vs))%Z) with true by lia.
    reflexivity. }
  assert (nth_error (put h a (CArr dyn et mx items')) a = Some (CArr dyn et mx items')) as E'
    by apply (put_same _ _ _ _ E).
  split; [exists dyn, items'; exact E'|]. split.
  - apply (reads_items _ _ _ _ _ _ _ E'). unfold items', list_remove, py_delete. cbv zeta.
    subst j. rewrite HL.
    apply Forall2_app; [apply Forall2_firstn; exact Hr|]. apply Forall2_skipn. exact Hr.
  - intros b Hb. apply put_other. congruence.
Qed.

Lemma out_of_bounds h a et mx vs i v : array_at h a et mx -> reads_as h a vs -> ~ in_bounds i vs ->
  step h (OSetItem a i v) = (Err IndexError, h) /\ step h (ODel a i) = (Err IndexError, h) /\
  step h (OPop a i) = (Err IndexError, h).
Proof.
  intros (dyn & items & E) (Hn & _) Hi. unfold arr_len in Hn. rewrite E in Hn.
  assert (length items = length vs) as HL by congruence. unfold in_bounds in Hi.
  assert (norm_index (length items) i = None) as En by (apply norm_index_out; lia).
  cbn [step]. unfold arr_setitem, arr_delitem, arr_pop, arr_getitem. rewrite E, En.
  split; [dif; reflexivity|]. split; reflexivity.
Qed.

(** Appending several values. *)
Lemma append_all_effect vs : forall h a et mx vs0, array_at h a et mx -> reads_as h a vs0 ->
  Forall (keeps et) vs ->
  exists h', array_at h' a et mx /\ (forall b, b <> a -> nth_error h' b = nth_error h b) /\
    (if length vs0 + length vs <=? mx
     then append_all h a vs = (Ok PNone, h') /\ reads_as h' a (vs0 ++ vs)
     else length vs0 <= mx ->
          append_all h a vs = (Err IndexError, h') /\ reads_as h' a (firstn mx (vs0 ++ vs))).
Proof.
  induction vs as [|v vs IH]; intros h a et mx vs0 HA Hr Hk.
  - exists h. split; [exact HA|]. split; [reflexivity|]. cbn [length append_all].
    destruct (length vs0 + 0 <=? mx) eqn:E.
    + rewrite app_nil_r. auto.
    + intros H. lia.
  - apply Forall_cons_iff in Hk as (Hv & Hk).
    destruct (Nat.lt_ge_cases (length vs0) mx) as [Hlt|Hge].
    + destruct (append_effect h a et mx vs0 v HA Hr Hlt Hv) as (h1 & E1 & HA1 & Hr1 & F1).
      cbn [step] in E1.
      destruct (IH h1 a et mx (vs0 ++ [v]) HA1 Hr1 Hk) as (h2 & HA2 & F2 & H2).
      exists h2. split; [exact HA2|]. split; [intros b Hb; rewrite F2, F1 by exact Hb; reflexivity|].
      cbn [append_all length]. rewrite E1.
      rewrite app_length in H2. cbn [length] in H2.
      replace (length vs0 + S (length vs)) with (length vs0 + 1 + length vs) by lia.
      rewrite <- app_assoc in H2. cbn [app] in H2.
      destruct (length vs0 + 1 + length vs <=? mx); [exact H2|]. intros _. apply H2. lia.
    + exists h. split; [exact HA|]. split; [reflexivity|].
      replace (length vs0 + length (v :: vs) <=? mx) with false by (cbn [length]; lia).
      intros Hle. assert (length vs0 = mx) as Hm by lia.
      cbn [append_all]. pose proof (full_refuses h a et mx vs0 0%Z v HA Hr Hm) as (_ & Ef).
      cbn [step] in Ef. rewrite Ef. split; [reflexivity|].
      rewrite <- Hm, firstn_app, Nat.sub_diag, firstn_O, app_nil_r, firstn_all. exact Hr.
Qed.

(** Emptying. *)
Lemma clear_effect h a et mx : array_at h a et mx ->
  exists h', arr_clear h a = (Ok PNone, h') /\ arr_delall h a = (Ok PNone, h') /\
    array_at h' a et mx /\ reads_as h' a [] /\
    forall b, b <> a -> nth_error h' b = nth_error h b.
Proof.
  intros (dyn & items & E). exists (put h a (CArr dyn et mx [])).
  assert (nth_error (put h a (CArr dyn et mx [])) a = Some (CArr dyn et mx [])) as E'
    by apply (put_same _ _ _ _ E).
  unfold arr_clear, arr_delall. rewrite E, clear_loop_nil by lia.
  split; [reflexivity|]. split; [reflexivity|]. split; [exists dyn, []; exact E'|].
  split; [apply (reads_items _ _ _ _ _ _ _ E'); constructor|].
  intros b Hb. apply put_other. congruence.
Qed.

(** ** Assignment to an array field *)

Lemma yields_iterate h v vs : yields h v vs -> iterate h v = Ok vs.
Proof.
  intros [->|(c & et & mx & -> & (dyn & items & E) & Hr)]; [reflexivity|].
  cbn [iterate]. rewrite E. apply (reads_items _ _ _ _ _ _ _ E) in Hr.
  clear E. induction Hr as [|s w items vs Hs H IH]; [reflexivity|].
  cbn [mapM]. rewrite Hs, IH. reflexivity.
Qed.

Lemma reads_as_same h h' a vs : nth_error h' a = nth_error h a -> reads_as h a vs -> reads_as h' a vs.
Proof. unfold reads_as, arr_len, arr_getitem. intros ->. auto. Qed.
Lemma array_at_same h h' a et mx : nth_error h' a = nth_error h a -> array_at h a et mx -> array_at h' a et mx.
Proof. unfold array_at. intros ->. auto. Qed.

Lemma yields_same h h' v vs : (forall c, v = PRef c -> nth_error h' c = nth_error h c) ->
  yields h v vs -> yields h' v vs.
Proof.
  intros Hs [->|(c & et & mx & -> & HA & Hr)]; [left; reflexivity|]. right.
  exists c, et, mx. split; [reflexivity|]. specialize (Hs c eq_refl).
  split; [eapply array_at_same|eapply reads_as_same]; eauto.
Qed.

Lemma assign_array_effect h b et mx v vs : array_at h b et mx -> yields h v vs -> v <> PRef b ->
  Forall (keeps et) vs ->
  exists h', assign_array h b v = ((if length vs <=? mx then Ok PNone else Err AttributeError), h') /\
    array_at h' b et mx /\ reads_as h' b (firstn mx vs) /\
    (forall c, c <> b -> nth_error h' c = nth_error h c).
Proof.
  intros HA Hy Hne Hk.
  destruct (clear_effect h b et mx HA) as (h1 & E1 & _ & HA1 & Hr1 & F1).
  assert (yields h1 v vs) as Hy1.
  { apply (yields_same h); [|exact Hy]. intros c ->. apply F1. congruence. }
  destruct (append_all_effect vs h1 b et mx [] HA1 Hr1 Hk) as (h2 & HA2 & F2 & H2).
  cbn [length app] in H2. rewrite Nat.add_0_l in H2.
  exists h2. split; [|split; [exact HA2|split]].
  - unfold assign_array. rewrite E1.
    assert (match v with
            | PStr s => arr_encode h1 b s
            | _ => match iterate h1 v with Ok vs => append_all h1 b vs | Err e => (Err e, h1) end
            end = append_all h1 b vs) as ->.
    { rewrite (yields_iterate _ _ _ Hy1). destruct Hy1 as [->|(c & ? & ? & -> & _)]; reflexivity. }
    destruct (length vs <=? mx); [destruct H2 as (-> & _)|destruct (H2 ltac:(lia)) as (-> & _)]; reflexivity.
  - destruct (length vs <=? mx) eqn:El.
    + rewrite firstn_all2 by lia. exact (proj2 H2).
    + exact (proj2 (H2 ltac:(lia))).
  - intros c Hc. rewrite F2, F1 by exact Hc. reflexivity.
Qed.

(** A field that can be used. *)
Lemma setattr_array h a nm b v : field_array h a nm b -> open_field h a nm ->
  exists h1, setattr h a nm v = assign_array h1 b v /\
    (forall c dyn et mx items, nth_error h c = Some (CArr dyn et mx items) -> nth_error h1 c = nth_error h c) /\
    (forall c sl, nth_error h c = Some (CDict sl) -> nth_error h1 c = nth_error h c) /\
    (forall c, c <> a -> nth_error h1 c = nth_error h c) /\
    exists full u fs cs d active active' extra,
      nth_error h a = Some (CComp full u fs cs d active extra) /\
      nth_error h1 a = Some (CComp full u fs cs d active' extra) /\
      (u = true -> active' = Some nm).
Proof.
  intros (full & u & fs & cs & d & active & extra & i & dyn & et & mx & slots & E & Ec & Ef & Ed & Es) Ho.
  assert (union_blocks u active nm = false) as Eb.
  { unfold union_blocks. destruct u; [|reflexivity]. destruct (Ho _ _ _ _ _ _ _ E eq_refl) as [->| ->];
      [reflexivity|]. rewrite String.eqb_refl. reflexivity. }
  exists (if u then put h a (CComp full u fs cs d (Some nm) extra) else h).
  set (h1 := if u then put h a (CComp full u fs cs d (Some nm) extra) else h).
  assert (forall c, c <> a -> nth_error h1 c = nth_error h c) as Hoth.
  { intros c Hc. unfold h1. destruct u; [apply put_other; congruence|reflexivity]. }
  split; [|split; [|split; [|split; [exact Hoth|]]]].
  - unfold setattr. rewrite E, Ec, Ef, Eb. fold h1. cbv zeta.
    rewrite (Hoth d) by (intros ->; congruence). rewrite Ed, Es. reflexivity.
  - intros c dyn' et' mx' items' Hc. apply Hoth. intros ->. congruence.
  - intros c sl Hc. apply Hoth. intros ->. congruence.
  - exists full, u, fs, cs, d, active, (if u then Some nm else active), extra.
    split; [exact E|]. unfold h1. split.
    + destruct u; [apply (put_same _ _ _ _ E)|exact E].
    + intros ->. reflexivity.
Qed.

Lemma field_array_len h h1 h2 a nm b : field_array h a nm b ->
  (forall c, c <> a -> nth_error h1 c = nth_error h c) ->
  (exists full u fs cs d active active' extra,
      nth_error h a = Some (CComp full u fs cs d active extra) /\
      nth_error h1 a = Some (CComp full u fs cs d active' extra) /\ (u = true -> active' = Some nm)) ->
  (forall c, c <> b -> nth_error h2 c = nth_error h1 c) ->
  (exists dyn et mx items, nth_error h1 b = Some (CArr dyn et mx items)) ->
  field_array h2 a nm b.
Proof.
  intros (full & u & fs & cs & d & active & extra & i & dyn & et & mx & slots & E & Ec & Ef & Ed & Es)
    F1 (full' & u' & fs' & cs' & d' & act0 & act' & ex' & E' & E1 & _) F2 (dyn2 & et2 & mx2 & it2 & Eb).
  rewrite E in E'. assert (full' = full) by congruence. assert (u' = u) by congruence.
  assert (fs' = fs) by congruence. assert (cs' = cs) by congruence. assert (d' = d) by congruence.
  subst. exists full, u, fs, cs, d, act', ex', i, dyn, et, mx, slots.
  split; [rewrite F2; [exact E1|intros ->; congruence]|].
  split; [exact Ec|]. split; [exact Ef|]. split; [|exact Es].
  rewrite F2, F1; [exact Ed|intros ->; congruence|].
  intros ->. rewrite F1 in Eb; [congruence|intros ->; congruence].
Qed.

Lemma assign_field h a nm b et mx v vs : field_array h a nm b -> open_field h a nm ->
  array_at h b et mx -> yields h v vs -> v <> PRef b -> Forall (keeps et) vs ->
  exists h', setattr h a nm v = ((if length vs <=? mx then Ok PNone else Err AttributeError), h') /\
    field_array h' a nm b /\ array_at h' b et mx /\ reads_as h' b (firstn mx vs) /\
    (forall c, v = PRef c -> reads_as h' c vs).
Proof.
  intros Hf Ho HA Hy Hne Hk.
  destruct (setattr_array h a nm b v Hf Ho) as (h1 & E1 & Fa & Fd & Fo & Fc).
  assert (array_at h1 b et mx) as HA1.
  { destruct HA as (dyn & items & E). exists dyn, items. rewrite (Fa _ _ _ _ _ E). exact E. }
  assert (yields h1 v vs) as Hy1.
  { apply (yields_same h); [|exact Hy]. intros c ->.
    destruct Hy as [Hy|(c' & et' & mx' & Hc & (dyn' & items' & E') & _)]; [discriminate|].
    assert (c' = c) by congruence. subst. apply (Fa _ _ _ _ _ E'). }
  destruct (assign_array_effect h1 b et mx v vs HA1 Hy1 Hne Hk) as (h2 & E2 & HA2 & Hr2 & F2).
  exists h2. rewrite E1. split; [exact E2|]. split; [|split; [exact HA2|split; [exact Hr2|]]].
  - apply (field_array_len h h1 h2); auto.
    destruct HA1 as (dyn & items & E). exists dyn, et, mx, items. exact E.
  - intros c ->. destruct Hy1 as [Hy1|(c' & et' & mx' & Hc & _ & Hr)]; [discriminate|].
    assert (c' = c) by congruence. subst. apply (reads_as_same h1); [|exact Hr].
    apply F2. congruence.
Qed.

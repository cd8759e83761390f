(** Slices, reversal, switching of unions, and augmented assignment. *)
From Coq Require Import String.
From Verif.Base Require Import Prelude Bits.
From Verif.Model Require Import BitCodec Types Codec Prim Float Utf8 ObjectApi.
From Verif.Spec Require Import PrimSpec CodecSpec ObjectSpec.
From Verif.Proofs Require Import CodecFacts PrimFacts Utf8Facts ObjectFacts ObjectTop ObjectArrays
  ObjectUnions.
Open Scope list_scope.

(** ** Slices *)

Lemma bound_same (l : list pyval) (n : nat) i : n = length l -> insert_index n i = py_bound l i.
Proof. intros ->. unfold insert_index, py_bound. cbv zeta. destruct (i <? 0)%Z eqn:E; lia. Qed.
Lemma bound_le l i : py_bound l i <= length l.
Proof. unfold py_bound. cbv zeta. destruct (i <? 0)%Z eqn:E; lia. Qed.

Lemma delslice_effect h a et mx vs lo hi :
  array_at h a et mx -> reads_as h a vs ->
  exists h', step h (ODelSlice a lo hi) = (Ok PNone, h') /\ array_at h' a et mx /\
    reads_as h' a (py_delete_slice lo hi vs) /\ forall b, b <> a -> nth_error h' b = nth_error h b.
Proof.
  intros (dyn & items & E) Hr. apply (reads_items _ _ _ _ _ _ _ E) in Hr.
  pose proof (Forall2_len _ _ _ Hr) as HL.
  set (s := slice_bound (length items) lo 0).
  set (e := slice_bound (length items) hi (length items)).
  set (items' := firstn s items ++ skipn (Nat.max s e) items).
  assert (step h (ODelSlice a lo hi) = (Ok PNone, put h a (CArr dyn et mx items'))) as ES.
  { cbn [step]. unfold arr_delslice. rewrite E. reflexivity. }
  assert (nth_error (put h a (CArr dyn et mx items')) a = Some (CArr dyn et mx items')) as E'
    by apply (put_same _ _ _ _ E).
  eexists. split; [exact ES|]. split; [exists dyn, items'; exact E'|]. split.
  - apply (reads_items _ _ _ _ _ _ _ E'). unfold items', py_delete_slice. cbv zeta.
    assert (s = match lo with Some i => py_bound vs i | None => 0 end) as Es
      by (unfold s, slice_bound; destruct lo; [apply bound_same; exact HL|reflexivity]).
    assert (e = match hi with Some i => py_bound vs i | None => length vs end) as Ee
      by (unfold e, slice_bound; destruct hi; [apply bound_same; exact HL|exact HL]).
    rewrite <- Es, <- Ee. destruct (s <=? e) eqn:Ese.
    + replace (Nat.max s e) with e by lia.
      apply Forall2_app; [apply Forall2_firstn|apply Forall2_skipn]; exact Hr.
    + replace (Nat.max s e) with s by lia. rewrite firstn_skipn. exact Hr.
  - intros b Hb. apply put_other. congruence.
Qed.

(** ** Reversal *)

Lemma nth_drop {A} (l : list A) n m d : nth m (skipn n l) d = nth (n + m) l d.
Proof.
  revert l. induction n as [|n IH]; intros [|x l]; try reflexivity.
  - destruct m; reflexivity.
  - cbn [skipn Nat.add nth]. apply IH.
Qed.
Lemma nth_take {A} (l : list A) n m d : m < n -> nth m (firstn n l) d = nth m l d.
Proof.
  revert l m. induction n as [|n IH]; intros [|x l] m H; try lia; try reflexivity.
  destruct m; [reflexivity|]. cbn [firstn nth]. apply IH. lia.
Qed.
Lemma nth_py_replace (l : list pyval) (i : nat) v j : i < length l ->
  nth j (py_replace (Z.of_nat i) v l) PNone = if j =? i then v else nth j l PNone.
Proof.
  intros Hi. unfold py_replace. cbv zeta. rewrite Z.mod_small by lia. rewrite Nat2Z.id.
  destruct (Nat.lt_trichotomy j i) as [H|[->|H]].
  - replace (j =? i) with false by lia.
    rewrite app_nth1 by (rewrite firstn_length; lia).
    apply nth_take. exact H.
  - rewrite Nat.eqb_refl, app_nth2 by (rewrite firstn_length; lia).
    rewrite firstn_length. replace (i - Nat.min i (length l)) with 0 by lia. reflexivity.
  - replace (j =? i) with false by lia.
    rewrite app_nth2 by (rewrite firstn_length; lia). rewrite firstn_length.
    rewrite app_nth2 by (cbn [length]; lia). cbn [length].
    rewrite nth_drop. f_equal. lia.
Qed.
Lemma py_replace_length (l : list pyval) (i : nat) v : i < length l ->
  length (py_replace (Z.of_nat i) v l) = length l.
Proof.
  intros Hi. unfold py_replace. cbv zeta. rewrite Z.mod_small by lia. rewrite Nat2Z.id.
  rewrite !app_length, firstn_length, skipn_length. cbn [length]. lia.
Qed.

Lemma getitem_nth h a vs (i : nat) : reads_as h a vs -> i < length vs ->
  arr_getitem h a (Z.of_nat i) = Ok (nth i vs PNone).
Proof.
  intros (_ & H) Hi. rewrite H. cbv zeta.
  replace ((- Z.of_nat (length vs) <=? Z.of_nat i)%Z && (Z.of_nat i <? Z.of_nat (length vs))%Z) with true by lia.
  rewrite Z.mod_small by lia. rewrite Nat2Z.id. reflexivity.
Qed.

(** After [k] rounds the first and the last [k] items are exchanged. *)
Definition turned (vs l : list pyval) (k : nat) : Prop :=
  length l = length vs /\
  forall j, j < length vs -> nth j l PNone =
    if (j <? k) || (length vs - k <=? j) then nth (length vs - 1 - j) vs PNone else nth j vs PNone.

Lemma reverse_loop_effect et mx vs m : Forall (keeps et) vs -> length vs <= mx ->
  forall h a k l, k + m = length vs / 2 -> array_at h a et mx -> reads_as h a l -> turned vs l k ->
  exists h' l', reverse_loop h a (length vs) k m = (Ok PNone, h') /\ array_at h' a et mx /\
    reads_as h' a l' /\ turned vs l' (length vs / 2) /\ forall b, b <> a -> nth_error h' b = nth_error h b.
Proof.
  intros Hk Hmx. induction m as [|m IH]; intros h a k l Hkm HA Hr Ht.
  - exists h, l. split; [reflexivity|]. split; [exact HA|]. split; [exact Hr|].
    split; [replace (length vs / 2) with k by lia; exact Ht|reflexivity].
  - pose proof Ht as (Hl & Hn). set (n := length vs) in *.
    assert (2 * (n / 2) <= n) as H2 by (pose proof (Nat.mul_div_le n 2); lia).
    assert (k < n - 1 - k) as Hlt by lia.
    assert (forall j, j < n -> keeps et (nth j vs PNone)) as Hkn.
    { intros j Hj. rewrite Forall_forall in Hk. apply Hk, nth_In. exact Hj. }
    cbn [reverse_loop]. cbv zeta.
    replace (Z.of_nat n - Z.of_nat k - 1)%Z with (Z.of_nat (n - 1 - k)) by lia.
    rewrite (getitem_nth h a l (n - 1 - k) Hr) by lia.
    rewrite (getitem_nth h a l k Hr) by lia.
    assert (nth (n - 1 - k) l PNone = nth (n - 1 - k) vs PNone) as E1.
    { rewrite Hn by lia. replace ((n - 1 - k <? k) || (n - k <=? n - 1 - k)) with false by lia. reflexivity. }
    assert (nth k l PNone = nth k vs PNone) as E2.
    { rewrite Hn by lia. replace ((k <? k) || (n - k <=? k)) with false by lia. reflexivity. }
    rewrite E1, E2.
    destruct (setitem_effect h a et mx l (Z.of_nat k) (nth (n - 1 - k) vs PNone) HA Hr) as (h1 & S1 & A1 & R1 & F1);
      [lia|unfold in_bounds; lia|apply Hkn; lia|].
    cbn [step] in S1. rewrite S1.
    pose proof (py_replace_length l k (nth (n - 1 - k) vs PNone) ltac:(lia)) as L1.
    set (l1 := py_replace (Z.of_nat k) (nth (n - 1 - k) vs PNone) l) in *.
    destruct (setitem_effect h1 a et mx l1 (Z.of_nat (n - 1 - k)) (nth k vs PNone) A1 R1) as (h2 & S2 & A2 & R2 & F2);
      [lia|unfold in_bounds; lia|apply Hkn; lia|].
    cbn [step] in S2. rewrite S2.
    pose proof (py_replace_length l1 (n - 1 - k) (nth k vs PNone) ltac:(lia)) as L2.
    set (l2 := py_replace (Z.of_nat (n - 1 - k)) (nth k vs PNone) l1) in *.
    destruct (IH h2 a (S k) l2 ltac:(lia) A2 R2) as (h3 & l3 & S3 & A3 & R3 & T3 & F3).
    { split; [lia|]. intros j Hj. fold n in Hj |- *. unfold l2. rewrite nth_py_replace by lia.
      unfold l1. rewrite nth_py_replace by lia.
      destruct (j =? n - 1 - k) eqn:Ej1.
      - apply Nat.eqb_eq in Ej1. subst j.
        replace ((n - 1 - k <? S k) || (n - S k <=? n - 1 - k)) with true by lia. replace (n - 1 - (n - 1 - k)) with k by lia. reflexivity.
      - destruct (j =? k) eqn:Ej2.
        + apply Nat.eqb_eq in Ej2. subst j.
          replace ((k <? S k) || (n - S k <=? k)) with true by lia. reflexivity.
        + apply Nat.eqb_neq in Ej1. apply Nat.eqb_neq in Ej2. rewrite Hn by lia.
          destruct ((j <? S k) || (n - S k <=? j)) eqn:B1; destruct ((j <? k) || (n - k <=? j)) eqn:B2;
            try reflexivity; exfalso; clear -Ej1 Ej2 B1 B2 Hj Hlt; lia. }
    exists h3, l3. split; [exact S3|]. split; [exact A3|]. split; [exact R3|]. split; [exact T3|].
    intros b Hb. rewrite F3, F2, F1 by exact Hb. reflexivity.
Qed.

Lemma turned_rev vs l : turned vs l (length vs / 2) -> l = rev vs.
Proof.
  intros (Hl & Hn). apply (nth_ext _ _ PNone PNone); [rewrite rev_length; exact Hl|].
  intros j Hj. rewrite rev_nth by lia. rewrite Hn by lia.
  replace (length vs - S j) with (length vs - 1 - j) by lia.
  set (n := length vs) in *.
  pose proof (Nat.div_mod n 2 ltac:(lia)) as D. pose proof (Nat.mod_upper_bound n 2 ltac:(lia)) as M.
  destruct ((j <? n / 2) || (n - n / 2 <=? j)) eqn:E; [reflexivity|]. f_equal. lia.
Qed.

Lemma reverse_effect h a et mx vs :
  array_at h a et mx -> reads_as h a vs -> length vs <= mx -> Forall (keeps et) vs ->
  exists h', step h (OReverse a) = (Ok PNone, h') /\ array_at h' a et mx /\
    reads_as h' a (rev vs) /\ forall b, b <> a -> nth_error h' b = nth_error h b.
Proof.
  intros HA Hr Hmx Hk. cbn [step]. unfold arr_reverse. pose proof Hr as (Hl & _). rewrite Hl.
  destruct (reverse_loop_effect et mx vs (length vs / 2) Hk Hmx h a 0 vs eq_refl HA Hr)
    as (h' & l' & S & A & R & T & F).
  { split; [reflexivity|]. intros j Hj. rewrite Nat.sub_0_r.
    replace ((j <? 0) || (length vs <=? j)) with false by lia. reflexivity. }
  apply turned_rev in T. subst l'. exists h'. auto.
Qed.

(** ** Switching *)

Lemma switch_effect h a nm fs cs act f : object_at h a (AComp nm true fs cs) act -> f <> EmptyString ->
  exists h', step h (OSwitch a (Some f)) = (Ok PNone, h') /\
    object_at h' a (AComp nm true fs cs) (Some f) /\
    (forall b, b <> a -> nth_error h' b = nth_error h b) /\
    (forall g, field_slot h' a g = field_slot h a g).
Proof.
  intros (d & extra & E) Hf. cbn [step]. unfold switch_union_field. rewrite E.
  eexists. split; [reflexivity|]. replace (match f with EmptyString => None | _ => Some f end) with (Some f)
    by (destruct f; [contradiction|reflexivity]).
  set (c := CComp nm true fs cs d (Some f) extra).
  assert (nth_error (put h a c) a = Some c) as E' by apply (put_same _ _ _ _ E).
  split; [exists d, extra; exact E'|]. split; [intros b Hb; apply put_other; congruence|].
  intros g. unfold field_slot. rewrite E', E. unfold c.
  destruct (Nat.eq_dec a d) as [->|Hd]; [|rewrite put_other by exact Hd; reflexivity].
  fold c. rewrite E', E. reflexivity.
Qed.

Lemma release_effect h a nm fs cs act : object_at h a (AComp nm true fs cs) act ->
  exists h', step h (OSwitch a None) = (Ok PNone, h') /\ object_at h' a (AComp nm true fs cs) None /\
    forall b, b <> a -> nth_error h' b = nth_error h b.
Proof.
  intros (d & extra & E). cbn [step]. unfold switch_union_field. rewrite E.
  eexists. split; [reflexivity|]. split; [exists d, extra; apply (put_same _ _ _ _ E)|].
  intros b Hb. apply put_other. congruence.
Qed.

Lemma switch_refused h a nm fs cs act f : object_at h a (AComp nm false fs cs) act ->
  step h (OSwitch a f) = (Err ValueError, h).
Proof. intros (d & extra & E). cbn [step]. unfold switch_union_field. rewrite E. reflexivity. Qed.

(** A union that was switched to something it does not have stands for
    nothing. *)
Lemma switched_away h a nm fs cs f : object_at h a (AComp nm true fs cs) (Some f) ->
  ~ In f (map fst fs) -> reify h (AComp nm true fs cs) (SObj (PRef a)) = None.
Proof.
  intros (d & extra & E) Hf. cbn [reify]. rewrite E, String.eqb_refl. cbn [andb active_known].
  destruct (find_field fs f) as [(i & t)|] eqn:Ef; [|reflexivity].
  exfalso. apply Hf. apply find_field_in in Ef. apply nth_error_In in Ef.
  apply in_map with (f := fst) in Ef. exact Ef.
Qed.

(** ** Assignment of the field to itself *)

Lemma self_assign h a nm b et mx : field_array h a nm b -> open_field h a nm -> array_at h b et mx ->
  exists h', step h (OSet a nm (PRef b)) = (Ok PNone, h') /\ array_at h' b et mx /\ reads_as h' b [].
Proof.
  intros Hf Ho HA. destruct (setattr_array h a nm b (PRef b) Hf Ho) as (h1 & E1 & Fa & _).
  assert (array_at h1 b et mx) as HA1.
  { destruct HA as (dyn & items & E). exists dyn, items. rewrite (Fa _ _ _ _ _ E). exact E. }
  destruct (clear_effect h1 b et mx HA1) as (h2 & Ec & _ & HA2 & Hr2 & _).
  exists h2. cbn [step]. rewrite E1. unfold assign_array. rewrite Ec.
  rewrite (yields_iterate h2 (PRef b) []); [cbn [append_all]; auto|].
  right. exists b, et, mx. auto.
Qed.

(** [msg.field += vs] is [t = msg.field; t.extend(vs); msg.field = t]. *)
Lemma augmented h a nm b et mx vs0 vs : field_array h a nm b -> open_field h a nm ->
  array_at h b et mx -> reads_as h b vs0 -> Forall (keeps et) vs -> length vs0 + length vs <= mx ->
  exists h1 h2 h3, step h (OGet a nm) = (Ok (PRef b), h1) /\
    step h1 (OExtend b (PList vs)) = (Ok PNone, h2) /\ reads_as h2 b (vs0 ++ vs) /\
    step h2 (OSet a nm (PRef b)) = (Ok PNone, h3) /\ reads_as h3 b [].
Proof.
  intros Hf Ho HA Hr Hk Hl.
  destruct Hf as (full & u & fs & cs & d & active & extra & i & dyn & et0 & mx0 & slots & E & Ec & Ef & Ed & Es).
  assert (union_blocks u active nm = false) as Eb.
  { unfold union_blocks. destruct u; [|reflexivity]. destruct (Ho _ _ _ _ _ _ _ E eq_refl) as [->| ->];
      [reflexivity|]. rewrite String.eqb_refl. reflexivity. }
  set (h1 := if u then put h a (CComp full u fs cs d (Some nm) extra) else h).
  assert (forall c, c <> a -> nth_error h1 c = nth_error h c) as Hoth.
  { intros c Hc. unfold h1. destruct u; [apply put_other; congruence|reflexivity]. }
  assert (exists act', nth_error h1 a = Some (CComp full u fs cs d act' extra) /\ (u = true -> act' = Some nm))
    as (act' & E1 & Ha1).
  { unfold h1. destruct u; [exists (Some nm)|exists active].
    - split; [apply (put_same _ _ _ _ E)|reflexivity].
    - split; [exact E|discriminate]. }
  assert (d <> a) as Hda by congruence.
  assert (nth_error h1 d = Some (CDict slots)) as Ed1 by (rewrite Hoth by exact Hda; exact Ed).
  assert (step h (OGet a nm) = (Ok (PRef b), h1)) as S1.
  { cbn [step]. unfold getattr. rewrite E, Ec, Ef, Eb. fold h1. cbv zeta. rewrite Ed1, Es. reflexivity. }
  assert (b <> a) as Hba by (destruct HA as (? & ? & HA); congruence).
  pose proof (array_at_same _ _ _ _ _ (Hoth b Hba) HA) as HA1.
  pose proof (reads_as_same _ _ _ _ (Hoth b Hba) Hr) as Hr1.
  destruct (append_all_effect vs h1 b et mx vs0 HA1 Hr1 Hk) as (h2 & HA2 & F2 & H2).
  replace (length vs0 + length vs <=? mx) with true in H2 by lia. destruct H2 as (S2 & Hr2).
  assert (b <> d) as Hbd by (destruct HA as (? & ? & HA); congruence).
  destruct (self_assign h2 a nm b et mx) as (h3 & S3 & _ & Hr3); [| |exact HA2|].
  - exists full, u, fs, cs, d, act', extra, i, dyn, et0, mx0, slots.
    split; [rewrite F2 by congruence; exact E1|]. split; [exact Ec|]. split; [exact Ef|].
    split; [rewrite F2 by congruence; exact Ed1|exact Es].
  - intros full' u' fs' cs' d' ac ex H Hu. rewrite F2, E1 in H by congruence.
    assert (u' = u) by congruence. assert (ac = act') by congruence. subst. right. apply Ha1. reflexivity.
  - exists h1, h2, h3. split; [exact S1|]. split; [|split; [exact Hr2|split; [exact S3|exact Hr3]]].
    cbn [step]. unfold arr_extend. cbn [iterate]. exact S2.
Qed.

(** How the operations on message objects change the heap. *)
From Coq Require Import String.
From Verif.Base Require Import Prelude Bits.
From Verif.Model Require Import BitCodec Types Codec Prim Float Utf8 ObjectApi.
From Verif.Spec Require Import PrimSpec ObjectSpec.
From Verif.Proofs Require Import CodecFacts.
Open Scope list_scope.

(** ** The heap as a list *)

Lemma put_length h a c : length (put h a c) = length h.
Proof. apply list_set_length. Qed.

Lemma put_same h a c c0 : nth_error h a = Some c0 -> nth_error (put h a c) a = Some c.
Proof.
  intros H. apply nth_error_list_set. apply nth_error_Some. congruence.
Qed.

Lemma list_set_other {A} (l : list A) i j x : i <> j -> nth_error (list_set l i x) j = nth_error l j.
Proof.
  revert i j. induction l as [|y l IH]; intros i j H; [reflexivity|].
  destruct i, j; cbn; try reflexivity; try congruence. apply IH. congruence.
Qed.

Lemma put_other h a b c : a <> b -> nth_error (put h a c) b = nth_error h b.
Proof. apply list_set_other. Qed.

Lemma Forall_list_set {A} (P : A -> Prop) l i x : Forall P l -> P x -> Forall P (list_set l i x).
Proof.
  intros H Hx. revert i. induction H as [|y l Hy H IH]; intros i; [constructor|].
  destruct i; cbn; constructor; auto.
Qed.

Lemma Forall_firstn {A} (P : A -> Prop) l n : Forall P l -> Forall P (firstn n l).
Proof.
  intros H. revert n. induction H; intros [|n]; cbn; constructor; auto.
Qed.
Lemma Forall_skipn {A} (P : A -> Prop) l n : Forall P l -> Forall P (skipn n l).
Proof.
  intros H. revert n. induction H; intros [|n]; cbn; auto.
Qed.
Lemma Forall_insert {A} (P : A -> Prop) l i x : Forall P l -> P x -> Forall P (list_insert i x l).
Proof.
  intros H Hx. unfold list_insert. apply Forall_app. split; [apply Forall_firstn; exact H|].
  constructor; [exact Hx|]. apply Forall_skipn. exact H.
Qed.
Lemma Forall_remove {A} (P : A -> Prop) l i : Forall P l -> Forall P (list_remove i l).
Proof.
  intros H. unfold list_remove. apply Forall_app.
  split; [apply Forall_firstn|apply Forall_skipn]; exact H.
Qed.
Lemma list_insert_length {A} i (x : A) l : length (list_insert i x l) = S (length l).
Proof.
  unfold list_insert. rewrite app_length. cbn [length].
  rewrite firstn_length, skipn_length. lia.
Qed.
Lemma list_remove_length {A} i (l : list A) : i < length l -> length (list_remove i l) = length l - 1.
Proof.
  intros H. unfold list_remove. rewrite app_length, firstn_length, skipn_length. lia.
Qed.
Lemma norm_index_lt len idx i : norm_index len idx = Some i -> i < len.
Proof.
  unfold norm_index. destruct (idx <? 0)%Z; dif; intros H; try discriminate;
    injection H as <-; lia.
Qed.

Lemma clear_loop_nil fuel items : length items < fuel -> clear_loop fuel items = [].
Proof.
  revert items. induction fuel as [|f IH]; intros items H; [lia|].
  cbn [clear_loop]. destruct (norm_index (length items) (-1)) as [i|] eqn:E.
  - pose proof (norm_index_lt _ _ _ E). apply IH. rewrite list_remove_length by assumption. lia.
  - destruct items as [|x items]; [reflexivity|].
    exfalso. unfold norm_index in E. change (-1 <? 0)%Z with true in E. cbn [length] in E.
    replace ((0 <=? -1 + Z.of_nat (S (length items)))%Z &&
             (-1 + Z.of_nat (S (length items)) <? Z.of_nat (S (length items)))%Z)
      with true in E by lia. discriminate.
Qed.

(** ** References *)

Lemma pyval_ind' (P : pyval -> Prop) :
  P PNone -> (forall z, P (PInt z)) -> (forall x, P (PFloat x)) -> (forall s, P (PStr s)) ->
  (forall l, Forall P l -> P (PList l)) -> P PVoid -> (forall a, P (PRef a)) -> forall v, P v.
Proof.
  intros H1 H2 H3 H4 H5 H6 H7. fix IH 1. intros [| | | |l| |].
  - exact H1.
  - apply H2.
  - apply H3.
  - apply H4.
  - apply H5. induction l as [|x l IHl]; constructor; [apply IH|exact IHl].
  - exact H6.
  - apply H7.
Qed.

Lemma val_refs_list ok l : val_refs ok (PList l) <-> Forall (val_refs ok) l.
Proof.
  cbn [val_refs]. induction l as [|x l IH]; cbn [fold_right].
  - split; auto.
  - rewrite IH. split; [intros [A B]; constructor; auto|].
    intros H. apply Forall_cons_iff in H. exact H.
Qed.

Lemma val_refs_mono (P Q : addr -> Prop) v : (forall a, P a -> Q a) -> val_refs P v -> val_refs Q v.
Proof.
  intros HPQ. induction v as [| | | |l IH| |a] using pyval_ind'; try (intros; exact I).
  - rewrite !val_refs_list. intros H. revert IH. induction H as [|x l Hx H IHl]; intros IH; constructor.
    + apply Forall_cons_iff in IH as (A & _). auto.
    + apply IHl. apply Forall_cons_iff in IH as (_ & B). exact B.
  - apply HPQ.
Qed.
Lemma slot_refs_mono (P Q : addr -> Prop) s : (forall a, P a -> Q a) -> slot_refs P s -> slot_refs Q s.
Proof. intros HPQ. destruct s; cbn; auto. apply val_refs_mono, HPQ. Qed.
Lemma cell_refs_mono (P Q : addr -> Prop) c : (forall a, P a -> Q a) -> cell_refs P c -> cell_refs Q c.
Proof.
  intros HPQ. destruct c; cbn.
  - apply Forall_impl. intros s. apply slot_refs_mono, HPQ.
  - apply Forall_impl. intros s. apply slot_refs_mono, HPQ.
  - intros (A & B). split; [auto|]. revert B. apply Forall_impl.
    intros e. apply val_refs_mono, HPQ.
Qed.
Lemma op_refs_mono (P Q : addr -> Prop) o : (forall a, P a -> Q a) -> op_refs P o -> op_refs Q o.
Proof.
  intros HPQ. destruct o; cbn; auto; try (intros (A & B); split; [auto|revert B; apply val_refs_mono, HPQ]).
  apply Forall_impl. intros e. apply val_refs_mono, HPQ.
Qed.

Lemma shift_val_refs n (ok : addr -> Prop) v : (forall a, n <= a -> ok a) -> val_refs ok (shift_val n v).
Proof.
  intros H. induction v as [| | | |l IH| |a] using pyval_ind'; try exact I.
  - cbn [shift_val]. apply val_refs_list. apply Forall_map. exact IH.
  - cbn. apply H. lia.
Qed.
Lemma shift_cell_refs n (ok : addr -> Prop) c : (forall a, n <= a -> ok a) -> cell_refs ok (shift_cell n c).
Proof.
  intros H. destruct c; cbn.
  - apply Forall_map. apply Forall_forall. intros s _. destruct s; cbn; auto. apply shift_val_refs, H.
  - apply Forall_map. apply Forall_forall. intros s _. destruct s; cbn; auto. apply shift_val_refs, H.
  - split; [apply H; lia|]. apply Forall_map, Forall_forall. intros e _. cbn. apply shift_val_refs, H.
Qed.
(** Shifted references are shifted references to the same objects. *)
Lemma shift_val_refs_lt n m v : val_refs (fun r => r < m) v -> val_refs (fun r => n <= r < m + n) (shift_val n v).
Proof.
  induction v as [| | | |l IH| |a] using pyval_ind'; try (intros; exact I).
  - cbn [shift_val]. rewrite !val_refs_list. intros H. apply Forall_map.
    rewrite Forall_forall in *. auto.
  - cbn. lia.
Qed.
Lemma shift_cell_refs_lt n m c : cell_refs (fun r => r < m) c ->
  cell_refs (fun r => n <= r < m + n) (shift_cell n c).
Proof.
  assert (forall l, Forall (slot_refs (fun r => r < m)) l ->
                    Forall (slot_refs (fun r => n <= r < m + n)) (map (shift_slot n) l)) as HS.
  { intros l H. apply Forall_map. revert H. apply Forall_impl. intros s. destruct s; cbn; auto.
    apply shift_val_refs_lt. }
  destruct c; cbn; auto.
  intros (A & B). split; [lia|]. apply Forall_map. revert B. apply Forall_impl.
  intros e. cbn. apply shift_val_refs_lt.
Qed.

(** ** Changes of the heap *)

Definition size_ok (c : cell) : Prop :=
  match c with CArr _ _ mx items => length items <= mx | _ => True end.

Section Evolution.
  (** [ok]: the objects that may be used; [n0]: where the new objects begin. *)
  Variable ok : addr -> Prop.
  Variable n0 : nat.
  (** [sw]: the unions that may be switched to another field. *)
  Variable sw : addr -> Prop.

  (** Objects that may be used when the heap has length [n]. *)
  Definition usable (n : nat) (r : addr) : Prop := ok r \/ n0 <= r < n.

  Lemma usable_mono n m r : n <= m -> usable n r -> usable m r.
  Proof. unfold usable. intros. destruct H0; [left; assumption|right; lia]. Qed.

  Inductive evolves : heap -> heap -> Prop :=
  | ev_refl h : evolves h h
  | ev_arr h a dyn et mx items items' h' :
      nth_error h a = Some (CArr dyn et mx items) -> usable (length h) a ->
      (length items <= mx -> length items' <= mx) ->
      Forall (slot_refs (usable (length h))) items' ->
      evolves (put h a (CArr dyn et mx items')) h' -> evolves h h'
  | ev_dict h a slots slots' h' :
      nth_error h a = Some (CDict slots) -> usable (length h) a ->
      Forall (slot_refs (usable (length h))) slots' ->
      evolves (put h a (CDict slots')) h' -> evolves h h'
  | ev_comp h a full u fs cs d active active' extra extra' h' :
      nth_error h a = Some (CComp full u fs cs d active extra) -> usable (length h) a ->
      active = None \/ active' = active \/ sw a ->
      Forall (fun e => val_refs (usable (length h)) (snd e)) extra' ->
      evolves (put h a (CComp full u fs cs d active' extra')) h' -> evolves h h'
  | ev_new h cs h' :
      Forall (cell_refs (usable (length h + length cs))) cs ->
      (Forall size_ok h -> Forall size_ok cs) ->
      evolves (h ++ cs) h' -> evolves h h'.

  Lemma evolves_trans h1 h2 h3 : evolves h1 h2 -> evolves h2 h3 -> evolves h1 h3.
  Proof.
    intros H. induction H; intros K; [exact K| | | |].
    - eapply ev_arr; eauto.
    - eapply ev_dict; eauto.
    - eapply ev_comp; eauto.
    - eapply ev_new; eauto.
  Qed.

  Lemma evolves_length h h' : evolves h h' -> length h <= length h'.
  Proof.
    induction 1; try rewrite put_length in *; try rewrite app_length in *; lia.
  Qed.

  (** Usable objects refer to usable objects only. *)
  Definition good (h : heap) : Prop :=
    n0 <= length h /\
    forall a c, nth_error h a = Some c -> usable (length h) a ->
      cell_refs (usable (length h)) c.

  Lemma good_put h a c : good h -> cell_refs (usable (length h)) c -> good (put h a c).
  Proof.
    intros (Hn & H) Hc. split; [rewrite put_length; exact Hn|].
    intros b c' Hb Hu. rewrite put_length in *.
    destruct (Nat.eq_dec a b) as [->|Hab].
    - destruct (nth_error h b) eqn:E.
      + rewrite (put_same _ _ _ _ E) in Hb. congruence.
      + assert (length h <= b) by (apply nth_error_None; exact E).
        assert (b < length (put h b c)) by (apply nth_error_Some; congruence).
        rewrite put_length in *. lia.
    - rewrite put_other in Hb by exact Hab. eauto.
  Qed.

  Lemma good_app h cs : good h -> Forall (cell_refs (usable (length h + length cs))) cs ->
    good (h ++ cs).
  Proof.
    intros (Hn & H) Hc. split; [rewrite app_length; lia|].
    intros b c' Hb Hu. rewrite app_length in *.
    destruct (Nat.lt_ge_cases b (length h)) as [Hlt|Hge].
    - rewrite nth_error_app1 in Hb by exact Hlt.
      apply (cell_refs_mono (usable (length h))).
      { intros r. apply usable_mono. lia. }
      apply (H b); [exact Hb|]. destruct Hu as [Hu|Hu]; [left; exact Hu|right; lia].
    - rewrite nth_error_app2 in Hb by exact Hge.
      rewrite Forall_forall in Hc. apply Hc. apply nth_error_In in Hb. exact Hb.
  Qed.

  Lemma evolves_good h h' : evolves h h' -> good h -> good h'.
  Proof.
    induction 1; intros Hg; auto.
    - apply IHevolves, good_put; [exact Hg|]. cbn. assumption.
    - apply IHevolves, good_put; [exact Hg|]. cbn. assumption.
    - apply IHevolves, good_put; [exact Hg|]. cbn. split; [|assumption].
      destruct Hg as (Hn & Hg). specialize (Hg a _ H H0). cbn in Hg. apply Hg.
    - apply IHevolves, good_app; assumption.
  Qed.

  (** Sizes stay within bounds. *)
  Lemma Forall_put (P : cell -> Prop) h a c : Forall P h -> P c -> Forall P (put h a c).
  Proof. apply Forall_list_set. Qed.

  Lemma evolves_sizes h h' : evolves h h' -> Forall size_ok h -> Forall size_ok h'.
  Proof.
    induction 1; intros Hs; auto.
    - apply IHevolves, Forall_put; [exact Hs|]. cbn.
      apply (proj1 (Forall_forall _ _)) with (x := CArr dyn et mx items) in Hs.
      2:{ eapply nth_error_In. exact H. }
      cbn in Hs. lia.
    - apply IHevolves, Forall_put; [exact Hs|exact I].
    - apply IHevolves, Forall_put; [exact Hs|exact I].
    - apply IHevolves, Forall_app. auto.
  Qed.

  (** An object keeps its type, its dictionary and its active field. *)
  Lemma evolves_comp h h' : evolves h h' -> forall a full u fs cs d active extra,
    nth_error h a = Some (CComp full u fs cs d active extra) ->
    exists active' extra', nth_error h' a = Some (CComp full u fs cs d active' extra') /\
      (active = None \/ active' = active \/ sw a).
  Proof.
    induction 1; intros b full0 u0 fs0 cs0 d0 act0 ex0 Hb.
    - exists act0, ex0. auto.
    - apply IHevolves with (extra := ex0). rewrite put_other; [exact Hb|].
      intros ->. congruence.
    - apply IHevolves with (extra := ex0). rewrite put_other; [exact Hb|].
      intros ->. congruence.
    - destruct (Nat.eq_dec a b) as [->|Hab].
      + rewrite H in Hb. assert (full0 = full) by congruence. assert (u0 = u) by congruence.
        assert (fs0 = fs) by congruence. assert (cs0 = cs) by congruence.
        assert (d0 = d) by congruence. assert (act0 = active) by congruence. subst.
        destruct (IHevolves b full u fs cs d active' extra') as (act2 & ex2 & E2 & D2).
        { apply (put_same _ _ _ _ H). }
        exists act2, ex2. split; [exact E2|].
        destruct H1 as [H1|[-> |H1]]; [left; exact H1|exact D2|right; right; exact H1].
      + apply IHevolves with (extra := ex0). rewrite put_other by exact Hab. exact Hb.
    - apply IHevolves with (extra := ex0). rewrite nth_error_app1; [exact Hb|].
      apply nth_error_Some. congruence.
  Qed.

  (** Other objects stay as they are. *)
  Lemma evolves_frame h h' : evolves h h' -> forall a, a < length h -> ~ usable (length h') a ->
    nth_error h' a = nth_error h a.
  Proof.
    induction 1; intros b Hb Hu; auto.
    - pose proof (evolves_length _ _ H3) as HL. rewrite put_length in HL.
      rewrite IHevolves by (rewrite ?put_length; assumption).
      apply put_other. intros ->. apply Hu. eapply usable_mono; [|exact H0]. exact HL.
    - pose proof (evolves_length _ _ H2) as HL. rewrite put_length in HL.
      rewrite IHevolves by (rewrite ?put_length; assumption).
      apply put_other. intros ->. apply Hu. eapply usable_mono; [|exact H0]. exact HL.
    - pose proof (evolves_length _ _ H3) as HL. rewrite put_length in HL.
      rewrite IHevolves by (rewrite ?put_length; assumption).
      apply put_other. intros ->. apply Hu. eapply usable_mono; [|exact H0]. exact HL.
    - rewrite IHevolves; [|rewrite app_length; lia|exact Hu].
      apply nth_error_app1. exact Hb.
  Qed.

  (** ** Every operation is such a change *)

  Definition res_refs (h : heap) (r : res pyval) : Prop :=
    match r with Ok v => val_refs (usable (length h)) v | Err _ => True end.

  (** Outcome of an operation. *)
  Definition sound (h : heap) (x : res pyval * heap) : Prop :=
    evolves h (snd x) /\ res_refs (snd x) (fst x).

  Lemma sound_err h e : sound h (Err e, h).
  Proof. split; [apply ev_refl|exact I]. Qed.

  Lemma sound_then h h1 r x : evolves h h1 -> sound h1 x -> r = x -> sound h r.
  Proof.
    intros H (A & B) ->. split; [|exact B]. eapply evolves_trans; eauto.
  Qed.

  Lemma good_cell h a c : good h -> nth_error h a = Some c -> usable (length h) a ->
    cell_refs (usable (length h)) c.
  Proof. intros (_ & H). apply H. Qed.

  (** Construction of objects. *)
  Lemma atype_ind' (P : atype -> Prop) :
    (forall k n cm, P (APrim k n cm)) -> (forall n, P (AVoid n)) ->
    (forall dyn et mx, P et -> P (AArr dyn et mx)) ->
    (forall nm u fs cs, Forall (fun f => P (snd f)) fs -> P (AComp nm u fs cs)) ->
    forall t, P t.
  Proof.
    intros H1 H2 H3 H4. fix IH 1. intros [| |dyn et mx|nm u fs cs].
    - apply H1.
    - apply H2.
    - apply H3, IH.
    - apply H4. induction fs as [|[n t] fs IHfs]; constructor; [apply IH|exact IHfs].
  Qed.

  Definition alloc_sound (f : heap -> slot * heap) : Prop :=
    forall h, n0 <= length h ->
      evolves h (snd (f h)) /\ slot_refs (usable (length (snd (f h)))) (fst (f h)).

  Lemma alloc_n_sound f n : alloc_sound f -> forall h, n0 <= length h ->
    evolves h (snd (alloc_n f n h)) /\
    Forall (slot_refs (usable (length (snd (alloc_n f n h))))) (fst (alloc_n f n h)) /\
    length (fst (alloc_n f n h)) = n.
  Proof.
    intros Hf. induction n as [|n IH]; intros h Hn.
    - split; [apply ev_refl|]. split; [constructor|reflexivity].
    - cbn [alloc_n]. destruct (Hf h Hn) as (A & B).
      destruct (f h) as (s & h1). cbn [fst snd] in *.
      pose proof (evolves_length _ _ A).
      destruct (IH h1 ltac:(lia)) as (C & D & E).
      destruct (alloc_n f n h1) as (ss & h2). cbn [fst snd] in *.
      pose proof (evolves_length _ _ C).
      split; [eapply evolves_trans; eauto|]. split; [|cbn; lia].
      constructor; [|exact D]. eapply slot_refs_mono; [|exact B].
      intros r. apply usable_mono. assumption.
  Qed.

  Lemma alloc_all_sound fs : Forall alloc_sound fs -> forall h, n0 <= length h ->
    evolves h (snd (alloc_all fs h)) /\
    Forall (slot_refs (usable (length (snd (alloc_all fs h))))) (fst (alloc_all fs h)).
  Proof.
    induction 1 as [|f fs Hf Hfs IH]; intros h Hn.
    - split; [apply ev_refl|constructor].
    - cbn [alloc_all]. destruct (Hf h Hn) as (A & B).
      destruct (f h) as (s & h1). cbn [fst snd] in *.
      pose proof (evolves_length _ _ A).
      destruct (IH h1 ltac:(lia)) as (C & D).
      destruct (alloc_all fs h1) as (ss & h2). cbn [fst snd] in *.
      pose proof (evolves_length _ _ C).
      split; [eapply evolves_trans; eauto|].
      constructor; [|exact D]. eapply slot_refs_mono; [|exact B].
      intros r. apply usable_mono. assumption.
  Qed.

  Lemma alloc_is_sound t : alloc_sound (alloc t).
  Proof.
    induction t as [k n cm|n|dyn et mx IH|nm u fs cs IH] using atype_ind'; intros h Hn.
    - split; [apply ev_refl|exact I].
    - split; [apply ev_refl|exact I].
    - assert (exists items h1, (if dyn then ([], h) else alloc_n (alloc et) mx h) = (items, h1) /\
        evolves h h1 /\ Forall (slot_refs (usable (length h1))) items /\ length items <= mx) as
        (items & h1 & E & A & B & C).
      { destruct dyn.
        - exists [], h. split; [reflexivity|]. split; [apply ev_refl|].
          split; [constructor|cbn; lia].
        - destruct (alloc_n_sound (alloc et) mx IH h Hn) as (A & B & C).
          destruct (alloc_n (alloc et) mx h) as (items & h1). cbn [fst snd] in *.
          exists items, h1. split; [reflexivity|]. split; [exact A|]. split; [exact B|lia]. }
      assert (alloc (AArr dyn et mx) h =
              (SObj (PRef (length h1)), h1 ++ [CArr dyn et mx items])) as ->.
      { cbn [alloc]. destruct dyn; [injection E as <- <-; reflexivity|]. rewrite E. reflexivity. }
      cbn [fst snd]. pose proof (evolves_length _ _ A).
      split.
      + eapply evolves_trans; [exact A|]. eapply ev_new; [| |apply ev_refl].
        * constructor; [|constructor]. cbn. revert B. apply Forall_impl. intros s.
          apply slot_refs_mono. intros r. apply usable_mono. lia.
        * intros _. constructor; [exact C|constructor].
      + cbn. right. rewrite app_length. cbn. lia.
    - cbn [alloc].
      destruct (alloc_all_sound (map (fun f => alloc (snd f)) fs)) with (h := h) as (A & B);
        [|exact Hn|].
      { apply Forall_map. exact IH. }
      destruct (alloc_all (map (fun f => alloc (snd f)) fs) h) as (slots & h1).
      cbn [fst snd] in *. pose proof (evolves_length _ _ A).
      split.
      + eapply evolves_trans; [exact A|]. eapply ev_new; [| |apply ev_refl].
        * constructor; [|constructor; [|constructor]].
          -- cbn. revert B. apply Forall_impl. intros s.
             apply slot_refs_mono. intros r. apply usable_mono. lia.
          -- cbn. split; [right; cbn; lia|constructor].
        * intros _. repeat constructor.
      + cbn. right. rewrite app_length. cbn. lia.
  Qed.

  (** Array methods. *)
  Lemma clear_sound h a : good h -> usable (length h) a -> sound h (arr_clear h a).
  Proof.
    intros Hg Ha. unfold arr_clear. destruct (nth_error h a) as [[dyn et mx items| |]|] eqn:E;
      try apply sound_err.
    split; [|exact I]. cbn [snd]. rewrite clear_loop_nil by lia.
    eapply ev_arr; [exact E|exact Ha| | |apply ev_refl]; [cbn; lia|constructor].
  Qed.
  Lemma delall_sound h a : good h -> usable (length h) a -> sound h (arr_delall h a).
  Proof.
    intros Hg Ha. unfold arr_delall. destruct (nth_error h a) as [[dyn et mx items| |]|] eqn:E;
      try apply sound_err.
    split; [|exact I]. cbn [snd].
    eapply ev_arr; [exact E|exact Ha| | |apply ev_refl]; [cbn; lia|constructor].
  Qed.
  Lemma delitem_sound h a i : good h -> usable (length h) a -> sound h (arr_delitem h a i).
  Proof.
    intros Hg Ha. unfold arr_delitem. destruct (nth_error h a) as [[dyn et mx items| |]|] eqn:E;
      try apply sound_err.
    destruct (norm_index (length items) i) as [j|] eqn:Ej; [|apply sound_err].
    pose proof (norm_index_lt _ _ _ Ej).
    split; [|exact I]. cbn [snd].
    eapply ev_arr; [exact E|exact Ha| | |apply ev_refl].
    - rewrite list_remove_length by assumption. lia.
    - apply Forall_remove. exact (good_cell _ _ _ Hg E Ha).
  Qed.
  Lemma item_value_refs P et s v : slot_refs P s -> item_value et s = Ok v -> val_refs P v.
  Proof.
    intros Hs H. unfold item_value in H. destruct s as [b| |v0].
    - destruct b as [|x b].
      + assert (v = PInt 0) by congruence. subst. exact I.
      + destruct et; try discriminate. unfold prim_get in H. destruct k.
        * destruct (get_int _ _ _); injection H as <-; exact I.
        * destruct (get_int _ _ _); injection H as <-; exact I.
        * destruct (get_int _ _ _); injection H as <-; exact I.
        * apply bind_ok in H as (o & _ & H). destruct o; injection H as <-; exact I.
    - injection H as <-. exact I.
    - injection H as <-. exact Hs.
  Qed.
  Lemma getitem_sound h a i : good h -> usable (length h) a -> res_refs h (arr_getitem h a i).
  Proof.
    intros Hg Ha. unfold arr_getitem. destruct (nth_error h a) as [[dyn et mx items| |]|] eqn:E;
      try exact I.
    destruct (norm_index (length items) i) as [j|]; [|exact I].
    destruct (nth_error items j) as [s|] eqn:Es; [|exact I].
    destruct (item_value et s) as [v|] eqn:Ev; [|exact I]. cbn.
    eapply item_value_refs; [|exact Ev].
    pose proof (good_cell _ _ _ Hg E Ha) as H. cbn in H. rewrite Forall_forall in H.
    apply H. eapply nth_error_In. exact Es.
  Qed.
  Lemma pop_sound h a i : good h -> usable (length h) a -> sound h (arr_pop h a i).
  Proof.
    intros Hg Ha. unfold arr_pop. pose proof (getitem_sound h a i Hg Ha) as Hi.
    destruct (arr_getitem h a i) as [v|e]; [|apply sound_err].
    destruct (delitem_sound h a i Hg Ha) as (A & B).
    destruct (arr_delitem h a i) as ([w|e] & h1); cbn [fst snd] in *.
    - split; [exact A|]. cbn. eapply val_refs_mono; [|exact Hi].
      intros r. apply usable_mono. exact (evolves_length _ _ A).
    - split; [exact A|exact I].
  Qed.
  Lemma setitem_sound h a i v : good h -> usable (length h) a -> val_refs (usable (length h)) v ->
    sound h (arr_setitem h a i v).
  Proof.
    intros Hg Ha Hv. unfold arr_setitem.
    destruct (nth_error h a) as [[dyn et mx items| |]|] eqn:E; try apply sound_err.
    destruct (Z.of_nat mx <=? i)%Z; [apply sound_err|].
    destruct (norm_index (length items) i) as [j|]; [|apply sound_err].
    pose proof (good_cell _ _ _ Hg E Ha) as Hc. cbn in Hc.
    assert (forall s, slot_refs (usable (length h)) s ->
      sound h (Ok PNone, put h a (CArr dyn et mx (list_set items j s)))) as Hs.
    { intros s Hs. split; [|exact I]. cbn [snd].
      eapply ev_arr; [exact E|exact Ha| | |apply ev_refl].
      - rewrite list_set_length. lia.
      - apply Forall_list_set; assumption. }
    destruct et; try (apply Hs; exact Hv).
    destruct (prim_set _ _ _ _ _); [|apply sound_err]. apply Hs. exact I.
  Qed.
  Lemma insert_sound h a i v : good h -> usable (length h) a -> val_refs (usable (length h)) v ->
    sound h (arr_insert h a i v).
  Proof.
    intros Hg Ha Hv. unfold arr_insert.
    destruct (nth_error h a) as [[dyn et mx items| |]|] eqn:E; try apply sound_err.
    destruct (Z.of_nat mx <=? i)%Z; [apply sound_err|].
    destruct (Nat.eqb (length items) mx) eqn:El; [apply sound_err|].
    apply Nat.eqb_neq in El.
    pose proof (good_cell _ _ _ Hg E Ha) as Hc. cbn in Hc.
    set (j := insert_index (length items) i).
    assert (forall s, slot_refs (usable (length h)) s ->
      sound h (Ok PNone, put h a (CArr dyn et mx (list_insert j s items)))) as Hs.
    { intros s Hs. split; [|exact I]. cbn [snd].
      eapply ev_arr; [exact E|exact Ha| | |apply ev_refl].
      - rewrite list_insert_length. lia.
      - apply Forall_insert; assumption. }
    destruct et; try (apply Hs; exact Hv).
    destruct (prim_set _ _ _ _ _); [|apply sound_err]. apply Hs. exact I.
  Qed.
  Lemma append_sound h a v : good h -> usable (length h) a -> val_refs (usable (length h)) v ->
    sound h (arr_append h a v).
  Proof.
    intros Hg Ha Hv. unfold arr_append.
    destruct (nth_error h a) as [[dyn et mx items| |]|] eqn:E; try apply sound_err.
    apply insert_sound; assumption.
  Qed.
  Lemma append_all_sound vs : forall h a, good h -> usable (length h) a ->
    Forall (val_refs (usable (length h))) vs -> sound h (append_all h a vs).
  Proof.
    induction vs as [|v vs IH]; intros h a Hg Ha Hvs.
    - split; [apply ev_refl|exact I].
    - cbn [append_all]. apply Forall_cons_iff in Hvs as (Hv & Hvs).
      destruct (append_sound h a v Hg Ha Hv) as (A & B).
      destruct (arr_append h a v) as ([w|e] & h1); cbn [fst snd] in *.
      + pose proof (evolves_length _ _ A) as HL.
        destruct (IH h1 a) as (C & D).
        * eapply evolves_good; eauto.
        * eapply usable_mono; eauto.
        * revert Hvs. apply Forall_impl. intros x. apply val_refs_mono.
          intros r. apply usable_mono. exact HL.
        * split; [eapply evolves_trans; eauto|exact D].
      + split; [exact A|exact I].
  Qed.
  Lemma mapM_refs P et items vs : Forall (slot_refs P) items ->
    mapM (item_value et) items = Ok vs -> Forall (val_refs P) vs.
  Proof.
    revert vs. induction items as [|s items IH]; intros vs Hs H; cbn [mapM] in H.
    - assert (vs = []) by congruence. subst. constructor.
    - apply Forall_cons_iff in Hs as (H1 & H2).
      apply bind_ok in H as (v & Ev & H). apply bind_ok in H as (vs' & Evs & H).
      assert (vs = v :: vs') by congruence. subst. constructor; [|auto].
      eapply item_value_refs; eauto.
  Qed.
  Lemma iterate_refs h v vs : good h -> val_refs (usable (length h)) v ->
    iterate h v = Ok vs -> Forall (val_refs (usable (length h))) vs.
  Proof.
    intros Hg Hv H. destruct v; cbn [iterate] in H; try discriminate.
    - assert (vs = map (fun c => PStr [c]) s) by congruence. subst.
      apply Forall_map, Forall_forall. intros x _. exact I.
    - assert (vs = l) by congruence. subst. apply val_refs_list. exact Hv.
    - destruct (nth_error h a) as [[dyn et mx items| |]|] eqn:E; try discriminate.
      eapply mapM_refs; [|exact H]. exact (good_cell _ _ _ Hg E Hv).
  Qed.
  Lemma extend_sound h a v : good h -> usable (length h) a -> val_refs (usable (length h)) v ->
    sound h (arr_extend h a v).
  Proof.
    intros Hg Ha Hv. unfold arr_extend.
    destruct (iterate h v) as [vs|] eqn:E; [|apply sound_err].
    apply append_all_sound; auto. eapply iterate_refs; eauto.
  Qed.
  Lemma ints_refs P bs : Forall (val_refs P) (map (fun b => PInt (Z.of_N b)) bs).
  Proof. apply Forall_map, Forall_forall. intros x _. exact I. Qed.
  Lemma from_bytes_sound h a bs : good h -> usable (length h) a -> sound h (arr_from_bytes h a bs).
  Proof.
    intros Hg Ha. unfold arr_from_bytes.
    destruct (delall_sound h a Hg Ha) as (A & B).
    destruct (arr_delall h a) as ([w|e] & h1); cbn [fst snd] in *; [|split; [exact A|exact I]].
    eapply sound_then; [exact A| |reflexivity]. apply append_all_sound.
    - eapply evolves_good; eauto.
    - eapply usable_mono; [exact (evolves_length _ _ A)|exact Ha].
    - apply ints_refs.
  Qed.
  Lemma encode_sound h a s : good h -> usable (length h) a -> sound h (arr_encode h a s).
  Proof.
    intros Hg Ha. unfold arr_encode.
    destruct (nth_error h a) as [[dyn et mx items| |]|] eqn:E; try apply sound_err.
    destruct (negb (string_like dyn et)); [apply sound_err|].
    destruct (delall_sound h a Hg Ha) as (A & B).
    destruct (arr_delall h a) as ([w|e] & h1); cbn [fst snd] in *; [|split; [exact A|exact I]].
    destruct (utf8_encode s); [|split; [exact A|exact I]].
    eapply sound_then; [exact A| |reflexivity]. apply append_all_sound.
    - eapply evolves_good; eauto.
    - eapply usable_mono; [exact (evolves_length _ _ A)|exact Ha].
    - apply ints_refs.
  Qed.
  Lemma new_item_sound h a : good h -> usable (length h) a -> sound h (arr_new_item h a).
  Proof.
    intros Hg Ha. unfold arr_new_item.
    destruct (nth_error h a) as [[dyn et mx items| |]|] eqn:E; try apply sound_err.
    destruct (alloc_is_sound et h (proj1 Hg)) as (A & B).
    assert (sound h (let '(s, h1) := alloc et h in
                     (match s with SObj v => Ok v | _ => Err TypeError end, h1))) as K.
    { destruct (alloc et h) as (s & h1). cbn [fst snd] in *. split; [exact A|].
      cbn [fst snd]. destruct s; try exact I. exact B. }
    destruct et; try exact K; (split; [apply ev_refl|exact I]).
  Qed.

  (** Attributes. *)
  Lemma dget_refs P l nm v : Forall (fun e => val_refs P (snd e)) l ->
    dget String.eqb l nm = Some v -> val_refs P v.
  Proof.
    induction 1 as [|[n w] l Hw H IH]; cbn; [discriminate|].
    destruct (String.eqb nm n); [intros [= <-]; exact Hw|exact IH].
  Qed.
  Lemma dset_refs P l nm v : Forall (fun e => val_refs P (snd e)) l -> val_refs P v ->
    Forall (fun e => val_refs P (snd e)) (dset String.eqb l nm v).
  Proof.
    intros H Hv. induction H as [|[n w] l Hw H IH]; cbn.
    - constructor; [exact Hv|constructor].
    - destruct (String.eqb nm n); constructor; auto.
  Qed.

  (** Selecting a union field. *)
  Lemma select_evolves h a full (u : bool) fs cs d active extra nm :
    good h -> usable (length h) a ->
    nth_error h a = Some (CComp full u fs cs d active extra) ->
    union_blocks u active nm = false ->
    evolves h (if u then put h a (CComp full u fs cs d (Some nm) extra) else h).
  Proof.
    intros Hg Ha E Hb. destruct u; [|apply ev_refl].
    eapply ev_comp; [exact E|exact Ha| | |apply ev_refl].
    - destruct active as [f|]; [|left; reflexivity]. right. left.
      cbn in Hb. apply negb_false_iff, String.eqb_eq in Hb. congruence.
    - exact (proj2 (good_cell _ _ _ Hg E Ha)).
  Qed.

  Lemma getattr_sound h a nm : good h -> usable (length h) a -> sound h (getattr h a nm).
  Proof.
    intros Hg Ha. unfold getattr.
    destruct (nth_error h a) as [[|slots0|full u fs cs d active extra]|] eqn:E; try apply sound_err.
    pose proof (good_cell _ _ _ Hg E Ha) as (Hd & Hx).
    destruct (dget String.eqb cs nm); [split; [apply ev_refl|exact I]|].
    destruct (find_field fs nm) as [[i t]|].
    2:{ split; [apply ev_refl|]. cbn [fst snd].
        destruct (dget String.eqb extra nm) as [v|] eqn:Ex; [|exact I].
        cbn. eapply dget_refs; eauto. }
    destruct (union_blocks u active nm) eqn:Eb; [apply sound_err|].
    pose proof (select_evolves _ _ _ _ _ _ _ _ _ _ Hg Ha E Eb) as A.
    set (h1 := if u then put h a (CComp full u fs cs d (Some nm) extra) else h) in *.
    clearbody h1. cbv zeta.
    assert (good h1) as Hg1 by (eapply evolves_good; eauto).
    pose proof (evolves_length _ _ A) as HL.
    destruct (nth_error h1 d) as [[|slots|]|] eqn:Ed; try (split; [exact A|exact I]).
    destruct (nth_error slots i) as [s|] eqn:Es; [|split; [exact A|exact I]].
    assert (slot_refs (usable (length h1)) s) as Hs.
    { assert (usable (length h1) d) as Hd1 by (eapply usable_mono; eauto).
      pose proof (good_cell _ _ _ Hg1 Ed Hd1) as H. cbn in H.
      rewrite Forall_forall in H. apply H. eapply nth_error_In. exact Es. }
    destruct s as [b| |v].
    - split; [exact A|]. cbn [fst snd]. destruct t; try exact I.
      destruct (prim_get k bitlen b) as [v|] eqn:Ev; [|exact I]. cbn.
      unfold prim_get in Ev. destruct k.
      + destruct (get_int _ _ _); injection Ev as <-; exact I.
      + destruct (get_int _ _ _); injection Ev as <-; exact I.
      + destruct (get_int _ _ _); injection Ev as <-; exact I.
      + apply bind_ok in Ev as (o & _ & Ev). destruct o; injection Ev as <-; exact I.
    - split; [exact A|exact I].
    - split; [exact A|exact Hs].
  Qed.

  Lemma copy_sound h b : good h -> usable (length h) b ->
    evolves h (snd (copy_comp h b)) /\
    (forall c, fst (copy_comp h b) = Ok c -> usable (length (snd (copy_comp h b))) c).
  Proof.
    intros Hg Hb. unfold copy_comp.
    destruct (nth_error h b) as [[| |full u fs cs d active extra]|] eqn:E;
      try (split; [apply ev_refl|intros c; discriminate]).
    cbn [fst snd]. split.
    - eapply ev_new; [| |apply ev_refl].
      + constructor; [|constructor]. apply (cell_refs_mono (usable (length h))).
        { intros r. apply usable_mono. lia. }
        exact (good_cell _ _ _ Hg E Hb).
      + intros _. repeat constructor.
    - intros c Hc. assert (c = length h) by congruence. subst c.
      rewrite app_length. right. cbn. destruct Hg. lia.
  Qed.

  Lemma assign_array_sound h b v : good h -> usable (length h) b -> val_refs (usable (length h)) v ->
    sound h (assign_array h b v).
  Proof.
    intros Hg Hb Hv. unfold assign_array.
    destruct (clear_sound h b Hg Hb) as (A & B).
    destruct (arr_clear h b) as ([w|e] & h1); cbn [fst snd] in *; [|split; [exact A|exact I]].
    pose proof (evolves_length _ _ A) as HL.
    assert (good h1) as Hg1 by (eapply evolves_good; eauto).
    assert (usable (length h1) b) as Hb1 by (eapply usable_mono; eauto).
    assert (val_refs (usable (length h1)) v) as Hv1.
    { eapply val_refs_mono; [|exact Hv]. intros r. apply usable_mono. exact HL. }
    set (x := match v with
              | PStr s => arr_encode h1 b s
              | _ => match iterate h1 v with Ok vs => append_all h1 b vs | Err e => (Err e, h1) end
              end).
    assert (sound h1 x) as (C & D).
    { subst x.
      assert (sound h1 match iterate h1 v with Ok vs => append_all h1 b vs | Err e => (Err e, h1) end) as K.
      { destruct (iterate h1 v) as [vs|] eqn:Ei; [|apply sound_err].
        apply append_all_sound; auto. eapply iterate_refs; eauto. }
      destruct v; try exact K. apply encode_sound; assumption. }
    destruct x as (r & h2). cbn [fst snd] in *.
    split; [eapply evolves_trans; eauto|]. cbn [fst snd]. destruct r; exact I.
  Qed.

  Lemma setattr_sound h a nm v : good h -> usable (length h) a -> val_refs (usable (length h)) v ->
    sound h (setattr h a nm v).
  Proof.
    intros Hg Ha Hv. unfold setattr.
    destruct (nth_error h a) as [[|slots0|full u fs cs d active extra]|] eqn:E; try apply sound_err.
    pose proof (good_cell _ _ _ Hg E Ha) as (Hd & Hx).
    destruct (dget String.eqb cs nm); [apply sound_err|].
    destruct (find_field fs nm) as [[i t]|].
    2:{ split; [|exact I]. cbn [snd]. eapply ev_comp; [exact E|exact Ha| | |apply ev_refl].
        - right. left; reflexivity.
        - apply dset_refs; assumption. }
    destruct (union_blocks u active nm) eqn:Eb; [apply sound_err|].
    pose proof (select_evolves _ _ _ _ _ _ _ _ _ _ Hg Ha E Eb) as A.
    set (h1 := if u then put h a (CComp full u fs cs d (Some nm) extra) else h) in *.
    clearbody h1. cbv zeta.
    assert (good h1) as Hg1 by (eapply evolves_good; eauto).
    pose proof (evolves_length _ _ A) as HL.
    assert (usable (length h1) d) as Hd1 by (eapply usable_mono; eauto).
    assert (val_refs (usable (length h1)) v) as Hv1.
    { eapply val_refs_mono; [|exact Hv]. intros r. apply usable_mono. exact HL. }
    destruct (nth_error h1 d) as [[|slots|]|] eqn:Ed; try (split; [exact A|exact I]).
    pose proof (good_cell _ _ _ Hg1 Ed Hd1) as Hsl. cbn in Hsl.
    destruct t as [k n cm|n|dyn et mx|full' u' fs' cs'].
    - destruct (prim_set h1 k n cm v); [|split; [exact A|exact I]].
      split; [|exact I]. cbn [snd]. eapply evolves_trans; [exact A|].
      eapply ev_dict; [exact Ed|exact Hd1| |apply ev_refl].
      apply Forall_list_set; [exact Hsl|exact I].
    - split; [exact A|exact I].
    - destruct (nth_error slots i) as [[| |[| | | | | |b]]|] eqn:Es; try (split; [exact A|exact I]).
      eapply sound_then; [exact A| |reflexivity]. apply assign_array_sound; auto.
      rewrite Forall_forall in Hsl. apply (Hsl (SObj (PRef b))). eapply nth_error_In. exact Es.
    - destruct (negb (is_comp_named h1 v full')); [split; [exact A|exact I]|].
      destruct v as [| | | | | |b]; try (split; [exact A|exact I]).
      destruct (copy_sound h1 b Hg1 Hv1) as (C & D).
      destruct (copy_comp h1 b) as ([c|e] & h2) eqn:Ec; cbn [fst snd] in *.
      2:{ split; [eapply evolves_trans; eauto|exact I]. }
      assert (nth_error h2 d = Some (CDict slots)) as Ed2.
      { unfold copy_comp in Ec. destruct (nth_error h1 b) as [[| |]|]; try discriminate.
        injection Ec as <- <-. rewrite nth_error_app1; [exact Ed|].
        apply nth_error_Some. congruence. }
      pose proof (evolves_length _ _ C) as HL2.
      split; [|exact I]. cbn [snd]. eapply evolves_trans; [exact A|].
      eapply evolves_trans; [exact C|].
      eapply ev_dict; [exact Ed2| | |apply ev_refl].
      + eapply usable_mono; eauto.
      + apply Forall_list_set.
        * revert Hsl. apply Forall_impl. intros s. apply slot_refs_mono.
          intros r. apply usable_mono. exact HL2.
        * cbn. apply D. reflexivity.
  Qed.

  Lemma init_sound kw : forall h a, good h -> usable (length h) a ->
    Forall (fun e => val_refs (usable (length h)) (snd e)) kw -> sound h (init_fields h a kw).
  Proof.
    induction kw as [|[nm v] kw IH]; intros h a Hg Ha Hk.
    - split; [apply ev_refl|exact Ha].
    - cbn [init_fields]. apply Forall_cons_iff in Hk as (Hv & Hk). cbn in Hv.
      destruct (private nm); [apply sound_err|].
      destruct (setattr_sound h a nm v Hg Ha Hv) as (A & B).
      destruct (setattr h a nm v) as ([w|e] & h1); cbn [fst snd] in *; [|split; [exact A|exact I]].
      pose proof (evolves_length _ _ A) as HL.
      eapply sound_then; [exact A| |reflexivity]. apply IH.
      + eapply evolves_good; eauto.
      + eapply usable_mono; eauto.
      + revert Hk. apply Forall_impl. intros e. apply val_refs_mono.
        intros r. apply usable_mono. exact HL.
  Qed.

  Lemma new_sound h t kw : good h ->
    Forall (fun e => val_refs (usable (length h)) (snd e)) kw -> sound h (new_object h t kw).
  Proof.
    intros Hg Hk. unfold new_object.
    destruct (alloc_is_sound t h (proj1 Hg)) as (A & B).
    destruct t; try apply sound_err.
    destruct (alloc _ h) as (s & h1). cbn [fst snd] in *.
    destruct s as [| |[| | | | | |a]]; try (split; [exact A|exact I]).
    pose proof (evolves_length _ _ A) as HL.
    eapply sound_then; [exact A| |reflexivity]. apply init_sound.
    - eapply evolves_good; eauto.
    - exact B.
    - revert Hk. apply Forall_impl. intros e. apply val_refs_mono.
      intros r. apply usable_mono. exact HL.
  Qed.

  Lemma deepcopy_sound h a : no_dangling h -> good h -> usable (length h) a -> length h = n0 ->
    sound h (deepcopy h a).
  Proof.
    intros Hd Hg Ha Hn. unfold deepcopy.
    destruct (nth_error h a) as [c|] eqn:E; [|apply sound_err].
    assert (a < length h) by (apply nth_error_Some; congruence).
    split; cbn [fst snd].
    - eapply ev_new; [| |apply ev_refl].
      + apply Forall_map, Forall_forall. intros c' Hc'. rewrite map_length.
        apply In_nth_error in Hc' as (b & Hb).
        apply (cell_refs_mono (fun r => length h <= r < length h + length h)).
        { intros r Hr. right. lia. }
        apply shift_cell_refs_lt. eapply Hd. exact Hb.
      + intros Hs. apply Forall_map. revert Hs. apply Forall_impl. intros c' Hc'.
        destruct c'; cbn in *; auto. rewrite map_length. exact Hc'.
    - cbn. right. rewrite app_length, map_length. lia.
  Qed.

  Lemma delslice_sound h a lo hi : good h -> usable (length h) a -> sound h (arr_delslice h a lo hi).
  Proof.
    intros Hg Ha. unfold arr_delslice. destruct (nth_error h a) as [[dyn et mx items| |]|] eqn:E;
      try apply sound_err.
    split; [|exact I]. cbv zeta. cbn [fst snd]. eapply ev_arr; [exact E|exact Ha| | |apply ev_refl].
    - rewrite app_length, firstn_length, skipn_length. lia.
    - pose proof (good_cell _ _ _ Hg E Ha) as Hc. cbn in Hc.
      apply Forall_app. split; [apply Forall_firstn|apply Forall_skipn]; exact Hc.
  Qed.

  Lemma reverse_loop_sound n k : forall h a i, good h -> usable (length h) a ->
    sound h (reverse_loop h a n i k).
  Proof.
    induction k as [|k IH]; intros h a i Hg Ha; cbn [reverse_loop].
    { split; [apply ev_refl|exact I]. }
    pose proof (getitem_sound h a (Z.of_nat n - Z.of_nat i - 1) Hg Ha) as Hx.
    destruct (arr_getitem h a (Z.of_nat n - Z.of_nat i - 1)) as [x|e]; [|apply sound_err].
    pose proof (getitem_sound h a (Z.of_nat i) Hg Ha) as Hy.
    destruct (arr_getitem h a (Z.of_nat i)) as [y|e]; [|apply sound_err]. cbn in Hx, Hy.
    destruct (setitem_sound h a (Z.of_nat i) x Hg Ha Hx) as (A & _).
    destruct (arr_setitem h a (Z.of_nat i) x) as ([r|e] & h1); cbn [fst snd] in *; [|split; [exact A|exact I]].
    pose proof (evolves_length _ _ A) as L1. pose proof (evolves_good _ _ A Hg) as G1.
    destruct (setitem_sound h1 a (Z.of_nat n - Z.of_nat i - 1) y G1) as (B & _).
    { eapply usable_mono; [exact L1|exact Ha]. }
    { eapply val_refs_mono; [|exact Hy]. intros r0. apply usable_mono. exact L1. }
    destruct (arr_setitem h1 a (Z.of_nat n - Z.of_nat i - 1) y) as ([r2|e] & h2); cbn [fst snd] in *.
    2:{ split; [|exact I]. eapply evolves_trans; eassumption. }
    pose proof (evolves_length _ _ B) as L2. pose proof (evolves_good _ _ B G1) as G2.
    eapply sound_then; [eapply evolves_trans; [exact A|exact B]| |reflexivity].
    apply IH; [exact G2|]. eapply usable_mono; [|exact Ha]. lia.
  Qed.
  Lemma reverse_sound h a : good h -> usable (length h) a -> sound h (arr_reverse h a).
  Proof.
    intros Hg Ha. unfold arr_reverse. destruct (arr_len h a); [|apply sound_err].
    apply reverse_loop_sound; assumption.
  Qed.

  Lemma switch_sound h a f : good h -> usable (length h) a -> sw a -> sound h (switch_union_field h a f).
  Proof.
    intros Hg Ha Hs. unfold switch_union_field.
    destruct (nth_error h a) as [[| |full [|] fs cs d active extra]|] eqn:E; try apply sound_err.
    split; [|exact I]. cbn [fst snd]. eapply ev_comp; [exact E|exact Ha|right; right; exact Hs| |apply ev_refl].
    pose proof (good_cell _ _ _ Hg E Ha) as Hc. cbn in Hc. apply Hc.
  Qed.

  Lemma step_sound h o : no_dangling h -> good h -> length h = n0 -> op_refs (usable (length h)) o ->
    (forall a f, o = OSwitch a f -> sw a) -> sound h (step h o).
  Proof.
    intros Hd Hg Hn Ho Hsw. destruct o; cbn [step op_refs] in *.
    - apply new_sound; assumption.
    - apply getattr_sound; assumption.
    - destruct Ho. apply setattr_sound; assumption.
    - destruct (copy_sound h a Hg Ho) as (A & B).
      destruct (copy_comp h a) as ([c|e] & h1); cbn [fst snd] in *.
      + split; [exact A|]. cbn. apply B. reflexivity.
      + split; [exact A|exact I].
    - apply deepcopy_sound; assumption.
    - split; [apply ev_refl|]. apply getitem_sound; assumption.
    - destruct Ho. apply setitem_sound; assumption.
    - apply delitem_sound; assumption.
    - apply delall_sound; assumption.
    - destruct Ho. apply insert_sound; assumption.
    - destruct Ho. apply append_sound; assumption.
    - destruct Ho. apply extend_sound; assumption.
    - apply pop_sound; assumption.
    - apply clear_sound; assumption.
    - apply from_bytes_sound; assumption.
    - apply encode_sound; assumption.
    - split; [apply ev_refl|]. cbn. destruct (arr_decode h a); exact I.
    - apply new_item_sound; assumption.
    - apply delslice_sound; assumption.
    - apply reverse_sound; assumption.
    - apply switch_sound; [assumption..|]. eapply Hsw. reflexivity.
  Qed.
End Evolution.

(** Every object that a program builds fits its type: the invariant. *)
From Coq Require Import String.
From Verif.Base Require Import Prelude Bits.
From Verif.Model Require Import BitCodec Types Codec Prim Float Utf8 ObjectApi.
From Verif.Spec Require Import PrimSpec CodecSpec ObjectSpec FloatSpec SendableSpec.
From Verif.Proofs Require Import CodecFacts ObjectFacts ObjectUnions ObjectTyping.
Open Scope list_scope.

Section Inv.
  Variable env : catalogue.

  Definition item_ok (et : atype) (s : slot) : Prop :=
    match et with
    | APrim _ n _ => exists b, s = SPrim b /\ List.length b = n
    | _ => match s with SObj v => num_ok v | _ => True end
    end.
  Definition elem (et : atype) : Prop := match et with AArr _ _ _ | AVoid _ => False | _ => True end.
  Definition comp_at (h : heap) (b : addr) (nm : string) : Prop :=
    exists u fs cs d act extra, nth_error h b = Some (CComp nm u fs cs d act extra).
  Definition field_ok (h : heap) (t : atype) (s : slot) : Prop :=
    match t with
    | APrim _ n _ => exists b, s = SPrim b /\ List.length b = n
    | AArr dyn et mx => exists b items, s = SObj (PRef b) /\ nth_error h b = Some (CArr dyn et mx items)
    | AVoid _ => s = SVoid
    | AComp nm _ _ _ => exists b, s = SObj (PRef b) /\ comp_at h b nm
    end.
  (** [T]: the fields of the dictionary at an address. *)
  Definition cell_ok (T : addr -> list (string * atype)) (h : heap) (a : addr) (c : cell) : Prop :=
    match c with
    | CArr dyn et mx items => known env et /\ elem et /\ Forall (item_ok et) items
    | CDict slots => Forall2 (fun f s => field_ok h (snd f) s) (T a) slots
    | CComp nm u fs cs d act extra =>
        known env (AComp nm u fs cs) /\ T d = fs /\ (exists slots, nth_error h d = Some (CDict slots)) /\
        (u = false -> act = None)
    end.
  Definition inv (T : addr -> list (string * atype)) (h : heap) : Prop :=
    forall a c, nth_error h a = Some c -> cell_ok T h a c.
  Definition I (h : heap) : Prop := exists T, inv T h.

  (** Arrays keep their type, dictionaries stay dictionaries. *)
  Definition kinds (h h' : heap) : Prop :=
    (forall b dyn et mx items, nth_error h b = Some (CArr dyn et mx items) ->
       exists items', nth_error h' b = Some (CArr dyn et mx items')) /\
    (forall d s, nth_error h d = Some (CDict s) -> exists s', nth_error h' d = Some (CDict s')) /\
    (forall b nm, comp_at h b nm -> comp_at h' b nm).
  Lemma kinds_refl h : kinds h h.
  Proof. split; [|split]; eauto. Qed.
  Lemma kinds_trans h1 h2 h3 : kinds h1 h2 -> kinds h2 h3 -> kinds h1 h3.
  Proof.
    intros (A1 & B1 & C1) (A2 & B2 & C2). split; [|split].
    - intros b dyn et mx items E. destruct (A1 _ _ _ _ _ E) as (i' & E'). eauto.
    - intros d s E. destruct (B1 _ _ E) as (s' & E'). eauto.
    - auto.
  Qed.
  Lemma kinds_app h cs : kinds h (h ++ cs).
  Proof.
    assert (forall a c, nth_error h a = Some c -> nth_error (h ++ cs) a = Some c) as P.
    { intros a c E. rewrite nth_error_app1; [exact E|apply nth_error_Some; congruence]. }
    split; [|split]; [eauto..|]. intros b nm (u & fs & k & d & act & ex & E). exists u, fs, k, d, act, ex. auto.
  Qed.
  Lemma field_ok_mono h h' t s : kinds h h' -> field_ok h t s -> field_ok h' t s.
  Proof.
    intros (K & _ & KC). destruct t; cbn; auto.
    - intros (b & items & -> & E). destruct (K _ _ _ _ _ E) as (i' & E'). eauto.
    - intros (b & -> & E). eauto.
  Qed.
  Lemma fields_ok_mono h h' fs slots : kinds h h' ->
    Forall2 (fun (f : string * atype) s => field_ok h (snd f) s) fs slots ->
    Forall2 (fun (f : string * atype) s => field_ok h' (snd f) s) fs slots.
  Proof. intros K F. induction F; constructor; auto. eapply field_ok_mono; eauto. Qed.
  Lemma cell_ok_mono T h h' a c : kinds h h' -> cell_ok T h a c -> cell_ok T h' a c.
  Proof.
    intros K. destruct c; cbn; auto.
    - apply fields_ok_mono. exact K.
    - intros (A & B & (s & C) & D). split; [exact A|]. split; [exact B|]. split; [|exact D].
      destruct K as (_ & K & _). exact (K _ _ C).
  Qed.

  Definition same_kind (c c' : cell) : Prop :=
    match c, c' with
    | CArr d e m _, CArr d' e' m' _ => d = d' /\ e = e' /\ m = m'
    | CDict _, CDict _ => True
    | CComp nm _ _ _ _ _ _, CComp nm' _ _ _ _ _ _ => nm = nm'
    | _, _ => False
    end.
  Lemma kinds_put h a c c' : nth_error h a = Some c -> same_kind c c' -> kinds h (put h a c').
  Proof.
    intros E S. split; [|split].
    - intros b dyn et mx items B. destruct (Nat.eq_dec a b) as [<-|N].
      + rewrite (put_same _ _ _ _ E). rewrite E in B. injection B as ->. destruct c'; cbn in S; try contradiction.
        destruct S as (-> & -> & ->). eauto.
      + rewrite put_other by exact N. eauto.
    - intros d s B. destruct (Nat.eq_dec a d) as [<-|N].
      + rewrite (put_same _ _ _ _ E). rewrite E in B. injection B as ->. destruct c'; cbn in S; try contradiction. eauto.
      + rewrite put_other by exact N. eauto.
    - intros b nm (u & fs & k & d & act & ex & B). destruct (Nat.eq_dec a b) as [<-|N].
      + rewrite E in B. injection B as ->. destruct c' as [| |nm' u' fs' k' d' act' ex']; cbn in S; try contradiction.
        subst nm'. exists u', fs', k', d', act', ex'. apply (put_same _ _ _ _ E).
      + exists u, fs, k, d, act, ex. rewrite put_other by exact N. exact B.
  Qed.
  Lemma inv_put T h a c c' : inv T h -> nth_error h a = Some c -> same_kind c c' -> cell_ok T h a c' -> inv T (put h a c').
  Proof.
    intros V E S C b cb B. pose proof (kinds_put h a c c' E S) as K.
    destruct (Nat.eq_dec a b) as [<-|N].
    - rewrite (put_same _ _ _ _ E) in B. injection B as <-. exact (cell_ok_mono _ _ _ _ _ K C).
    - rewrite put_other in B by exact N. exact (cell_ok_mono _ _ _ _ _ K (V _ _ B)).
  Qed.

  (** New cells. *)
  Lemma inv_app T T' h cs : inv T h -> (forall a, a < List.length h -> T' a = T a) ->
    (forall i c, nth_error cs i = Some c -> cell_ok T' (h ++ cs) (List.length h + i) c) -> inv T' (h ++ cs).
  Proof.
    intros V TE C a c E. destruct (Nat.lt_ge_cases a (List.length h)) as [L|L].
    - rewrite nth_error_app1 in E by exact L. pose proof (cell_ok_mono _ _ _ _ _ (kinds_app h cs) (V _ _ E)) as X.
      pose proof (V _ _ E) as X0.
      destruct c as [| |nm u fs k d act extra]; cbn in *; auto.
      + rewrite TE by exact L. exact X.
      + destruct X as (A & B & D & F). split; [exact A|]. split; [|auto].
        destruct X0 as (_ & _ & (s & Ed) & _). rewrite TE; [exact B|]. apply nth_error_Some. congruence.
    - rewrite nth_error_app2 in E by exact L. specialize (C _ _ E).
      replace (List.length h + (a - List.length h)) with a in C by lia. exact C.
  Qed.

  Lemma known_fields nm u fs cs : known env (AComp nm u fs cs) -> Forall (fun f => known env (snd f)) fs.
  Proof. intros (_ & _ & F). apply (proj1 (fold_and _ _)) in F. exact F. Qed.

  (** Construction. *)
  Definition made (f : heap -> slot * heap) (t : atype) : Prop :=
    forall h, I h -> I (snd (f h)) /\ kinds h (snd (f h)) /\ field_ok (snd (f h)) t (fst (f h)) /\
      (elem t -> item_ok t (fst (f h))).
  Lemma made_n f t n : elem t -> made f t -> forall h, I h ->
    I (snd (alloc_n f n h)) /\ kinds h (snd (alloc_n f n h)) /\ Forall (item_ok t) (fst (alloc_n f n h)).
  Proof.
    intros El M. induction n as [|n IH]; intros h V; cbn [alloc_n].
    - split; [exact V|]. split; [apply kinds_refl|constructor].
    - destruct (M h V) as (V1 & K1 & _ & O1). destruct (f h) as (s & h1). cbn [fst snd] in *.
      destruct (IH h1 V1) as (V2 & K2 & O2). destruct (alloc_n f n h1) as (ss & h2). cbn [fst snd] in *.
      split; [exact V2|]. split; [eapply kinds_trans; eauto|]. constructor; auto.
  Qed.
  Lemma made_all (fs : list (string * atype)) : Forall (fun f => made (alloc (snd f)) (snd f)) fs -> forall h, I h ->
    let r := alloc_all (map (fun f => alloc (snd f)) fs) h in
    I (snd r) /\ kinds h (snd r) /\ Forall2 (fun f s => field_ok (snd r) (snd f) s) fs (fst r).
  Proof.
    induction 1 as [|f fs M F IH]; intros h V; cbn [map alloc_all].
    - split; [exact V|]. split; [apply kinds_refl|constructor].
    - destruct (M h V) as (V1 & K1 & O1 & _). destruct (alloc (snd f) h) as (s & h1). cbn [fst snd] in *.
      destruct (IH h1 V1) as (V2 & K2 & O2). destruct (alloc_all _ h1) as (ss & h2). cbn [fst snd] in *.
      split; [exact V2|]. split; [eapply kinds_trans; eauto|]. constructor; [|exact O2]. eapply field_ok_mono; eauto.
  Qed.
  Lemma made_alloc t : known env t -> made (alloc t) t.
  Proof.
    induction t as [k n cm|n|dyn et mx IH|nm u fs cs IH] using atype_ind'; intros K h V.
    - cbn. split; [exact V|]. split; [apply kinds_refl|].
      split; intros; exists (repeat false n); (split; [reflexivity|apply repeat_length]).
    - cbn. split; [exact V|]. split; [apply kinds_refl|]. split; [reflexivity|intros; exact Logic.I].
    - destruct K as (K1 & K2 & K3).
      assert (exists items h1, (if dyn then ([], h) else alloc_n (alloc et) mx h) = (items, h1) /\
        I h1 /\ kinds h h1 /\ Forall (item_ok et) items) as (items & h1 & E & V1 & KK & F).
      { destruct dyn.
        - exists [], h. split; [reflexivity|]. split; [exact V|]. split; [apply kinds_refl|constructor].
        - destruct (made_n (alloc et) et mx K2 (IH K1) h V) as (A & B & C).
          destruct (alloc_n (alloc et) mx h) as (items & h1). cbn [fst snd] in *. exists items, h1. auto. }
      assert (alloc (AArr dyn et mx) h = (SObj (PRef (List.length h1)), h1 ++ [CArr dyn et mx items])) as ->.
      { cbn [alloc]. destruct dyn; [injection E as <- <-; reflexivity|]. rewrite E. reflexivity. }
      cbn [fst snd]. destruct V1 as (T & V1). split; [|split; [|split]].
      + exists T. apply (inv_app T T); auto. intros [|[|i]] c Ec; cbn in Ec; try discriminate. injection Ec as <-.
        cbn. auto.
      + eapply kinds_trans; [exact KK|apply kinds_app].
      + cbn. exists (List.length h1), items. split; [reflexivity|]. rewrite nth_error_app2, Nat.sub_diag by lia. reflexivity.
      + intros [].
    - cbn [alloc]. pose proof (known_fields _ _ _ _ K) as KF.
      assert (Forall (fun f => made (alloc (snd f)) (snd f)) fs) as M.
      { rewrite Forall_forall in *. intros f Hf. apply IH; auto. }
      destruct (made_all fs M h V) as (V1 & KK & F).
      destruct (alloc_all (map (fun f => alloc (snd f)) fs) h) as (slots & h1). cbn [fst snd] in *.
      destruct V1 as (T & V1). set (n := List.length h1).
      split; [|split; [|split]].
      + exists (fun x => if Nat.eqb x n then fs else T x).
        apply (inv_app T); [exact V1| |].
        * intros a L. fold n in L. destruct (Nat.eqb_spec a n); [lia|reflexivity].
        * intros [|[|[|i]]] c Ec; cbn in Ec; try discriminate; injection Ec as <-; cbn [cell_ok].
          -- fold n. rewrite Nat.add_0_r, Nat.eqb_refl. eapply fields_ok_mono; [apply kinds_app|exact F].
          -- fold n. split; [exact K|]. split; [rewrite Nat.eqb_refl; reflexivity|]. split; [|auto].
             exists slots. unfold n. rewrite nth_error_app2, Nat.sub_diag by lia. reflexivity.
      + eapply kinds_trans; [exact KK|apply kinds_app].
      + cbn [field_ok fst]. exists (S n). split; [reflexivity|]. exists u, fs, cs, n, None, [].
        rewrite nth_error_app2 by (fold n; lia). fold n. replace (S n - n) with 1 by lia. reflexivity.
      + intros _. exact Logic.I.
  Qed.

  (** ** Operations *)
  Definition keeps_inv (h h' : heap) : Prop := I h -> I h'.

  Lemma put_items h a dyn et mx items items' : nth_error h a = Some (CArr dyn et mx items) ->
    I h -> (Forall (item_ok et) items -> known env et -> Forall (item_ok et) items') -> I (put h a (CArr dyn et mx items')).
  Proof.
    intros E (T & V) F. exists T. eapply inv_put; [exact V|exact E|cbn; auto|].
    pose proof (V _ _ E) as (A & B & C). cbn. auto.
  Qed.
  Lemma stored_ok h k n cm v b : known env (APrim k n cm) -> num_ok v -> prim_set h k n cm v = Ok b ->
    item_ok (APrim k n cm) (SPrim b).
  Proof. intros K V E. exists b. split; [reflexivity|]. exact (prim_set_length env h k n cm v b K V E). Qed.
  Lemma object_ok et v : (forall k n cm, et <> APrim k n cm) -> num_ok v -> item_ok et (SObj v).
  Proof. intros N V. destruct et; [exfalso; eapply N; reflexivity|exact V..]. Qed.

  Lemma setitem_inv h a i v : num_ok v -> I h -> I (snd (arr_setitem h a i v)).
  Proof.
    intros N V. unfold arr_setitem. destruct (nth_error h a) as [[dyn et mx items| |]|] eqn:E; try exact V.
    destruct (_ <=? _)%Z; [exact V|]. destruct (norm_index _ _) as [j|]; [|exact V].
    assert (forall s, (known env et -> item_ok et s) -> I (put h a (CArr dyn et mx (list_set items j s)))) as P.
    { intros s S. eapply put_items; [exact E|exact V|]. intros F K. apply Forall_list_set; auto. }
    destruct et as [k n cm| | |]; try (apply P; intros _; exact N).
    destruct (prim_set h k n cm v) as [b|] eqn:B; [|exact V]. apply P. intros K. eapply stored_ok; eauto.
  Qed.
  Lemma insert_inv h a i v : num_ok v -> I h -> I (snd (arr_insert h a i v)).
  Proof.
    intros N V. unfold arr_insert. destruct (nth_error h a) as [[dyn et mx items| |]|] eqn:E; try exact V.
    destruct (_ <=? _)%Z; [exact V|]. destruct (Nat.eqb _ _); [exact V|].
    assert (forall s, (known env et -> item_ok et s) ->
      I (put h a (CArr dyn et mx (list_insert (insert_index (List.length items) i) s items)))) as P.
    { intros s S. eapply put_items; [exact E|exact V|]. intros F K. apply Forall_insert; auto. }
    destruct et as [k n cm| | |]; try (apply P; intros _; exact N).
    destruct (prim_set h k n cm v) as [b|] eqn:B; [|exact V]. apply P. intros K. eapply stored_ok; eauto.
  Qed.
  Lemma append_inv h a v : num_ok v -> I h -> I (snd (arr_append h a v)).
  Proof.
    intros N V. unfold arr_append. destruct (nth_error h a) as [[dyn et mx items| |]|]; try exact V. apply insert_inv; auto.
  Qed.
  Lemma append_all_inv vs : forall h a, Forall num_ok vs -> I h -> I (snd (append_all h a vs)).
  Proof.
    induction vs as [|v vs IH]; intros h a F V; [exact V|]. cbn [append_all].
    apply Forall_cons_iff in F as (N & F). pose proof (append_inv h a v N V) as V1.
    destruct (arr_append h a v) as ([]&h1); [apply IH; auto|exact V1].
  Qed.
  Lemma delall_inv h a : I h -> I (snd (arr_delall h a)).
  Proof.
    intros V. unfold arr_delall. destruct (nth_error h a) as [[dyn et mx items| |]|] eqn:E; try exact V.
    eapply put_items; eauto.
  Qed.
  Lemma clear_inv h a : I h -> I (snd (arr_clear h a)).
  Proof.
    intros V. unfold arr_clear. destruct (nth_error h a) as [[dyn et mx items| |]|] eqn:E; try exact V.
    cbn [snd]. rewrite clear_loop_nil by lia. eapply put_items; eauto.
  Qed.
  Lemma delitem_inv h a i : I h -> I (snd (arr_delitem h a i)).
  Proof.
    intros V. unfold arr_delitem. destruct (nth_error h a) as [[dyn et mx items| |]|] eqn:E; try exact V.
    destruct (norm_index _ _); [|exact V]. eapply put_items; [exact E|exact V|]. intros F _. apply Forall_remove. exact F.
  Qed.
  Lemma delslice_inv h a lo hi : I h -> I (snd (arr_delslice h a lo hi)).
  Proof.
    intros V. unfold arr_delslice. destruct (nth_error h a) as [[dyn et mx items| |]|] eqn:E; try exact V.
    eapply put_items; [exact E|exact V|]. intros F _. apply Forall_app. split; [apply Forall_firstn|apply Forall_skipn]; exact F.
  Qed.
  Lemma pop_inv h a i : I h -> I (snd (arr_pop h a i)).
  Proof.
    intros V. unfold arr_pop. destruct (arr_getitem h a i); [|exact V]. pose proof (delitem_inv h a i V) as V1.
    destruct (arr_delitem h a i) as ([]&h1); exact V1.
  Qed.
  Lemma item_num et s v : item_ok et s -> item_value et s = Ok v -> num_ok v.
  Proof.
    intros O E. destruct s as [[|b0 b]| |w]; cbn [item_value] in E.
    - injection E as <-. exact Logic.I.
    - destruct et; try discriminate. exact (prim_get_num _ _ _ _ E).
    - injection E as <-. exact Logic.I.
    - injection E as <-. destruct et; try exact O. destruct O as (b & X & _). discriminate.
  Qed.
  Lemma getitem_num h a i v : I h -> arr_getitem h a i = Ok v -> num_ok v.
  Proof.
    intros (T & V) E. unfold arr_getitem in E. destruct (nth_error h a) as [[dyn et mx items| |]|] eqn:EA; try discriminate.
    destruct (norm_index _ _); [|discriminate]. destruct (nth_error items n) as [s|] eqn:EI; [|discriminate].
    destruct (V _ _ EA) as (_ & _ & F). apply (item_num et s v); [|exact E].
    apply nth_error_In in EI. exact (proj1 (Forall_forall _ _) F _ EI).
  Qed.
  Lemma reverse_inv k : forall h a n i, I h -> I (snd (reverse_loop h a n i k)).
  Proof.
    induction k as [|k IH]; intros h a n i V; [exact V|]. cbn [reverse_loop].
    destruct (arr_getitem h a _) as [x|] eqn:EX; [|exact V]. destruct (arr_getitem h a (Z.of_nat i)) as [y|] eqn:EY; [|exact V].
    pose proof (setitem_inv h a (Z.of_nat i) x (getitem_num _ _ _ _ V EX) V) as V1.
    destruct (arr_setitem h a (Z.of_nat i) x) as ([]&h1); [|exact V1]. cbn [snd] in V1.
    pose proof (setitem_inv h1 a (Z.of_nat n - Z.of_nat i - 1) y (getitem_num _ _ _ _ V EY) V1) as V2.
    destruct (arr_setitem h1 a _ y) as ([]&h2); [|exact V2]. apply IH. exact V2.
  Qed.
  Lemma iterate_num h v vs : I h -> num_ok v -> iterate h v = Ok vs -> Forall num_ok vs.
  Proof.
    intros (T & V) N E. destruct v as [| |x|s|l| |b]; cbn [iterate] in E; try discriminate.
    - injection E as <-. apply Forall_map. apply Forall_forall. intros; exact Logic.I.
    - injection E as <-. cbn in N. apply (proj1 (fold_and _ _)) in N. exact N.
    - destruct (nth_error h b) as [[dyn et mx items| |]|] eqn:EA; try discriminate.
      destruct (V _ _ EA) as (_ & _ & F). clear - E F. revert vs E.
      induction F as [|s items O F IH]; intros vs E; cbn [mapM] in E.
      + injection E as <-. constructor.
      + apply bind_ok in E as (y & Ey & E). apply bind_ok in E as (ys & Eys & E). injection E as <-.
        constructor; [exact (item_num _ _ _ O Ey)|exact (IH _ Eys)].
  Qed.
  Lemma extend_inv h a v : num_ok v -> I h -> I (snd (arr_extend h a v)).
  Proof.
    intros N V. unfold arr_extend. destruct (iterate h v) as [vs|] eqn:E; [|exact V].
    apply append_all_inv; [exact (iterate_num h v vs V N E)|exact V].
  Qed.
  Lemma ints_num bs : Forall num_ok (map (fun b => PInt (Z.of_N b)) bs).
  Proof. apply Forall_map. apply Forall_forall. intros; exact Logic.I. Qed.
  Lemma from_bytes_inv h a bs : I h -> I (snd (arr_from_bytes h a bs)).
  Proof.
    intros V. unfold arr_from_bytes. pose proof (delall_inv h a V) as V1.
    destruct (arr_delall h a) as ([]&h1); [|exact V1]. apply append_all_inv; [apply ints_num|exact V1].
  Qed.
  Lemma encode_inv h a s : I h -> I (snd (arr_encode h a s)).
  Proof.
    intros V. unfold arr_encode. destruct (nth_error h a) as [[dyn et mx items| |]|]; try exact V.
    destruct (negb _); [exact V|]. pose proof (delall_inv h a V) as V1.
    destruct (arr_delall h a) as ([]&h1); [|exact V1]. destruct (utf8_encode s); [|exact V1].
    apply append_all_inv; [apply ints_num|exact V1].
  Qed.
  Lemma assign_array_inv h b v : num_ok v -> I h -> I (snd (assign_array h b v)).
  Proof.
    intros N V. unfold assign_array. pose proof (clear_inv h b V) as V1.
    destruct (arr_clear h b) as ([x|]&h1); [|exact V1]. cbn [snd] in V1.
    assert (forall r : res pyval * heap, I (snd r) ->
      I (snd (let '(r, h2) := r in (match r with Ok _ => Ok PNone | Err _ => Err AttributeError end, h2)))) as P
      by (intros ([]&h2) X; exact X).
    apply P. destruct v as [| |y|s|l| |c];
      try (match goal with |- I (snd (match iterate h1 ?w with _ => _ end)) =>
             destruct (iterate h1 w) as [vs|] eqn:E; [|exact V1];
             apply append_all_inv; [exact (iterate_num h1 w vs V1 N E)|exact V1] end).
    apply encode_inv. exact V1.
  Qed.

  (** Selecting a union field. *)
  Lemma select_inv h a full u fs cs d act act' extra extra' : nth_error h a = Some (CComp full u fs cs d act extra) ->
    (u = false -> act' = None) -> I h -> I (put h a (CComp full u fs cs d act' extra')).
  Proof.
    intros E A (T & V). exists T. eapply inv_put; [exact V|exact E|reflexivity|].
    destruct (V _ _ E) as (B & C & D & F). cbn. auto.
  Qed.
  Lemma getattr_inv h a nm : I h -> I (snd (getattr h a nm)).
  Proof.
    intros V. unfold getattr. destruct (nth_error h a) as [[| |full u fs cs d act extra]|] eqn:E; try exact V.
    destruct (dget _ _ _); [exact V|]. destruct (find_field fs nm) as [(i, t)|]; [|exact V].
    destruct (union_blocks _ _ _); [exact V|].
    assert (I (if u then put h a (CComp full u fs cs d (Some nm) extra) else h)) as V1.
    { destruct u; [|exact V]. eapply select_inv; eauto. discriminate. }
    cbv zeta. set (h1 := if u then _ else _) in *. clearbody h1.
    destruct (nth_error h1 d) as [[|slots|]|]; try exact V1.
    destruct (nth_error slots i) as [[]|]; exact V1.
  Qed.

  Lemma put_field h a full u fs cs d act extra slots i t s nm : nth_error h a = Some (CComp full u fs cs d act extra) ->
    nth_error h d = Some (CDict slots) -> find_field fs nm = Some (i, t) ->
    (known env t -> field_ok h t s) -> I h -> I (put h d (CDict (list_set slots i s))).
  Proof.
    intros E D F S (T & V). exists T. eapply inv_put; [exact V|exact D|exact Logic.I|].
    destruct (V _ _ E) as (A & B & _ & _). pose proof (V _ _ D) as X. cbn in X |- *. rewrite B in *.
    apply find_field_in in F.
    assert (known env t) as KT.
    { pose proof (known_fields _ _ _ _ A) as KF. apply nth_error_In in F.
      apply (proj1 (Forall_forall _ _) KF _ F). }
    specialize (S KT). clear - X F S. revert i F.
    induction X as [|f s0 fs slots Y X IH]; intros [|i] F; cbn in F; try discriminate.
    - injection F as ->. cbn [list_set]. constructor; auto.
    - cbn [list_set]. constructor; auto.
  Qed.

  Lemma setattr_inv h a nm v : num_ok v -> I h -> I (snd (setattr h a nm v)).
  Proof.
    intros N V. unfold setattr. destruct (nth_error h a) as [[| |full u fs cs d act extra]|] eqn:E; try exact V.
    destruct (dget _ _ _); [exact V|]. destruct (find_field fs nm) as [(i, t)|] eqn:F.
    2:{ destruct V as (T & V). destruct (V _ _ E) as (_ & _ & _ & A). eapply select_inv; [exact E|exact A|]. exists T. exact V. }
    destruct (union_blocks _ _ _); [exact V|].
    assert (I (if u then put h a (CComp full u fs cs d (Some nm) extra) else h) /\
      exists act', nth_error (if u then put h a (CComp full u fs cs d (Some nm) extra) else h) a =
        Some (CComp full u fs cs d act' extra)) as (V1 & act' & E1).
    { destruct u; [|split; [exact V|eauto]]. split; [eapply select_inv; eauto; discriminate|].
      eexists. rewrite (put_same _ _ _ _ E). reflexivity. }
    cbv zeta. set (h1 := if u then _ else _) in *. clearbody h1.
    destruct (nth_error h1 d) as [[|slots|]|] eqn:D; try exact V1.
    destruct t as [k n cm|n|dyn et mx|full' u' fs' cs'].
    - destruct (prim_set h1 k n cm v) as [b|] eqn:B; [|exact V1]. cbn [snd].
      eapply put_field; [exact E1|exact D|exact F| |exact V1].
      intros K. exists b. split; [reflexivity|]. exact (prim_set_length env h1 k n cm v b K N B).
    - exact V1.
    - destruct (nth_error slots i) as [[| |[]]|]; try exact V1. apply assign_array_inv; auto.
    - destruct (is_comp_named h1 v full') eqn:EN; cbn [negb]; [|exact V1]. destruct v as [| | | | | |b]; try exact V1.
      unfold copy_comp. destruct (nth_error h1 b) as [[| |f2 u2 fs2 cs2 d2 act2 ex2]|] eqn:EB; try exact V1. cbn [snd].
      set (h2 := h1 ++ [CComp f2 u2 fs2 cs2 d2 act2 ex2]).
      assert (I h2) as V2.
      { destruct V1 as (T & V1). exists T. apply (inv_app T T); auto.
        intros [|[|j]] c Ec; cbn in Ec; try discriminate. injection Ec as <-.
        exact (cell_ok_mono _ _ _ _ _ (kinds_app _ _) (V1 _ _ EB)). }
      eapply put_field with (a := a); [| |exact F| |exact V2].
      + unfold h2. rewrite nth_error_app1; [exact E1|apply nth_error_Some; congruence].
      + unfold h2. rewrite nth_error_app1; [exact D|apply nth_error_Some; congruence].
      + intros _. exists (List.length h1). split; [reflexivity|]. cbn in EN. rewrite EB in EN.
        apply String.eqb_eq in EN. subst f2. exists u2, fs2, cs2, d2, act2, ex2.
        unfold h2. rewrite nth_error_app2, Nat.sub_diag by lia. reflexivity.
  Qed.

  Lemma init_inv kw : forall h a, Forall (fun e => num_ok (snd e)) kw -> I h -> I (snd (init_fields h a kw)).
  Proof.
    induction kw as [|(nm, v) kw IH]; intros h a F V; [exact V|]. cbn [init_fields].
    apply Forall_cons_iff in F as (N & F). destruct (private nm); [exact V|].
    pose proof (setattr_inv h a nm v N V) as V1. destruct (setattr h a nm v) as ([]&h1); [apply IH; auto|exact V1].
  Qed.

  Lemma deepcopy_inv h a : I h -> I (snd (deepcopy h a)).
  Proof.
    intros (T & V). unfold deepcopy. destruct (nth_error h a); [|exists T; exact V]. cbn [snd].
    set (n := List.length h). exists (fun x => if x <? n then T x else T (x - n)).
    apply (inv_app T); [exact V| |].
    - intros x L. fold n in L. replace (x <? n) with true by (symmetry; apply Nat.ltb_lt; exact L). reflexivity.
    - intros i c1 E. fold n.
      assert (exists c0, nth_error h i = Some c0 /\ c1 = shift_cell n c0) as (c0 & E0 & ->).
      { rewrite nth_error_map in E. destruct (nth_error h i) as [c0|]; [|discriminate]. exists c0. split; [reflexivity|].
        cbn in E. congruence. }
      assert (forall j x, nth_error h j = Some x -> nth_error (h ++ map (shift_cell n) h) (j + n) = Some (shift_cell n x)) as SH.
      { intros j x X. rewrite nth_error_app2 by (unfold n; lia). replace (j + n - List.length h) with j by (unfold n; lia).
        rewrite nth_error_map, X. reflexivity. }
      pose proof (V _ _ E0) as C. destruct c0 as [dyn et mx items|slots|full u fs cs d act extra]; cbn [shift_cell cell_ok] in *.
      + destruct C as (K & El & F). split; [exact K|]. split; [exact El|]. apply Forall_map.
        eapply Forall_impl; [|exact F]. intros s O. destruct s as [b| |w]; cbn [shift_slot]; auto.
        destruct et; cbn in O |- *; try (destruct O as (b & X & _); discriminate).
        all: clear - O; induction w as [| | | |l IH| |] using pyval_ind'; cbn in O |- *; auto;
          rewrite fold_and in O |- *; apply Forall_map; rewrite !Forall_forall in *; auto.
      + replace (n + i <? n) with false by (symmetry; apply Nat.ltb_ge; lia).
        replace (n + i - n) with i by lia. clear - C SH.
        induction C as [|f s fs slots Y X IH]; cbn [map]; constructor; auto.
        destruct (snd f); cbn in Y |- *; auto.
        * destruct Y as (b & -> & L). exists b. auto.
        * subst s. reflexivity.
        * destruct Y as (b & items & -> & Eb). cbn. apply SH in Eb. cbn [shift_cell] in Eb. eauto.
        * destruct Y as (b & -> & u & fs1 & cs & d & act & ex & Eb). apply SH in Eb. cbn [shift_cell] in Eb.
          eexists. split; [reflexivity|]. do 6 eexists. exact Eb.
      + destruct C as (K & ET & (slots & Ed) & A). split; [exact K|].
        replace (d + n <? n) with false by (symmetry; apply Nat.ltb_ge; lia).
        replace (d + n - n) with d by lia. split; [exact ET|]. split; [|exact A].
        apply SH in Ed. cbn [shift_cell] in Ed. eauto.
  Qed.

  Lemma step_inv h o : typed_op env o -> I h -> I (snd (step h o)).
  Proof.
    intros O V. destruct o; cbn [step typed_op] in *; try exact V;
      try (apply doubles_num in O).
    - destruct O as (K & F). unfold new_object. destruct t as [| | |nm u fs cs]; try exact V.
      destruct (made_alloc _ K h V) as (V1 & _). destruct (alloc (AComp nm u fs cs) h) as (s & h1). cbn [snd] in V1.
      destruct s as [| |[]]; try exact V1. apply init_inv; [|exact V1].
      eapply Forall_impl; [|exact F]. intros e. apply doubles_num.
    - apply getattr_inv. exact V.
    - apply setattr_inv; auto.
    - unfold copy_comp. destruct (nth_error h a) as [[| |f2 u2 fs2 cs2 d2 act2 ex2]|] eqn:EB; try exact V. cbn [snd].
      destruct V as (T & V). exists T. apply (inv_app T T); auto.
      intros [|[|j]] c Ec; cbn in Ec; try discriminate. injection Ec as <-.
      exact (cell_ok_mono _ _ _ _ _ (kinds_app _ _) (V _ _ EB)).
    - apply deepcopy_inv. exact V.
    - apply setitem_inv; auto.
    - apply delitem_inv; auto.
    - apply delall_inv; auto.
    - apply insert_inv; auto.
    - apply append_inv; auto.
    - apply extend_inv; auto.
    - apply pop_inv; auto.
    - apply clear_inv; auto.
    - apply from_bytes_inv; auto.
    - apply encode_inv; auto.
    - unfold arr_new_item. destruct (nth_error h a) as [[dyn et mx items| |]|] eqn:E; try exact V.
      destruct et as [| |dyn2 et2 mx2|nm u fs cs]; try exact V.
      + destruct V as (T & V). destruct (V _ _ E) as (_ & X & _). destruct X.
      + pose proof V as (T & V0). destruct (V0 _ _ E) as (K & _ & _).
        destruct (made_alloc _ K h V) as (V1 & _). destruct (alloc (AComp nm u fs cs) h) as (s & h1). exact V1.
    - apply delslice_inv; auto.
    - unfold arr_reverse. destruct (arr_len h a); [|exact V]. apply reverse_inv. exact V.
    - unfold switch_union_field. destruct (nth_error h a) as [[| |full [] fs cs d act extra]|] eqn:E; try exact V.
      cbn [snd]. eapply select_inv; eauto. discriminate.
  Qed.

  Lemma run_inv ops : forall h, Forall (typed_op env) ops -> I h -> I (run h ops).
  Proof.
    induction ops as [|o ops IH]; intros h F V; [exact V|]. apply Forall_cons_iff in F as (O & F).
    cbn [run]. apply IH; [exact F|]. apply step_inv; auto.
  Qed.
  Lemma inv_nil : I [].
  Proof. exists (fun _ => []). intros [|a] c E; discriminate. Qed.
End Inv.

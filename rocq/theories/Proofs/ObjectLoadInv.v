(** Received objects fit their types, as built ones do. *)
From Coq Require Import String.
From Verif.Base Require Import Prelude Bits.
From Verif.Model Require Import BitCodec Types Codec Prim Float ObjectApi ObjectUnpack.
From Verif.Spec Require Import CodecSpec ObjectSpec FloatSpec SendableSpec ReceiveSpec.
From Verif.Proofs Require Import BitCodecFacts CodecFacts DecodeFacts ObjectFacts ObjectUnions ObjectTyping ObjectInv ObjectSend ObjectLoad.
Open Scope list_scope.
Local Open Scope nat_scope.

(** Compound objects stay what they are; only the active field may change. *)
Definition comps (h h' : heap) : Prop := forall b nm u fs cs d act ex, nth_error h b = Some (CComp nm u fs cs d act ex) ->
  exists act', nth_error h' b = Some (CComp nm u fs cs d act' ex).
Lemma comps_refl h : comps h h.
Proof. intros b nm u fs cs d act ex E. eauto. Qed.
Lemma comps_trans h1 h2 h3 : comps h1 h2 -> comps h2 h3 -> comps h1 h3.
Proof. intros A B b nm u fs cs d act ex E. destruct (A _ _ _ _ _ _ _ _ E) as (a' & E'). eauto. Qed.
Lemma comps_extends h h' : extends h h' -> comps h h'.
Proof. intros X b nm u fs cs d act ex E. exists act. exact (extends_nth _ _ _ _ X E). Qed.
Lemma comps_put h a c c' : nth_error h a = Some c -> (forall nm u fs cs d act ex, c <> CComp nm u fs cs d act ex) -> comps h (put h a c').
Proof.
  intros E N b nm u fs cs d act ex B. destruct (Nat.eq_dec a b) as [<-|NE].
  - rewrite E in B. injection B as ->. destruct (N _ _ _ _ _ _ _ eq_refl).
  - rewrite put_other by exact NE. eauto.
Qed.
Lemma comps_select h a nm u fs cs d act act' ex : nth_error h a = Some (CComp nm u fs cs d act ex) ->
  comps h (put h a (CComp nm u fs cs d act' ex)).
Proof.
  intros E b nm' u' fs' cs' d' act2 ex' B. destruct (Nat.eq_dec a b) as [<-|NE].
  - rewrite E in B. injection B as <- <- <- <- <- <- <-. rewrite (put_same _ _ _ _ E). eauto.
  - rewrite put_other by exact NE. eauto.
Qed.

Section LoadInv.
  Variable env : catalogue.
  Definition evolved (H H2 : heap) : Prop := I env H2 /\ kinds H H2 /\ comps H H2.
  Lemma evolved_refl H : I env H -> evolved H H.
  Proof. intros V. split; [exact V|]. split; [apply kinds_refl|apply comps_refl]. Qed.
  Lemma evolved_trans H1 H2 H3 : evolved H1 H2 -> evolved H2 H3 -> evolved H1 H3.
  Proof.
    intros (A1 & A2 & A3) (B1 & B2 & B3). split; [exact B1|]. split; [eapply kinds_trans; eauto|eapply comps_trans; eauto].
  Qed.

  Definition keeps_ok (t : atype) : Prop := forall H x tao s x' s' H2, I env H -> slot_fit H t x ->
    load t H x tao s = Ok (x', s', H2) ->
    evolved H H2 /\ (field_ok H t x -> field_ok H2 t x') /\ (elem t -> item_ok t x').

  Lemma slot_fit_mono H H2 t x : kinds H H2 -> slot_fit H t x -> slot_fit H2 t x.
  Proof.
    intros (K & _). destruct t; cbn; auto. intros (b & items & -> & E). destruct (K _ _ _ _ _ E) as (i' & E'). eauto.
  Qed.

  Section Items.
    Variable et : atype.
    Hypotheses (KE : known env et) (EL : elem et) (C : keeps_ok et).

    Lemma load_n_inv n : forall H items tao s items' s' H2, I env H -> Forall (item_ok et) items ->
      load_n (load et) n H items tao s = Ok (items', s', H2) -> evolved H H2 /\ Forall (item_ok et) items'.
    Proof.
      induction n as [|n IH]; intros H items tao s items' s' H2 V F E; cbn [load_n] in E.
      - injection E as <- <- <-. split; [apply evolved_refl; exact V|exact F].
      - destruct items as [|x r]; [discriminate|]. apply Forall_cons_iff in F as (F1 & F2).
        apply bind_ok in E as (((x1 & s1) & h1) & E1 & E). apply bind_ok in E as (((r1 & s2) & h2) & E2 & E).
        injection E as <- <- <-.
        destruct (C _ _ _ _ _ _ _ V (item_fit _ et x EL F1) E1) as (A & _ & B).
        destruct (IH _ _ _ _ _ _ _ (proj1 A) F2 E2) as (A2 & B2).
        split; [eapply evolved_trans; eauto|]. constructor; auto.
    Qed.

    Lemma alloc_evolved H x h0 : I env H -> alloc et H = (x, h0) -> evolved H h0 /\ slot_fit h0 et x.
    Proof.
      intros V E. destruct (made_alloc env et KE H V) as (A & B & D & G). rewrite E in *. cbn [fst snd] in *.
      split; [|apply field_fit; exact D]. split; [exact A|]. split; [exact B|].
      apply comps_extends. exact (proj1 (alloc_facts _ _ _ _ E)).
    Qed.

    Lemma load_new_inv n : forall H tao s items' s' H2, I env H ->
      load_new (alloc et) (load et) n H tao s = Ok (items', s', H2) -> evolved H H2 /\ Forall (item_ok et) items'.
    Proof.
      induction n as [|n IH]; intros H tao s items' s' H2 V E; cbn [load_new] in E.
      - injection E as <- <- <-. split; [apply evolved_refl; exact V|constructor].
      - destruct (alloc et H) as (x & h0) eqn:EA. destruct (alloc_evolved _ _ _ V EA) as (A0 & SF).
        apply bind_ok in E as (((x1 & s1) & h1) & E1 & E). apply bind_ok in E as (((r1 & s2) & h2) & E2 & E).
        injection E as <- <- <-.
        destruct (C _ _ _ _ _ _ _ (proj1 A0) SF E1) as (A & _ & B).
        destruct (IH _ _ _ _ _ _ (proj1 A) E2) as (A2 & B2).
        split; [eapply evolved_trans; [exact A0|eapply evolved_trans; eauto]|]. constructor; auto.
    Qed.

    Lemma load_tao_inv n : forall H s items' H2, I env H ->
      load_tao (alloc et) (load et) n H s = Ok (items', H2) -> evolved H H2 /\ Forall (item_ok et) items'.
    Proof.
      induction n as [|n IH]; intros H s items' H2 V E; cbn [load_tao] in E; [discriminate|].
      destruct (8 <=? List.length s).
      - destruct (alloc et H) as (x & h0) eqn:EA. destruct (alloc_evolved _ _ _ V EA) as (A0 & SF).
        apply bind_ok in E as (((x1 & s1) & h1) & E1 & E). apply bind_ok in E as ((r1 & h2) & E2 & E).
        injection E as <- <-.
        destruct (C _ _ _ _ _ _ _ (proj1 A0) SF E1) as (A & _ & B).
        destruct (IH _ _ _ _ (proj1 A) E2) as (A2 & B2).
        split; [eapply evolved_trans; [exact A0|eapply evolved_trans; eauto]|]. constructor; auto.
      - injection E as <- <-. split; [apply evolved_refl; exact V|constructor].
    Qed.

    Lemma write_items H H1 a dyn mx items items' : evolved H H1 -> nth_error H a = Some (CArr dyn et mx items) ->
      Forall (item_ok et) items' -> evolved H (put H1 a (CArr dyn et mx items')).
    Proof.
      intros (A1 & A2 & A3) E F. destruct A2 as (K1 & K2). destruct (K1 _ _ _ _ _ E) as (i1 & E1).
      split; [eapply put_items; eauto|]. split.
      - eapply kinds_trans; [split; [exact K1|exact K2]|]. eapply kinds_put; [exact E1|cbn; auto].
      - eapply comps_trans; [exact A3|]. eapply comps_put; [exact E1|discriminate].
    Qed.
  End Items.

  Lemma keeps_array dyn et mx : known env (AArr dyn et mx) -> keeps_ok et -> keeps_ok (AArr dyn et mx).
  Proof.
    intros (KE & EL & _) C H x tao s x' s' H2 V (a & items & -> & EA) E.
    cbn [load] in E. rewrite EA in E.
    assert (Forall (item_ok et) items) as F by (destruct V as (T & V); exact (proj2 (proj2 (V _ _ EA)))).
    assert (exists items' H1, evolved H H1 /\ Forall (item_ok et) items' /\ x' = SObj (PRef a) /\
      H2 = put H1 a (CArr dyn et mx items')) as (items' & H1 & A & B & -> & ->).
    { destruct dyn; cbn [negb] in E.
      - destruct (tao && _).
        + apply bind_ok in E as ((items' & H1) & E1 & E). injection E as <- <- <-.
          destruct (load_tao_inv et KE EL C _ _ _ _ _ V E1). eauto 6.
        + apply bind_ok in E as (cb & _ & E). apply bind_ok in E as (((items' & s1) & H1) & E1 & E). injection E as <- <- <-.
          destruct (load_new_inv et KE EL C _ _ _ _ _ _ _ V E1). eauto 6.
      - apply bind_ok in E as (((items' & s1) & H1) & E1 & E). injection E as <- <- <-.
        destruct (load_n_inv et EL C _ _ _ _ _ _ _ _ V F E1). eauto 6. }
    pose proof (write_items et H H1 a dyn mx items items' A EA B) as W. split; [exact W|]. split; [|intros []].
    intros _. exists a. destruct W as (_ & (K & _) & _). destruct (K _ _ _ _ _ EA) as (i' & E'). eauto.
  Qed.

  Lemma load_struct_inv (fs : list (string * atype)) : Forall (fun f => keeps_ok (snd f)) fs -> forall H slots tao s slots' s' H2, I env H ->
    Forall2 (fun (f : string * atype) x => field_ok H (snd f) x) fs slots ->
    load_struct (map (fun f => load (snd f)) fs) H slots tao s = Ok (slots', s', H2) ->
    evolved H H2 /\ Forall2 (fun (f : string * atype) x => field_ok H2 (snd f) x) fs slots'.
  Proof.
    induction 1 as [|f fs C F IH]; intros H slots tao s slots' s' H2 V S E; inversion S; subst; cbn [map load_struct] in E.
    - injection E as <- <- <-. split; [apply evolved_refl; exact V|constructor].
    - apply bind_ok in E as (((x1 & s1) & h1) & E1 & E). apply bind_ok in E as (((r1 & s2) & h2) & E2 & E).
      injection E as <- <- <-. match goal with X : field_ok H (snd f) _ |- _ => rename X into FX end.
      destruct (C _ _ _ _ _ _ _ V (field_fit _ _ _ FX) E1) as (A & B & _).
      assert (Forall2 (fun (f : string * atype) x => field_ok h1 (snd f) x) fs l') as S2.
      { eapply fields_ok_mono; [exact (proj1 (proj2 A))|assumption]. }
      destruct (IH _ _ _ _ _ _ _ (proj1 A) S2 E2) as (A2 & B2).
      split; [eapply evolved_trans; eauto|]. constructor; [|exact B2].
      eapply field_ok_mono; [exact (proj1 (proj2 A2))|]. auto.
  Qed.

  Lemma write_fields H H1 a nm u fs cs d act ex slots slots' : evolved H H1 ->
    nth_error H a = Some (CComp nm u fs cs d act ex) -> nth_error H d = Some (CDict slots) ->
    Forall2 (fun (f : string * atype) x => field_ok H1 (snd f) x) fs slots' -> evolved H (put H1 d (CDict slots')).
  Proof.
    intros ((T & V) & K & CM) EC ED F. destruct (CM _ _ _ _ _ _ _ _ EC) as (act' & EC1).
    destruct (proj1 (proj2 K) _ _ ED) as (s1 & ED1). split; [|split].
    - exists T. eapply inv_put; [exact V|exact ED1|exact Logic.I|]. cbn.
      destruct (V _ _ EC1) as (_ & TE & _). rewrite TE. exact F.
    - eapply kinds_trans; [exact K|]. eapply kinds_put; [exact ED1|exact Logic.I].
    - eapply comps_trans; [exact CM|]. eapply comps_put; [exact ED1|discriminate].
  Qed.

  Lemma Forall2_set {A B} (P : A -> B -> Prop) l r i x y : Forall2 P l r -> nth_error l i = Some x -> P x y ->
    Forall2 P l (list_set r i y).
  Proof.
    intros F. revert i. induction F as [|a b l r Q F IH]; intros [|i] E X; cbn in E; try discriminate.
    - injection E as ->. cbn. constructor; auto.
    - cbn. constructor; auto.
  Qed.
  Lemma Forall2_at {A B} (P : A -> B -> Prop) l r i x y : Forall2 P l r -> nth_error l i = Some x -> nth_error r i = Some y -> P x y.
  Proof.
    intros F. revert i. induction F as [|a b l r Q F IH]; intros [|i] E X; cbn in E, X; try discriminate.
    - injection E as ->. injection X as ->. exact Q.
    - eauto.
  Qed.

  Lemma keeps_comp nm u fs cs : known env (AComp nm u fs cs) -> Forall (fun f => keeps_ok (snd f)) fs -> keeps_ok (AComp nm u fs cs).
  Proof.
    intros KC C H x tao s x' s' H2 V _ E. cbn [load] in E.
    destruct x as [| |[| | | | | |a]]; try discriminate.
    destruct (nth_error H a) as [[| |nm' u' fs' cs' d act ex]|] eqn:EA; try discriminate.
    destruct (String.eqb_spec nm nm') as [<-|]; cbn [negb] in E; [|discriminate].
    assert (u = u' /\ fs = fs' /\ cs = cs') as (<- & <- & <-).
    { destruct V as (T & V). exact (known_same env _ _ _ _ _ _ _ KC (proj1 (V _ _ EA))). }
    destruct (nth_error H d) as [[|slots|]|] eqn:ED; try discriminate.
    assert (Forall2 (fun (f : string * atype) x => field_ok H (snd f) x) fs slots) as FS.
    { destruct V as (T & V). pose proof (V _ _ ED) as X. cbn in X. destruct (V _ _ EA) as (_ & TE & _). rewrite TE in X. exact X. }
    assert (evolved H H2 /\ x' = SObj (PRef a)) as (EV & ->).
    { destruct u.
      - destruct (firstn _ s) as [|b0 bs]; [discriminate|]. set (tag := N.to_nat (N_of_bits (b0 :: bs))) in *.
        destruct (nth_error fs tag) as [f|] eqn:Ef; [|discriminate].
        assert (nth_error (map (fun f => load (snd f)) fs) tag = Some (load (snd f))) as EL.
        { rewrite nth_error_map, Ef. reflexivity. }
        rewrite EL in E. destruct (nth_error slots tag) as [y|] eqn:Ey; [|discriminate].
        apply bind_ok in E as (((y1 & s1) & H1) & E1 & E). injection E as <- <- <-. split; [|reflexivity].
        set (H0 := put H a (CComp nm true fs cs d (Some (fst f)) ex)) in *.
        assert (evolved H H0) as E0.
        { split; [eapply select_inv; [exact EA|discriminate|exact V]|]. split.
          - eapply kinds_put; [exact EA|reflexivity].
          - eapply comps_select. exact EA. }
        pose proof (Forall2_at _ _ _ _ _ _ FS Ef Ey) as FY.
        pose proof (field_ok_mono _ _ _ _ (proj1 (proj2 E0)) FY) as FY0.
        destruct (proj1 (Forall_forall _ _) C f (nth_error_In _ _ Ef) _ _ _ _ _ _ _ (proj1 E0) (field_fit _ _ _ FY0) E1) as (A & B & _).
        eapply write_fields; [eapply evolved_trans; eauto|exact EA|exact ED|].
        eapply Forall2_set; [|exact Ef|exact (B FY0)].
        eapply fields_ok_mono; [|exact FS]. eapply kinds_trans; [exact (proj1 (proj2 E0))|exact (proj1 (proj2 A))].
      - apply bind_ok in E as (((sl & s1) & H1) & E1 & E). injection E as <- <- <-. split; [|reflexivity].
        destruct (load_struct_inv fs C _ _ _ _ _ _ _ V FS E1) as (A & B).
        eapply write_fields; eauto. }
    split; [exact EV|]. split; [|intros _; exact Logic.I].
    intros _. exists a. split; [reflexivity|]. destruct EV as (_ & _ & CM). destruct (CM _ _ _ _ _ _ _ _ EA) as (act' & E').
    do 6 eexists. exact E'.
  Qed.

  Lemma load_inv t : known env t -> keeps_ok t.
  Proof.
    induction t as [k n cm|n|dyn et mx IH|nm u fs cs IH] using atype_ind'; intros K.
    - intros H x tao s x' s' H2 V (b & -> & L) E. cbn [load] in E.
      assert (H = H2 /\ exists b', x' = SPrim b' /\ List.length b' = n) as (<- & b' & -> & L').
      { destruct (Nat.eqb n 0); [injection E as <- <- <-; eauto|].
        apply bind_ok in E as (b' & E1 & E). injection E as <- <- <-. split; [reflexivity|]. exists b'. split; [reflexivity|].
        exact (proj1 (le_be_roundtrip _ _ _ E1)). }
      split; [apply evolved_refl; exact V|]. split; intros _; cbn; eauto.
    - intros H x tao s x' s' H2 V _ E. cbn [load] in E. injection E as <- <- <-.
      split; [apply evolved_refl; exact V|]. split; [auto|intros []].
    - apply keeps_array; [exact K|]. apply IH. exact (proj1 K).
    - apply keeps_comp; [exact K|]. pose proof (known_fields env _ _ _ _ K) as KF.
      rewrite Forall_forall in *. intros f Hf. apply IH; auto.
  Qed.

  Lemma receive_inv t h tao s a h' : known env t -> I env h -> receive h t tao s = (Ok a, h') ->
    I env h' /\ field_ok h' t (SObj (PRef a)).
  Proof.
    intros K V E. unfold receive, new_object in E. destruct t as [| | |nm u fs cs]; try discriminate.
    set (t := AComp nm u fs cs) in *.
    destruct (made_alloc env t K h V) as (A & _ & D & _).
    destruct (alloc t h) as (x & h1). cbn [fst snd] in *.
    destruct x as [| |[| | | | | |b]]; try discriminate. cbn [init_fields] in E.
    destruct (load t h1 (SObj (PRef b)) tao s) as [[[x' s'] h2]|] eqn:EL; [|discriminate]. injection E as <- <-.
    destruct (load_inv t K _ _ _ _ _ _ _ A (field_fit _ _ _ D) EL) as ((V2 & KK & CC) & _ & _).
    split; [exact V2|]. eapply field_ok_mono; eauto.
  Qed.
End LoadInv.

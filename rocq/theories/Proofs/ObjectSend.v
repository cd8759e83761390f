(** Every object that a program builds can be serialised. *)
From Coq Require Import String.
From Verif.Base Require Import Prelude Bits.
From Verif.Model Require Import BitCodec Types Codec Prim Float Utf8 ObjectApi.
From Verif.Spec Require Import PrimSpec CodecSpec ObjectSpec FloatSpec SendableSpec.
From Verif.Proofs Require Import CodecFacts DecodeFacts WireFacts ClipFacts CodecTop ObjectFacts ObjectTop ObjectUnions ObjectTyping ObjectInv.
Open Scope list_scope.

Section Send.
  Variable env : catalogue.
  Lemma known_wf t : known env t -> wf_type (erase t).
  Proof.
    induction t as [k n cm|n|dyn et mx IH|nm u fs cs IH] using atype_ind'; cbn; intros K.
    - destruct k; lia.
    - exact K.
    - destruct K as (K & E & M). split; [auto|]. split; [|exact M]. destruct et; cbn; auto.
    - destruct K as (_ & U & F). split; [intros; rewrite map_length; auto|].
      clear - IH F. induction IH as [|f fs A IH IHl]; cbn in *; [exact Logic.I|]. destruct F. auto.
  Qed.

  Definition slot_fit (h : heap) (t : atype) (s : slot) : Prop :=
    match t with
    | APrim _ n _ => exists b, s = SPrim b /\ List.length b = n
    | AArr dyn et mx => exists b items, s = SObj (PRef b) /\ nth_error h b = Some (CArr dyn et mx items)
    | _ => True
    end.
  Lemma field_fit h t s : field_ok h t s -> slot_fit h t s.
  Proof. destruct t; cbn; auto. Qed.
  Lemma item_fit h t s : elem t -> item_ok t s -> slot_fit h t s.
  Proof. destruct t; cbn; auto. intros []. Qed.

  Lemma known_same nm u fs cs u' fs' cs' : known env (AComp nm u fs cs) -> known env (AComp nm u' fs' cs') ->
    u = u' /\ fs = fs' /\ cs = cs'.
  Proof. intros (A & _) (B & _). rewrite A in B. injection B as -> -> ->. auto. Qed.
  Lemma index_lt fs active i : active_index fs active = Some i -> i < List.length fs.
  Proof.
    unfold active_index. destruct active as [f|]; [|discriminate]. destruct (find_field fs f) as [(j, t)|] eqn:E; [|discriminate].
    intros H. injection H as <-. apply find_field_in in E. apply nth_error_Some. congruence.
  Qed.

  Section Heap.
    Variables (T : addr -> list (string * atype)) (h : heap).
    Hypothesis V : inv env T h.

    Lemma reify_fits t : forall s v, known env t -> slot_fit h t s -> reify h t s = Some v ->
      loose (erase t) v /\ (sizes_within h -> statics_full h -> valid (erase t) v).
    Proof.
      induction t as [k n cm|n|dyn et mx IH|nm u fs cs IH] using atype_ind'; intros s v K F E.
      - destruct F as (b & -> & L). cbn in E. injection E as <-. split; [|intros _ _]; constructor; exact L.
      - cbn in E. destruct s; try discriminate. injection E as <-. split; [|intros _ _]; constructor.
      - destruct F as (b & items & -> & Eb). cbn [reify] in E. rewrite Eb in E.
        destruct (all_some (map (reify h et) items)) as [vs|] eqn:EV; [|discriminate]. injection E as <-.
        destruct (V _ _ Eb) as (KE & EL & FI).
        assert (List.length vs = List.length items /\ Forall (loose (erase et)) vs /\
          (sizes_within h -> statics_full h -> Forall (valid (erase et)) vs)) as (L & F1 & F2).
        { clear Eb K. revert vs EV. induction FI as [|s items O FI IHi]; intros vs EV; cbn in EV.
          - injection EV as <-. repeat split; auto.
          - destruct (reify h et s) as [x|] eqn:EX; [|discriminate].
            destruct (all_some (map (reify h et) items)) as [xs|]; [|discriminate]. injection EV as <-.
            destruct (IH s x KE (item_fit h et s EL O) EX) as (A & B). destruct (IHi _ eq_refl) as (C & D & G).
            split; [cbn; lia|]. split; [constructor; auto|]. intros. constructor; auto. }
        split; [constructor; exact F1|]. intros Z Y. destruct dyn; cbn [erase].
        + apply valid_dynamic; [auto|]. rewrite L. exact (Z _ _ _ _ _ Eb).
        + apply valid_static; [auto|]. rewrite L. exact (Y _ _ _ _ Eb).
      - cbn [reify] in E. destruct s as [| |[| | | | | |a]]; try discriminate.
        destruct (nth_error h a) as [[| |nm' u' fs' cs' d act extra]|] eqn:Ea; try discriminate.
        destruct (String.eqb_spec nm nm') as [<-|]; [|discriminate]. cbn [andb] in E.
        destruct (active_known fs act) eqn:EK; [|discriminate].
        destruct (nth_error h d) as [[|slots|]|] eqn:Ed; try discriminate.
        destruct (zip_some _ slots) as [vs|] eqn:EZ; [|discriminate]. injection E as <-.
        destruct (V _ _ Ea) as (K' & ET & _ & AN). destruct (known_same _ _ _ _ _ _ _ K K') as (<- & <- & <-).
        pose proof (V _ _ Ed) as FS. cbn in FS. rewrite ET in FS.
        pose proof (known_fields env _ _ _ _ K) as KF.
        assert (Forall2 loose (map (fun f => erase (snd f)) fs) vs /\
          (sizes_within h -> statics_full h -> Forall2 valid (map (fun f => erase (snd f)) fs) vs)) as (F1 & F2).
        { clear Ea Ed ET EK AN K K' F. revert vs EZ. induction FS as [|f s fs slots O FS IHf]; intros vs EZ; cbn in EZ.
          - injection EZ as <-. split; [constructor|intros; constructor].
          - destruct (reify h (snd f) s) as [x|] eqn:EX; [|discriminate].
            destruct (zip_some _ slots) as [xs|]; [|discriminate]. injection EZ as <-.
            apply Forall_cons_iff in IH as (IH0 & IH). apply Forall_cons_iff in KF as (K0 & KF).
            destruct (IH0 s x K0 (field_fit _ _ _ O) EX) as (A & B). destruct (IHf IH KF _ eq_refl) as (C & D).
            split; [constructor; auto|]. intros. constructor; auto. }
        cbn [erase]. destruct u.
        + split; [|intros]; constructor; auto; intros i Ei; rewrite map_length; exact (index_lt _ _ _ Ei).
        + rewrite (AN eq_refl). cbn [active_index]. split; [|intros]; constructor; auto.
    Qed.

    Lemma named_field f (fs : list (string * atype)) : In f (map fst fs) -> exists it, find_field fs f = Some it.
    Proof.
      induction fs as [|(n, t) fs IH]; cbn; intros H; [destruct H|]. destruct (String.eqb_spec f n); [eauto|].
      destruct H as [H|H]; [congruence|]. destruct (IH H) as ((j & t2) & ->). eauto.
    Qed.

    Lemma reify_exists : proper h -> forall t s, known env t -> field_ok h t s -> exists v, reify h t s = Some v.
    Proof.
      intros (PA & PU). induction t as [k n cm|n|dyn et mx IH|nm u fs cs IH] using atype_ind'; intros s K F.
      - destruct F as (b & -> & _). cbn. eauto.
      - cbn in F. subst s. cbn. eauto.
      - destruct F as (b & items & -> & Eb). cbn [reify]. rewrite Eb. destruct (V _ _ Eb) as (KE & EL & FI).
        assert (Forall (field_ok h et) items) as FF.
        { destruct et as [k n cm| | |nm u fs cs]; try destruct EL.
          - exact FI.
          - exact (PA _ _ _ _ _ _ _ _ Eb). }
        assert (exists vs, all_some (map (reify h et) items) = Some vs) as (vs & ->); [|eauto].
        clear Eb FI. induction FF as [|s items O FF IHi]; [cbn; eauto|]. cbn.
        destruct (IH s KE O) as (x & ->). destruct IHi as (xs & ->). eauto.
      - destruct F as (a & -> & u' & fs' & cs' & d & act & extra & Ea). cbn [reify]. rewrite Ea, String.eqb_refl. cbn [andb].
        destruct (V _ _ Ea) as (K' & ET & (slots & Ed) & AN). destruct (known_same _ _ _ _ _ _ _ K K') as (<- & <- & <-).
        assert (active_known fs act = true) as ->.
        { destruct act as [f|]; [|reflexivity]. destruct (named_field f fs (PU _ _ _ _ _ _ _ _ Ea)) as (it & E).
          unfold active_known. rewrite E. reflexivity. }
        rewrite Ed. pose proof (V _ _ Ed) as FS. cbn in FS. rewrite ET in FS.
        pose proof (known_fields env _ _ _ _ K) as KF.
        assert (exists vs, zip_some (map (fun f => reify h (snd f)) fs) slots = Some vs) as (vs & ->); [|eauto].
        clear Ea Ed ET AN K K' PA PU. induction FS as [|f s fs slots O FS IHf]; [cbn; eauto|]. cbn.
        apply Forall_cons_iff in IH as (IH0 & IH). apply Forall_cons_iff in KF as (K0 & KF).
        destruct (IH0 s K0 O) as (x & ->). destruct (IHf IH KF) as (xs & ->). eauto.
    Qed.
  End Heap.

  Lemma built ops a nm u fs cs d active extra : Forall (typed_op env) ops ->
    nth_error (run [] ops) a = Some (CComp nm u fs cs d active extra) ->
    exists T, inv env T (run [] ops) /\ known env (AComp nm u fs cs).
  Proof.
    intros F E. destruct (run_inv env ops [] F (inv_nil env)) as (T & V). exists T. split; [exact V|].
    exact (proj1 (V _ _ E)).
  Qed.

  (** Whatever is there is sent, with arrays that lost items filled up. *)
  Lemma sendable_clipped ops a nm u fs cs d active extra v tao : Forall (typed_op env) ops ->
    nth_error (run [] ops) a = Some (CComp nm u fs cs d active extra) ->
    let t := AComp nm u fs cs in
    reify (run [] ops) t (SObj (PRef a)) = Some v ->
    exists bs, pack (erase t) tao v = Ok bs /\ List.length bs <= get_max_bitlen (erase t) /\
      exists v' rest, unpack (erase t) tao bs = Ok (v', rest) /\ valid (erase t) v' /\
        content (erase t) v' = content (erase t) (clip (erase t) v).
  Proof.
    intros F E t R. destruct (built _ _ _ _ _ _ _ _ _ F E) as (T & V & K).
    destruct (reify_fits T _ V t _ _ K Logic.I R) as (L & _). pose proof (known_wf t K) as Hwf.
    destruct (pack_clip (erase t) Hwf v L) as [Hv Hp]. rewrite Hp.
    destruct (pack_bounds (erase t) Hwf _ Hv tao) as (bs & Eb & Hb).
    destruct (pack_unpack (erase t) Hwf _ Hv tao) as (bs' & E' & Hrt).
    rewrite Eb in E'. injection E' as <-.
    exists bs. split; [exact Eb|]. split; [lia|].
    destruct (Hrt []) as (v' & rest' & E2 & Hc & Hv' & _); [cbn; lia|].
    rewrite app_nil_r in E2. exists v', rest'. auto.
  Qed.

  Lemma sendable ops a nm u fs cs d active extra : Forall (typed_op env) ops ->
    nth_error (run [] ops) a = Some (CComp nm u fs cs d active extra) -> proper (run [] ops) ->
    exists v, reify (run [] ops) (AComp nm u fs cs) (SObj (PRef a)) = Some v.
  Proof.
    intros F E P. destruct (built _ _ _ _ _ _ _ _ _ F E) as (T & V & K).
    apply (reify_exists T _ V P _ _ K). exists a. split; [reflexivity|]. do 6 eexists. exact E.
  Qed.

  Lemma sendable_exact ops a nm u fs cs d active extra v tao : Forall (typed_op env) ops -> legal_run [] ops ->
    nth_error (run [] ops) a = Some (CComp nm u fs cs d active extra) -> statics_full (run [] ops) ->
    let t := AComp nm u fs cs in
    reify (run [] ops) t (SObj (PRef a)) = Some v ->
    exists bs, pack (erase t) tao v = Ok bs /\ List.length bs <= get_max_bitlen (erase t) /\
      exists v' rest, unpack (erase t) tao bs = Ok (v', rest) /\ valid (erase t) v' /\
        content (erase t) v' = content (erase t) v.
  Proof.
    intros F LR E SF t R. destruct (built _ _ _ _ _ _ _ _ _ F E) as (T & V & K).
    destruct (reify_fits T _ V t _ _ K Logic.I R) as (_ & L). pose proof (known_wf t K) as Hwf.
    specialize (L (program_sizes ops LR) SF).
    destruct (pack_bounds (erase t) Hwf _ L tao) as (bs & Eb & Hb).
    destruct (pack_unpack (erase t) Hwf _ L tao) as (bs' & E' & Hrt).
    rewrite Eb in E'. injection E' as <-.
    exists bs. split; [exact Eb|]. split; [lia|].
    destruct (Hrt []) as (v' & rest' & E2 & Hc & Hv' & _); [cbn; lia|].
    rewrite app_nil_r in E2. exists v', rest'. auto.
  Qed.
End Send.

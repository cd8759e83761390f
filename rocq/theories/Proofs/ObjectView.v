(** Messages with the same content look the same to user code. *)
From Coq Require Import String.
From Verif.Base Require Import Prelude Bits.
From Verif.Model Require Import BitCodec Types Codec Prim Float Utf8 ObjectApi ObjectUnpack.
From Verif.Spec Require Import CodecSpec ObjectSpec FloatSpec SendableSpec ReceiveSpec.
From Verif.Proofs Require Import CodecFacts DecodeFacts ObjectFacts ObjectTop ObjectUnions ObjectTyping ObjectInv ObjectSend ObjectLoad ObjectLoadInv.
Open Scope list_scope.
Local Open Scope nat_scope.

Lemma Forall2_nth_r {A B} (P : A -> B -> Prop) l1 l2 j x : Forall2 P l1 l2 -> nth_error l1 j = Some x ->
  exists y, nth_error l2 j = Some y /\ P x y.
Proof.
  intros F. revert j. induction F as [|a b l1 l2 Q F IH]; intros [|j] E; cbn in E; try discriminate.
  - injection E as ->. exists b. auto.
  - destruct (IH j E) as (y & Y1 & Y2). eauto.
Qed.
Lemma zip_all_nth {A} (ps : list (A -> Prop)) : forall l i p x, zip_all ps l -> nth_error ps i = Some p -> nth_error l i = Some x -> p x.
Proof.
  induction ps as [|q ps IH]; intros [|y l] i p x Z E1 E2; cbn in Z; try contradiction.
  { destruct i; discriminate. }
  destruct Z as (Q & Z). destruct i as [|i]; cbn in E1, E2; [injection E1 as <-; injection E2 as <-; exact Q|exact (IH l i p x Z E1 E2)].
Qed.

Definition flat (w : pyval) : Prop := forall a, w <> PRef a.
Lemma prim_flat k n b w : prim_get k n b = Ok w -> flat w.
Proof.
  unfold prim_get. intros E a ->. destruct k; try (injection E as E; destruct (get_int _ n b); discriminate).
  apply bind_ok in E as (o & _ & E). destruct o; discriminate.
Qed.
Lemma view_flat h1 h2 w path : flat w -> view h1 w path = view h2 w path.
Proof.
  intros F. destruct path as [|[nm|i] path]; cbn [view]; destruct w; try reflexivity; destruct (F a eq_refl).
Qed.

(** What reading a slot gives. *)
Definition slot_value (t : atype) (s : slot) : res pyval :=
  match s with
  | SPrim b => match t with APrim k n _ => prim_get k n b | _ => Err TypeError end
  | SVoid => Ok PVoid
  | SObj v => Ok v
  end.

Section Two.
  Variables (env : catalogue) (T1 T2 : addr -> list (string * atype)) (h1 h2 : heap).
  Hypotheses (V1 : inv env T1 h1) (V2 : inv env T2 h2).

  (** Both slots hold the same content of the type. *)
  Definition twins (t : atype) (s1 s2 : slot) : Prop :=
    known env t /\ slot_fit h1 t s1 /\ slot_fit h2 t s2 /\
    exists v1 v2, reify h1 t s1 = Some v1 /\ reify h2 t s2 = Some v2 /\
      content (erase t) v1 = content (erase t) v2 /\ selected (erase t) v1 /\ selected (erase t) v2.

  Definition arr_parts (h : heap) (dyn : bool) (et : atype) (mx : nat) (a : addr) (items : list slot) : Prop :=
    nth_error h a = Some (CArr dyn et mx items).

  Lemma all_some_nth {A B} (f : A -> option B) l vs : all_some (map f l) = Some vs -> Forall2 (fun x v => f x = Some v) l vs.
  Proof.
    revert vs. induction l as [|x l IH]; intros vs E; cbn in E; [injection E as <-; constructor|].
    destruct (f x) eqn:EX; [|discriminate]. destruct (all_some (map f l)); [|discriminate]. injection E as <-. constructor; auto.
  Qed.

  Lemma twins_array dyn et mx s1 s2 : twins (AArr dyn et mx) s1 s2 -> exists a1 a2 i1 i2, s1 = SObj (PRef a1) /\ s2 = SObj (PRef a2) /\
    nth_error h1 a1 = Some (CArr dyn et mx i1) /\ nth_error h2 a2 = Some (CArr dyn et mx i2) /\ Forall2 (twins et) i1 i2 /\
    (Forall (item_ok et) i1 /\ Forall (item_ok et) i2 /\ elem et).
  Proof.
    intros (K & (a1 & i1 & -> & E1) & (a2 & i2 & -> & E2) & v1 & v2 & R1 & R2 & C & S1 & S2).
    exists a1, a2, i1, i2. split; [reflexivity|]. split; [reflexivity|]. split; [exact E1|]. split; [exact E2|].
    destruct (V1 _ _ E1) as (KE & EL & F1). destruct (V2 _ _ E2) as (_ & _ & F2). split; [|auto].
    cbn [reify] in R1, R2. rewrite E1 in R1. rewrite E2 in R2.
    destruct (all_some (map (reify h1 et) i1)) as [vs1|] eqn:A1; [|discriminate]. injection R1 as <-.
    destruct (all_some (map (reify h2 et) i2)) as [vs2|] eqn:A2; [|discriminate]. injection R2 as <-.
    cbn [erase content selected] in C, S1, S2. injection C as C.
    apply all_some_nth in A1. apply all_some_nth in A2. clear E1 E2 K.
    revert i2 vs2 A2 F2 S2 C. induction A1 as [|x v i1 vs1 X A1 IH]; intros i2 vs2 A2 F2 S2 C.
    - destruct vs2; [|discriminate]. inversion A2. constructor.
    - destruct A2 as [|y w i2 vs2 Y A2]; [discriminate|]. cbn in C. injection C as C0 C.
      apply Forall_cons_iff in F1 as (F1a & F1). apply Forall_cons_iff in F2 as (F2a & F2).
      apply Forall_cons_iff in S1 as (S1a & S1). apply Forall_cons_iff in S2 as (S2a & S2).
      constructor; [|eapply IH; eauto]. split; [exact KE|]. split; [apply item_fit; assumption|]. split; [apply item_fit; assumption|].
      eauto 10.
  Qed.

  Lemma zip_some_forall {A B} (rs : list (A -> option B)) : forall slots vs, zip_some rs slots = Some vs ->
    List.length rs = List.length slots /\ List.length vs = List.length slots /\
    forall i r s, nth_error rs i = Some r -> nth_error slots i = Some s -> exists v, nth_error vs i = Some v /\ r s = Some v.
  Proof.
    induction rs as [|r rs IH]; intros [|s slots] vs E; cbn in E; try discriminate.
    - injection E as <-. split; [reflexivity|]. split; [reflexivity|]. intros [|i] ? ? X; discriminate.
    - destruct (r s) as [v|] eqn:R; [|discriminate]. destruct (zip_some rs slots) as [ys|] eqn:Z; [|discriminate]. injection E as <-.
      destruct (IH _ _ Z) as (LA & LB & LC). cbn. split; [congruence|]. split; [congruence|].
      intros [|i] r' s' X Y; cbn in X, Y; [injection X as <-; injection Y as <-; exists v; auto|exact (LC i r' s' X Y)].
  Qed.

  Lemma fit_field h t s : field_ok h t s -> slot_fit h t s.
  Proof. apply field_fit. Qed.

  Lemma nth_content fs vs i t v : nth_error fs i = Some t -> nth_error vs i = Some v ->
    nth i (zip_content (map content fs) vs) DNone = content t v.
  Proof.
    intros E1 E2. eapply zip_content_nth; [|exact E2]. rewrite nth_error_map, E1. reflexivity.
  Qed.

  (** Two objects with the same content: the parts that user code reaches. *)
  Lemma twins_comp nm u fs cs s1 s2 : twins (AComp nm u fs cs) s1 s2 -> exists a1 a2 d1 d2 act x1 x2 l1 l2,
    s1 = SObj (PRef a1) /\ s2 = SObj (PRef a2) /\
    nth_error h1 a1 = Some (CComp nm u fs cs d1 act x1) /\ nth_error h2 a2 = Some (CComp nm u fs cs d2 act x2) /\
    nth_error h1 d1 = Some (CDict l1) /\ nth_error h2 d2 = Some (CDict l2) /\
    (u = true -> act <> None) /\
    forall f i ft, find_field fs f = Some (i, ft) -> (u = true -> act = Some f) ->
      exists y1 y2, nth_error l1 i = Some y1 /\ nth_error l2 i = Some y2 /\ twins ft y1 y2 /\ field_ok h1 ft y1 /\ field_ok h2 ft y2.
  Proof.
    intros (K & _ & _ & v1 & v2 & R1 & R2 & C & S1 & S2). cbn [reify] in R1, R2.
    destruct s1 as [| |[| | | | | |a1]]; try discriminate. destruct s2 as [| |[| | | | | |a2]]; try discriminate.
    destruct (nth_error h1 a1) as [[| |nm1 u1 fs1 cs1 d1 act1 x1]|] eqn:E1; try discriminate.
    destruct (nth_error h2 a2) as [[| |nm2 u2 fs2 cs2 d2 act2 x2]|] eqn:E2; try discriminate.
    destruct (String.eqb_spec nm nm1) as [<-|]; [|discriminate]. destruct (String.eqb_spec nm nm2) as [<-|]; [|discriminate].
    cbn [andb] in R1, R2.
    destruct (active_known fs act1) eqn:K1; [|discriminate]. destruct (active_known fs act2) eqn:K2; [|discriminate].
    destruct (nth_error h1 d1) as [[|l1|]|] eqn:D1; try discriminate. destruct (nth_error h2 d2) as [[|l2|]|] eqn:D2; try discriminate.
    destruct (zip_some _ l1) as [vs1|] eqn:Z1; [|discriminate]. injection R1 as <-.
    destruct (zip_some _ l2) as [vs2|] eqn:Z2; [|discriminate]. injection R2 as <-.
    destruct (V1 _ _ E1) as (KA & TA & _ & NA). destruct (known_same env _ _ _ _ _ _ _ K KA) as (<- & <- & <-).
    destruct (V2 _ _ E2) as (KB & TB & _ & NB). destruct (known_same env _ _ _ _ _ _ _ K KB) as (<- & <- & <-).
    pose proof (V1 _ _ D1) as F1. cbn in F1. rewrite TA in F1. pose proof (V2 _ _ D2) as F2. cbn in F2. rewrite TB in F2.
    destruct (zip_some_forall _ _ _ Z1) as (La & Lb & N1). destruct (zip_some_forall _ _ _ Z2) as (Lc & Ld & N2).
    rewrite map_length in La, Lc. pose proof (known_fields env _ _ _ _ K) as KF.
    assert (forall i ft f0, nth_error fs i = Some (f0, ft) -> exists y1 y2 w1 w2, nth_error l1 i = Some y1 /\ nth_error l2 i = Some y2 /\
      nth_error vs1 i = Some w1 /\ nth_error vs2 i = Some w2 /\ reify h1 ft y1 = Some w1 /\ reify h2 ft y2 = Some w2 /\
      field_ok h1 ft y1 /\ field_ok h2 ft y2 /\ known env ft) as AT.
    { intros i ft f0 Ef. destruct (Forall2_nth_r _ _ _ _ _ F1 Ef) as (y1 & Y1 & O1). destruct (Forall2_nth_r _ _ _ _ _ F2 Ef) as (y2 & Y2 & O2).
      assert (nth_error (map (fun f => reify h1 (snd f)) fs) i = Some (reify h1 ft)) as G1 by (rewrite nth_error_map, Ef; reflexivity).
      assert (nth_error (map (fun f => reify h2 (snd f)) fs) i = Some (reify h2 ft)) as G2 by (rewrite nth_error_map, Ef; reflexivity).
      destruct (N1 _ _ _ G1 Y1) as (w1 & W1 & R1). destruct (N2 _ _ _ G2 Y2) as (w2 & W2 & R2).
      exists y1, y2, w1, w2. pose proof (proj1 (Forall_forall _ _) KF _ (nth_error_In _ _ Ef)) as KK. cbn in KK, O1, O2.
      repeat (split; [assumption|]). exact KK. }
    cbn [erase content selected] in C, S1, S2. set (ts := map (fun f => erase (snd f)) fs) in *.
    assert (forall i f0 ft, nth_error fs i = Some (f0, ft) -> nth_error ts i = Some (erase ft)) as TS.
    { intros i f0 ft Ef. unfold ts. rewrite nth_error_map, Ef. reflexivity. }
    assert (forall i f0 ft, nth_error fs i = Some (f0, ft) -> nth_error (map selected ts) i = Some (selected (erase ft))) as TSS.
    { intros i f0 ft Ef. rewrite nth_error_map, (TS _ _ _ Ef). reflexivity. }
    destruct u.
    - destruct S1 as (i1 & p1 & w1 & I1 & P1 & W1 & S1). destruct S2 as (i2 & p2 & w2 & I2 & P2 & W2 & S2).
      rewrite I1, I2 in C. injection C as <- C.
      unfold active_index in I1, I2. destruct act1 as [f1|]; [|discriminate]. destruct act2 as [f2|]; [|discriminate].
      destruct (find_field fs f1) as [(j1 & t1)|] eqn:FF1; [|discriminate]. injection I1 as ->.
      destruct (find_field fs f2) as [(j2 & t2)|] eqn:FF2; [|discriminate]. injection I2 as ->.
      pose proof (find_field_in _ _ _ _ FF1) as G1. pose proof (find_field_in _ _ _ _ FF2) as G2.
      rewrite G1 in G2. injection G2 as <- <-.
      exists a1, a2, d1, d2, (Some f1), x1, x2, l1, l2. repeat (split; [first [reflexivity|assumption|intros; discriminate]|]).
      intros f i ft Ef A. injection (A eq_refl) as <-. rewrite FF1 in Ef. injection Ef as <- <-.
      destruct (AT _ _ _ G1) as (y1 & y2 & z1 & z2 & Y1 & Y2 & Z1' & Z2' & R1 & R2 & O1 & O2 & KK).
      exists y1, y2. split; [exact Y1|]. split; [exact Y2|]. split; [|auto].
      split; [exact KK|]. split; [apply field_fit; exact O1|]. split; [apply field_fit; exact O2|].
      exists z1, z2. split; [exact R1|]. split; [exact R2|].
      rewrite (TSS _ _ _ G1) in P1, P2. injection P1 as <-. injection P2 as <-.
      rewrite W1 in Z1'. injection Z1' as <-. rewrite W2 in Z2'. injection Z2' as <-.
      rewrite (nth_content _ _ _ _ _ (TS _ _ _ G1) W1), (nth_content _ _ _ _ _ (TS _ _ _ G1) W2) in C. auto.
    - rewrite (NA eq_refl) in E1. rewrite (NB eq_refl) in E2.
      exists a1, a2, d1, d2, None, x1, x2, l1, l2. repeat (split; [first [reflexivity|assumption|intros; discriminate]|]).
      intros f i ft Ef _. apply find_field_in in Ef.
      destruct (AT _ _ _ Ef) as (y1 & y2 & z1 & z2 & Y1 & Y2 & Z1' & Z2' & R1 & R2 & O1 & O2 & KK).
      exists y1, y2. split; [exact Y1|]. split; [exact Y2|]. split; [|auto].
      split; [exact KK|]. split; [apply field_fit; exact O1|]. split; [apply field_fit; exact O2|].
      exists z1, z2. split; [exact R1|]. split; [exact R2|]. split.
      + injection C as C.
        rewrite <- (nth_content _ _ _ _ _ (TS _ _ _ Ef) Z1'), <- (nth_content _ _ _ _ _ (TS _ _ _ Ef) Z2'). rewrite C. reflexivity.
      + split; [exact (zip_all_nth _ _ _ _ _ S1 (TSS _ _ _ Ef) Z1')|exact (zip_all_nth _ _ _ _ _ S2 (TSS _ _ _ Ef) Z2')].
  Qed.

  Lemma twins_prim k n cm s1 s2 : twins (APrim k n cm) s1 s2 -> exists b, s1 = SPrim b /\ s2 = SPrim b /\ List.length b = n.
  Proof.
    intros (K & (b1 & -> & L1) & (b2 & -> & L2) & v1 & v2 & R1 & R2 & C & _). cbn in *.
    injection R1 as <-. injection R2 as <-. injection C as ->. eauto.
  Qed.
  Lemma twins_void n s1 s2 : twins (AVoid n) s1 s2 -> s1 = SVoid /\ s2 = SVoid.
  Proof.
    intros (K & _ & _ & v1 & v2 & R1 & R2 & _). cbn in *. destruct s1; try discriminate. destruct s2; try discriminate. auto.
  Qed.

  Lemma prim_item k n cm b : known env (APrim k n cm) -> List.length b = n -> item_value (APrim k n cm) (SPrim b) = prim_get k n b.
  Proof. intros K L. destruct b as [|b0 b]; [|reflexivity]. exfalso. cbn in K, L. destruct k; lia. Qed.

  (** Items of arrays read the same, as far as they are numbers. *)
  Lemma twins_item_values et i1 i2 : elem et -> Forall2 (twins et) i1 i2 -> item_bytes et i1 = item_bytes et i2.
  Proof.
    intros EL F. induction F as [|x y i1 i2 X F IH]; [reflexivity|].
    destruct et as [k n cm| | |nm u fs cs]; try destruct EL.
    - destruct (twins_prim _ _ _ _ _ X) as (b & -> & -> & _). cbn [item_bytes]. rewrite IH. reflexivity.
    - destruct (twins_comp _ _ _ _ _ _ X) as (a1 & a2 & d1 & d2 & act & x1 & x2 & l1 & l2 & -> & -> & _).
      cbn [item_bytes item_value bind]. reflexivity.
  Qed.

  Lemma step_field a nm u fs cs d act x l f i ft h y : nth_error h a = Some (CComp nm u fs cs d act x) ->
    nth_error h d = Some (CDict l) -> dget String.eqb cs f = None -> find_field fs f = Some (i, ft) ->
    (u = true -> act = Some f) -> nth_error l i = Some y -> field_ok h ft y ->
    step h (OGet a f) = (slot_value ft y, h).
  Proof.
    intros E D Dg Ef U Y O. cbn [step]. unfold getattr. rewrite E, Dg, Ef.
    assert (union_blocks u act f = false) as ->.
    { unfold union_blocks. destruct u; [|reflexivity]. rewrite (U eq_refl), String.eqb_refl. reflexivity. }
    assert ((if u then put h a (CComp nm u fs cs d (Some f) x) else h) = h) as ->.
    { destruct u; [|reflexivity]. apply put_id. rewrite E, (U eq_refl). reflexivity. }
    cbv zeta. rewrite D, Y. unfold slot_value. destruct y; reflexivity.
  Qed.

  Lemma view_twins path : forall t s1 s2 w1 w2, twins t s1 s2 -> declared t path ->
    slot_value t s1 = Ok w1 -> slot_value t s2 = Ok w2 -> view h1 w1 path = view h2 w2 path.
  Proof.
    induction path as [|p path IH]; intros t s1 s2 w1 w2 TW D E1 E2.
    - destruct t as [k n cm|n|dyn et mx|nm u fs cs].
      + destruct (twins_prim _ _ _ _ _ TW) as (b & -> & -> & _). cbn in E1, E2. rewrite E1 in E2. injection E2 as <-.
        apply view_flat. exact (prim_flat _ _ _ _ E1).
      + destruct (twins_void _ _ _ TW) as (-> & ->). injection E1 as <-. injection E2 as <-. reflexivity.
      + destruct (twins_array _ _ _ _ _ TW) as (a1 & a2 & i1 & i2 & -> & -> & A1 & A2 & F & _ & _ & EL).
        injection E1 as <-. injection E2 as <-. cbn [view]. unfold arr_decode. rewrite A1, A2.
        rewrite (twins_item_values et i1 i2 EL F). f_equal. f_equal. clear - F. induction F; cbn; congruence.
      + destruct (twins_comp _ _ _ _ _ _ TW) as (a1 & a2 & d1 & d2 & act & x1 & x2 & l1 & l2 & -> & -> & A1 & A2 & _).
        injection E1 as <-. injection E2 as <-. cbn [view]. rewrite A1, A2. reflexivity.
    - destruct t as [k n cm|n|dyn et mx|nm u fs cs].
      + destruct (twins_prim _ _ _ _ _ TW) as (b & -> & -> & _). cbn in E1, E2. rewrite E1 in E2. injection E2 as <-.
        apply view_flat. exact (prim_flat _ _ _ _ E1).
      + destruct (twins_void _ _ _ TW) as (-> & ->). injection E1 as <-. injection E2 as <-. destruct p; reflexivity.
      + destruct (twins_array _ _ _ _ _ TW) as (a1 & a2 & i1 & i2 & -> & -> & A1 & A2 & F & O1 & O2 & EL).
        injection E1 as <-. injection E2 as <-. cbn [view]. destruct p as [nm|z].
        * cbn [step]. unfold getattr. rewrite A1, A2. reflexivity.
        * cbn [step]. unfold arr_getitem. rewrite A1, A2.
          assert (List.length i1 = List.length i2) as L by (clear - F; induction F; cbn; congruence). rewrite <- L.
          destruct (norm_index (List.length i1) z) as [j|] eqn:EJ; [|reflexivity].
          destruct (nth_error i1 j) as [y1|] eqn:Y1.
          2:{ apply nth_error_None in Y1. rewrite L in Y1. apply nth_error_None in Y1. rewrite Y1. reflexivity. }
          destruct (Forall2_nth_r _ _ _ _ _ F Y1) as (y2 & Y2 & TY). rewrite Y2.
          assert (exists w, (item_value et y1 = Err w /\ item_value et y2 = Err w)
             \/ exists u1 u2, item_value et y1 = Ok u1 /\ item_value et y2 = Ok u2 /\ slot_value et y1 = Ok u1 /\ slot_value et y2 = Ok u2) as X.
          { destruct et as [k n cm| | |nm u fs cs]; try destruct EL.
            - destruct (twins_prim _ _ _ _ _ TY) as (b & -> & -> & LB).
              rewrite (prim_item k n cm b (proj1 TY) LB). cbn [slot_value]. destruct (prim_get k n b) as [u1|e].
              + exists TypeError. right. eauto 10.
              + exists e. left. auto.
            - destruct (twins_comp _ _ _ _ _ _ TY) as (b1 & b2 & d1 & d2 & act & x1 & x2 & l1 & l2 & -> & -> & _).
              exists TypeError. right. eexists. eexists. repeat split. }
          destruct X as (e & [(-> & ->)|(u1 & u2 & -> & -> & U1 & U2)]); [reflexivity|].
          eapply IH; eauto.
      + destruct (twins_comp _ _ _ _ _ _ TW) as (a1 & a2 & d1 & d2 & act & x1 & x2 & l1 & l2 & -> & -> & A1 & A2 & D1 & D2 & UD & FD).
        injection E1 as <-. injection E2 as <-. cbn [view]. destruct p as [f|z].
        2:{ cbn [step]. unfold arr_getitem. rewrite A1, A2. reflexivity. }
        destruct (dget String.eqb cs f) as [z|] eqn:Dg.
        * cbn [step]. unfold getattr. rewrite A1, A2, Dg. apply view_flat. discriminate.
        * cbn [declared] in D. destruct D as [D|(i & ft & Ef & D)].
          { exfalso. clear - D Dg. induction cs as [|(n, z) cs IHc]; cbn in *; [contradiction|].
            destruct (String.eqb_spec f n) as [EQ|NE]; [discriminate|]. destruct D as [D|D]; [congruence|auto]. }
          assert ((u = true -> act = Some f) \/ union_blocks u act f = true) as [U|U].
          { destruct u; [|left; intros; discriminate]. destruct act as [g|]; [|destruct (UD eq_refl eq_refl)].
            destruct (String.eqb_spec g f) as [->|N]; [left; auto|right]. cbn. destruct (String.eqb_spec g f); [contradiction|reflexivity]. }
          -- destruct (FD f i ft Ef U) as (y1 & y2 & Y1 & Y2 & TY & O1 & O2).
             rewrite (step_field _ _ _ _ _ _ _ _ _ _ _ _ _ _ A1 D1 Dg Ef U Y1 O1).
             rewrite (step_field _ _ _ _ _ _ _ _ _ _ _ _ _ _ A2 D2 Dg Ef U Y2 O2).
             destruct (slot_value ft y1) as [u1|e1] eqn:S1; destruct (slot_value ft y2) as [u2|e2] eqn:S2.
             ++ eapply IH; eauto.
             ++ exfalso. destruct ft as [k n cm| | |].
                ** destruct (twins_prim _ _ _ _ _ TY) as (b & -> & -> & _). cbn in S1, S2. congruence.
                ** cbn in O2. subst y2. discriminate.
                ** cbn in O2. destruct O2 as (b & it & -> & _). discriminate.
                ** cbn in O2. destruct O2 as (b & -> & _). discriminate.
             ++ exfalso. destruct ft as [k n cm| | |].
                ** destruct (twins_prim _ _ _ _ _ TY) as (b & -> & -> & _). cbn in S1, S2. congruence.
                ** cbn in O1. subst y1. discriminate.
                ** cbn in O1. destruct O1 as (b & it & -> & _). discriminate.
                ** cbn in O1. destruct O1 as (b & -> & _). discriminate.
             ++ destruct ft as [k n cm| | |].
                ** destruct (twins_prim _ _ _ _ _ TY) as (b & -> & -> & _). cbn in S1, S2. congruence.
                ** cbn in O1. subst y1. discriminate.
                ** cbn in O1. destruct O1 as (b & it & -> & _). discriminate.
                ** cbn in O1. destruct O1 as (b & -> & _). discriminate.
          -- cbn [step]. unfold getattr. rewrite A1, A2, Dg, Ef, U. reflexivity.
  Qed.
End Two.

(** ** Decoded values have all unions decided *)

Lemma unpack_selected t : forall tao s v s', unpack t tao s = Ok (v, s') -> selected t v.
Proof.
  induction t as [k n cm|n|dyn et mx IH|u fs IH] using dtype_ind'; intros tao s v s' E.
  - exact Logic.I.
  - exact Logic.I.
  - rewrite unpack_arr in E. cbn [selected]. destruct dyn; cbn [negb] in E.
    + destruct (tao && _).
      * apply bind_ok in E as (vs & E1 & E). injection E as <- <-.
        eapply unpack_tao_inv; [|exact E1]. intros. eapply IH; eauto.
      * apply bind_ok in E as (cb & _ & E). apply bind_ok in E as ((vs & s1) & E1 & E). injection E as <- <-.
        eapply unpack_n_inv; [|exact E1]. intros. eapply IH; eauto.
    + apply bind_ok in E as ((vs & s1) & E1 & E). injection E as <- <-.
      eapply unpack_n_inv; [|exact E1]. intros. eapply IH; eauto.
  - destruct u.
    + rewrite unpack_union in E. destruct (firstn _ s) as [|b0 bs]; [discriminate|].
      set (tag := N.to_nat (N_of_bits (b0 :: bs))) in *. rewrite nth_error_map in E.
      destruct (nth_error fs tag) as [ft|] eqn:Ef; cbn [option_map] in E; [|discriminate].
      apply bind_ok in E as ((w & s1) & E1 & E). injection E as <- <-. cbn [selected].
      exists tag, (selected ft), w. split; [reflexivity|]. split; [rewrite nth_error_map, Ef; reflexivity|].
      split; [|exact (proj1 (Forall_forall _ _) IH ft (nth_error_In _ _ Ef) _ _ _ _ E1)].
      assert (tag < List.length (map default fs)) as L by (rewrite map_length; apply nth_error_Some; congruence).
      clear - L. revert L. generalize (map default fs) as l. generalize tag as n.
      intros n l. revert n. induction l as [|x l IHl]; intros [|n] L; cbn in *; try lia; [reflexivity|]. apply IHl. lia.
    + rewrite unpack_plain in E. apply bind_ok in E as ((vs & s1) & E1 & E). injection E as <- <-. cbn [selected].
      revert s vs s1 E1. induction IH as [|f fs IH0 IH IHl]; intros s vs s1 E1; cbn [map unpack_struct] in E1.
      * injection E1 as <- <-. exact Logic.I.
      * apply bind_ok in E1 as ((x & s2) & E2 & E1). apply bind_ok in E1 as ((xs & s3) & E3 & E1). injection E1 as <- <-.
        cbn. split; [eapply IH0; eauto|eapply IHl; eauto].
Qed.

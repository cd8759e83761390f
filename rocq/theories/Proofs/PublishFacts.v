(** The example programs that broadcast messages. *)
From Coq Require Import String.
From Verif.Base Require Import Prelude Bits.
From Verif.Model Require Import BitCodec Types Codec Prim Float ObjectApi Publishers.
From Verif.Spec Require Import PrimSpec FloatSpec ConstructSpec ObjectSpec NumberSpec PublishSpec HobbywingSpec.
From Verif.Proofs Require Import CodecFacts ObjectFacts ObjectTop ObjectArrays ObjectUnions ConstructFacts HobbywingFacts NumberFacts.
Open Scope list_scope.
Local Open Scope nat_scope.

(** An object being filled: [h1] is the heap when it was new. *)
Definition filling (h1 h : heap) a nm fs cs d slots (kw : list (string * pyval)) : Prop :=
  nth_error h a = Some (CComp nm false fs cs d None []) /\ nth_error h d = Some (CDict slots) /\ List.length slots = List.length fs /\
  (forall f v, In (f, v) kw -> reads_number fs h a f v) /\
  (forall f, ~ In f (map fst kw) -> fst (step h (OGet a f)) = fst (step h1 (OGet a f))) /\
  (forall b, b <> d -> nth_error h b = nth_error h1 b).

Lemma fresh h nm fs cs : exists a h1 d slots, step h (ONew (AComp nm false fs cs) []) = (Ok (PRef a), h1) /\
  filling h1 h1 a nm fs cs d slots [] /\ List.length h <= d /\ (forall b, b < List.length h -> nth_error h1 b = nth_error h b).
Proof.
  destruct (new_default h (AComp nm false fs cs)) as (a & h1 & E & _ & KP & LA & _). { do 4 eexists. reflexivity. }
  assert (exists d slots, nth_error h1 a = Some (CComp nm false fs cs d None []) /\ nth_error h1 d = Some (CDict slots) /\
     List.length slots = List.length fs /\ (List.length h <= d)%nat) as (d & slots & Ea & Ed & L & LD).
  { cbn [step] in E. unfold new_object in E. cbn [alloc] in E.
    pose proof (alloc_all_length (map (fun f => alloc (snd f)) fs) h) as LL. rewrite map_length in LL.
    destruct (alloc_all (map (fun f => alloc (snd f)) fs) h) as [slots h0] eqn:EA. cbn [fst] in LL. cbn [init_fields] in E. injection E as <- <-.
    exists (List.length h0), slots. rewrite !nth_error_app2 by lia.
    replace (S (List.length h0) - List.length h0)%nat with 1%nat by lia. rewrite Nat.sub_diag. repeat split; auto.
    destruct (alloc_all_default fs) with (h := h) as ((tl & X) & _).
    { apply Forall_forall. intros f _. apply alloc_is_default. }
    rewrite EA in X. cbn [snd] in X. subst h0. rewrite app_length. lia. }
  exists a, h1, d, slots. split; [exact E|]. split; [|split; [exact LD|exact KP]].
  split; [exact Ea|]. split; [exact Ed|]. split; [exact L|]. split; [intros f v []|]. split; reflexivity.
Qed.

Definition without (f : string) (kw : list (string * pyval)) := filter (fun e => negb (String.eqb (fst e) f)) kw.
Lemma in_without f kw g v : In (g, v) (without f kw) -> g <> f /\ In (g, v) kw.
Proof.
  unfold without. intros I. apply filter_In in I as (I & N). cbn [fst] in N. split; [|exact I].
  intros ->. rewrite String.eqb_refl in N. discriminate.
Qed.
Lemma not_without f kw g : g <> f -> ~ In g (map fst (without f kw)) -> ~ In g (map fst kw).
Proof.
  intros D N I. apply N. apply in_map_iff in I as ((g' & v) & <- & I). cbn [fst] in *. apply in_map_iff. exists (g', v).
  split; [reflexivity|]. unfold without. apply filter_In. split; [exact I|]. cbn [fst].
  destruct (String.eqb_spec g' f); [contradiction|reflexivity].
Qed.

Lemma fill h1 h a nm fs cs d slots kw f v : filling h1 h a nm fs cs d slots kw -> number_field fs cs (f, v) ->
  exists h2 slots', (forall k, set a f v h k = k h2) /\ filling h1 h2 a nm fs cs d slots' ((f, v) :: without f kw).
Proof.
  intros (Ea & Ed & L & K & O & B) (C & i & k & n & cm & Ef & Nv). cbn [fst snd] in C, Ef, Nv.
  assert (i < List.length slots) as Hi by (rewrite L; apply nth_error_Some; rewrite (find_field_in _ _ _ _ Ef); discriminate).
  destruct (set_number_field h a nm false fs cs None f i k n cm v slots d [] Ea Ed Hi ltac:(discriminate) Ef C Nv)
    as (h2 & w & A & G & S & Oth & Cells).
  destruct (number_set k n cm v Nv) as (b & w' & Ep & _).
  assert (h2 = put h d (CDict (list_set slots i (SPrim b)))) as EH.
  { cbn [step] in A. unfold setattr in A. rewrite Ea, (dget_none _ _ C), Ef in A. cbn [union_blocks andb] in A. rewrite Ed, Ep in A. congruence. }
  assert (a <> d) as AD by congruence.
  exists h2, (list_set slots i (SPrim b)). split; [intros k0; unfold set; rewrite A; reflexivity|].
  split; [rewrite EH, put_other by congruence; exact Ea|]. split; [rewrite EH; apply (put_same _ _ _ _ Ed)|].
  split; [rewrite list_set_length; exact L|]. split; [|split].
  - intros g v' I. destruct I as [X|I].
    + injection X as <- <-. exists i, k, n, cm, w. rewrite G. auto.
    + apply in_without in I as (D & I). destruct (K g v' I) as (i' & k' & n' & cm' & x & Ex & Gx & Sx).
      exists i', k', n', cm', x. split; [exact Ex|]. split; [|exact Sx]. rewrite (Oth eq_refl g D). exact Gx.
  - intros g N. cbn [map fst In] in N. assert (g <> f) as D by (intros ->; apply N; left; reflexivity).
    rewrite (Oth eq_refl g D). apply O. apply (not_without f); [exact D|]. intros I. apply N. right. exact I.
  - intros c Hc. rewrite EH, put_other by congruence. apply B. exact Hc.
Qed.

Lemma fill_all a nm fs cs d kw' : forall h1 h slots kw, filling h1 h a nm fs cs d slots kw -> Forall (number_field fs cs) kw' ->
  exists h2 slots', (forall k, fold_right (fun e k h => set a (fst e) (snd e) h k) k kw' h = k h2) /\
    filling h1 h2 a nm fs cs d slots' (fold_left (fun acc e => (fst e, snd e) :: without (fst e) acc) kw' kw).
Proof.
  induction kw' as [|[f v] kw' IH]; intros h1 h slots kw F N; [exists h, slots; split; [reflexivity|exact F]|].
  apply Forall_cons_iff in N as (N1 & N). destruct (fill _ _ _ _ _ _ _ _ _ f v F N1) as (h2 & s2 & E & F2).
  destruct (IH _ _ _ _ F2 N) as (h3 & s3 & E3 & F3). exists h3, s3. cbn [fold_right fold_left fst snd]. split; [|exact F3].
  intros k. rewrite E. apply E3.
Qed.

Lemma carried h h1 h' a nm fs cs d slots kw kw' : step h (ONew (AComp nm false fs cs) []) = (Ok (PRef a), h1) ->
  List.length h <= d -> (forall b, b < List.length h -> nth_error h1 b = nth_error h b) ->
  filling h1 h' a nm fs cs d slots kw -> (forall e, In e kw' <-> In e kw) -> carries h nm fs cs kw' [] h' a.
Proof.
  intros E LD KP (_ & _ & _ & K & O & B) EQ. exists h1. split; [exact E|]. split; [intros f v I; apply K, EQ, I|]. split.
  - intros f N _. apply O. intros I. apply N. apply in_map_iff in I as (e & <- & I). apply in_map, EQ, I.
  - intros b Hb. rewrite B by lia. exact (KP b Hb).
Qed.

Lemma new_is t kw h a h1 k : step h (ONew t kw) = (Ok (PRef a), h1) -> new t kw h k = k a h1.
Proof. intros E. unfold new. rewrite E. reflexivity. Qed.

(** ** Array fields *)

Lemma same_reads h h2 a nm fs cs d act extra g : nth_error h a = Some (CComp nm false fs cs d act extra) ->
  nth_error h2 a = nth_error h a -> nth_error h2 d = nth_error h d -> fst (step h2 (OGet a g)) = fst (step h (OGet a g)).
Proof.
  intros E A D. cbn [step]. unfold getattr. rewrite A, E. destruct (dget String.eqb cs g); [reflexivity|].
  destruct (find_field fs g) as [[i t]|]; [|reflexivity]. cbn [union_blocks andb]. rewrite D.
  destruct (nth_error h d) as [[|slots|]|]; try reflexivity. destruct (nth_error slots i) as [[| |]|]; reflexivity.
Qed.

(** The array of a field while the numbers of the object are filled in. *)
Lemma array_slot h h1 h2 a nm fs cs d slots kw f i et mx : step h (ONew (AComp nm false fs cs) []) = (Ok (PRef a), h1) ->
  filling h1 h2 a nm fs cs d slots kw -> ~ In f (map fst kw) -> ~ In f (map fst cs) -> find_field fs f = Some (i, AArr true et mx) ->
  exists b, nth_error slots i = Some (SObj (PRef b)) /\ array_at h2 b et mx /\ List.length h <= b /\ b <> a /\ b <> d.
Proof.
  intros E (Ea & Ed & L & K & O & B) N C Ef. pose proof (dget_none _ _ C) as C0.
  destruct (fresh_array h nm fs cs a h1 f i et mx E C0 Ef) as (b & FA & _ & (dyn & items & Eb)).
  destruct (new_default h (AComp nm false fs cs)) as (a' & h1' & E' & _ & KP & LA & RF). { do 4 eexists. reflexivity. }
  rewrite E in E'. injection E' as <- <-.
  assert (a <> d) as AD by congruence.
  pose proof Ea as Ea1. rewrite (B a AD) in Ea1.
  destruct FA as (full & u & fs' & cs' & d' & act & ex & i' & dyn' & et' & mx' & sl & X1 & X2 & X3 & X4 & X5).
  rewrite Ea1 in X1. injection X1 as <- <- <- <- <- <- <-. rewrite Ef in X3. injection X3 as <- <- <- <-.
  assert (b <> d) as BD by congruence. assert (b <> a) as BA by congruence.
  exists b. split; [|split; [|split; [|split; [exact BA|exact BD]]]].
  - specialize (O f N). cbn [step] in O. unfold getattr in O. rewrite Ea, Ea1, C0, Ef in O. cbn [union_blocks andb] in O.
    rewrite Ed, X4, X5 in O. destruct (nth_error slots i) as [[b0| |v]|]; cbn [fst] in O; congruence.
  - exists dyn, items. rewrite (B b BD). exact Eb.
  - assert (List.length h <= d) as LD.
    { pose proof (RF a _ LA Ea1) as (R & _). lia. }
    pose proof (RF d _ LD X4) as R. cbn [cell_refs] in R. pose proof (proj1 (Forall_forall _ _) R _ (nth_error_In _ _ X5)) as R1. cbn in R1. lia.
Qed.

Lemma plain_assign h a nm fs cs d act extra slots f i dyn et mx b v : nth_error h a = Some (CComp nm false fs cs d act extra) ->
  nth_error h d = Some (CDict slots) -> ~ In f (map fst cs) -> find_field fs f = Some (i, AArr dyn et mx) ->
  nth_error slots i = Some (SObj (PRef b)) -> step h (OSet a f v) = assign_array h b v.
Proof.
  intros E Ed C Ef Es. cbn [step]. unfold setattr. rewrite E, (dget_none _ _ C), Ef. cbn [union_blocks andb]. rewrite Ed, Es. reflexivity.
Qed.
Lemma plain_read h a nm fs cs d act extra slots f i t b : nth_error h a = Some (CComp nm false fs cs d act extra) ->
  nth_error h d = Some (CDict slots) -> ~ In f (map fst cs) -> find_field fs f = Some (i, t) ->
  nth_error slots i = Some (SObj (PRef b)) -> step h (OGet a f) = (Ok (PRef b), h).
Proof.
  intros E Ed C Ef Es. cbn [step]. unfold getattr. rewrite E, (dget_none _ _ C), Ef. cbn [union_blocks andb]. rewrite Ed, Es. reflexivity.
Qed.

Lemma assign_array_numbers h b k n cm mx vs : array_at h b (APrim k n cm) mx -> Forall (number_for k n) vs ->
  exists h' ws, assign_array h b (PList vs) = ((if List.length vs <=? mx then Ok PNone else Err AttributeError), h') /\
    Forall2 (number_stored k n cm) vs ws /\ array_at h' b (APrim k n cm) mx /\ reads_as h' b (firstn mx ws) /\
    (forall c, c <> b -> nth_error h' c = nth_error h c).
Proof.
  intros HA Hk. destruct (clear_effect h b _ mx HA) as (h2 & E2 & _ & HA2 & Hr2 & F2).
  destruct (append_numbers k n cm vs h2 b mx [] HA2 Hr2 Hk) as (h3 & ws & FS & HA3 & F3 & H3).
  cbn [List.length app] in H3. rewrite Nat.add_0_l in H3. exists h3, ws. pose proof (Forall2_len _ _ _ FS) as L.
  split; [|split; [exact FS|split; [exact HA3|split]]].
  - unfold assign_array. rewrite E2. cbn [iterate].
    destruct (List.length vs <=? mx); [destruct H3 as (-> & _)|destruct (H3 ltac:(lia)) as (-> & _)]; reflexivity.
  - destruct (List.length vs <=? mx) eqn:El; [rewrite firstn_all2 by lia; exact (proj2 H3)|exact (proj2 (H3 ltac:(lia)))].
  - intros c Hc. rewrite F3, F2 by exact Hc. reflexivity.
Qed.

Lemma each_cell_effect a nm fs cs d slots i et_dyn k n cm mx b q N : ~ In "voltage_cell"%string (map fst cs) ->
  find_field fs "voltage_cell" = Some (i, AArr et_dyn (APrim k n cm) mx) -> nth_error slots i = Some (SObj (PRef b)) ->
  b <> a -> b <> d -> number_for k n (PFloat q) -> N <= mx ->
  forall m j h ws, nth_error h a = Some (CComp nm false fs cs d None []) -> nth_error h d = Some (CDict slots) ->
    array_at h b (APrim k n cm) mx -> reads_as h b ws -> List.length ws = N -> j + m = N ->
    Forall (number_stored k n cm (PFloat q)) (firstn j ws) ->
  exists h' ws', (forall kk, each_cell a q m (Z.of_nat j) h kk = kk h') /\ reads_as h' b ws' /\ List.length ws' = N /\
    Forall (number_stored k n cm (PFloat q)) ws' /\ (forall c, c <> b -> nth_error h' c = nth_error h c).
Proof.
  intros C Ef Es BA BD Nq LN. induction m as [|m IH]; intros j h ws Ea Ed HA HR L J F.
  - exists h, ws. split; [reflexivity|]. split; [exact HR|]. split; [exact L|]. split; [|reflexivity].
    rewrite firstn_all2 in F by lia. exact F.
  - cbn [each_cell].
    destruct (replace_number h b k n cm mx ws (Z.of_nat j) (PFloat q) HA HR ltac:(lia) ltac:(unfold in_bounds; lia) Nq)
      as (h2 & w & ST & HA2 & SW & HR2 & FR).
    assert (py_replace (Z.of_nat j) w ws = firstn j ws ++ w :: skipn (S j) ws) as PR.
    { unfold py_replace. cbv zeta. rewrite Z.mod_small by lia. rewrite Nat2Z.id. reflexivity. }
    rewrite PR in HR2.
    destruct (IH (S j) h2 (firstn j ws ++ w :: skipn (S j) ws)) as (h' & ws' & X & R & L' & F' & FR'); try assumption.
    + rewrite FR by congruence. exact Ea.
    + rewrite FR by congruence. exact Ed.
    + rewrite app_length, firstn_length. cbn [List.length]. rewrite skipn_length. lia.
    + lia.
    + rewrite firstn_app, firstn_length. replace (Nat.min j (List.length ws)) with j by lia. replace (S j - j) with 1 by lia.
      rewrite (firstn_all2 (firstn j ws)) by (rewrite firstn_length; lia). apply Forall_app. split; [exact F|]. constructor; [exact SW|constructor].
    + exists h', ws'. split; [|split; [exact R|split; [exact L'|split; [exact F'|]]]].
      * intros kk. unfold set_item, get. rewrite (plain_read h a nm fs cs d None [] slots "voltage_cell" i _ b Ea Ed C Ef Es).
        rewrite ST. rewrite <- X. f_equal. lia.
      * intros c Hc. rewrite FR' by exact Hc. apply FR. exact Hc.
Qed.

Lemma get_constant h a nm fs cs d act extra f c k : nth_error h a = Some (CComp nm false fs cs d act extra) ->
  dget String.eqb cs f = Some c -> get a f h k = k (PInt c) h.
Proof. intros E D. unfold get. cbn [step]. unfold getattr. rewrite E, D. reflexivity. Qed.

Section Publish.
  Variable class : string -> atype.

  Lemma servo h position nm fs cs : class "uavcan.equipment.actuator.Status"%string = AComp nm false fs cs ->
    Forall (number_field fs cs) (servo_numbers position 3) -> number_field fs cs ("actuator_id"%string, PInt 5) ->
    exists h1 h2 a, publish_ActuatorStatus class h position = Sends h1 a (Sends h2 a Done) /\
      carries h nm fs cs (servo_numbers position 3) [] h1 a /\ carries h nm fs cs (servo_numbers position 5) [] h2 a.
  Proof.
    intros C N N5. unfold publish_ActuatorStatus. rewrite C. destruct (fresh h nm fs cs) as (a & h0 & d & sl & E & F & LD & KP).
    rewrite (new_is _ _ _ _ _ _ E).
    assert (Forall (number_field fs cs) [("position", PFloat position); ("force", PInt 1); ("speed", PInt 2); ("power_rating_pct", PInt 17); ("actuator_id", PInt 3)]%string) as N'.
    { apply Forall_forall. intros e I. apply (proj1 (Forall_forall _ _) N). unfold servo_numbers. cbn in *. tauto. }
    destruct (fill_all a nm fs cs d _ h0 h0 sl [] F N') as (h1 & s1 & X & F1). cbn [fold_right fst snd] in X. rewrite X.
    destruct (fill _ _ _ _ _ _ _ _ _ _ _ F1 N5) as (h2 & s2 & X2 & F2). rewrite X2.
    exists h1, h2, a. split; [reflexivity|]. split.
    - apply (carried h h0 h1 a nm fs cs d s1 _ _ E LD KP F1). intros e. cbn. tauto.
    - apply (carried h h0 h2 a nm fs cs d s2 _ _ E LD KP F2). intros e. cbn. tauto.
  Qed.
  Lemma range_sent h fov range nm fs cs : class "uavcan.equipment.range_sensor.Measurement"%string = AComp nm false fs cs ->
    Forall (number_field fs cs) (range_numbers fov range) ->
    exists h' a, publish_range_measurement class h fov range = Sends h' a Done /\ carries h nm fs cs (range_numbers fov range) [] h' a.
  Proof.
    intros C N. unfold publish_range_measurement. rewrite C. destruct (fresh h nm fs cs) as (a & h0 & d & sl & E & F & LD & KP).
    rewrite (new_is _ _ _ _ _ _ E).
    destruct (fill_all a nm fs cs d _ h0 h0 sl [] F N) as (h1 & s1 & X & F1). cbn [range_numbers fold_right fst snd] in X. rewrite X.
    exists h1, a. split; [reflexivity|]. apply (carried h h0 h1 a nm fs cs d s1 _ _ E LD KP F1). intros e. cbn. tauto.
  Qed.
  Lemma battery h id voltage nm fs cs : class "uavcan.equipment.power.BatteryInfo"%string = AComp nm false fs cs ->
    Forall (number_field fs cs) (battery_numbers id voltage) ->
    exists h' a, publish_BatteryInfo class h id voltage = Sends h' a Done /\ carries h nm fs cs (battery_numbers id voltage) [] h' a.
  Proof.
    intros C N. unfold publish_BatteryInfo. rewrite C. destruct (fresh h nm fs cs) as (a & h0 & d & sl & E & F & LD & KP).
    rewrite (new_is _ _ _ _ _ _ E).
    destruct (fill_all a nm fs cs d _ h0 h0 sl [] F N) as (h1 & s1 & X & F1). cbn [battery_numbers fold_right fst snd] in X. rewrite X.
    exists h1, a. split; [reflexivity|]. apply (carried h h0 h1 a nm fs cs d s1 _ _ E LD KP F1). intros e. cbn. tauto.
  Qed.

  Lemma cells h id num q nm fs cs i k n cm mx : class "ardupilot.equipment.power.BatteryInfoAux"%string = AComp nm false fs cs ->
    number_field fs cs ("battery_id"%string, PInt id) -> ~ In "voltage_cell"%string (map fst cs) ->
    find_field fs "voltage_cell" = Some (i, AArr true (APrim k n cm) mx) -> number_for k n (PFloat q) ->
    number_for k n (PFloat (FFin false 0 0)) ->
    if Z.to_nat num <=? mx
    then exists h' a b ws, publish_BatteryInfoAux class h id num q = Sends h' a Done /\
      carries h nm fs cs [("battery_id"%string, PInt id)] ["voltage_cell"%string] h' a /\
      fst (step h' (OGet a "voltage_cell")) = Ok (PRef b) /\ reads_as h' b ws /\ List.length ws = Z.to_nat num /\
      Forall (number_stored k n cm (PFloat q)) ws
    else publish_BatteryInfoAux class h id num q = Fails AttributeError.
  Proof.
    intros CL NI C Ef Nq N0. unfold publish_BatteryInfoAux. rewrite CL. destruct (fresh h nm fs cs) as (a & h0 & d & sl & E & F & LD & KP).
    rewrite (new_is _ _ _ _ _ _ E).
    destruct (fill _ _ _ _ _ _ _ _ _ _ _ F NI) as (h1 & s1 & X & F1). rewrite X.
    destruct (array_slot h h0 h1 a nm fs cs d s1 _ "voltage_cell" i _ mx E F1 ltac:(cbn; intuition discriminate) C Ef) as (b & Es & HA & LB & BA & BD).
    pose proof F1 as (Ea & Ed & _ & K & O & B).
    destruct (assign_array_numbers h1 b k n cm mx (repeat (PFloat (FFin false 0 0)) (Z.to_nat num)) HA) as (h2 & ws & A & FS & HA2 & HR & FR).
    { apply Forall_forall. intros x I. apply repeat_spec in I. subst x. exact N0. }
    rewrite repeat_length in A. pose proof (Forall2_len _ _ _ FS) as L. rewrite repeat_length in L.
    unfold set. rewrite (plain_assign h1 a nm fs cs d None [] s1 "voltage_cell" i true _ mx b _ Ea Ed C Ef Es), A.
    destruct (Z.to_nat num <=? mx) eqn:LE; [|reflexivity]. rewrite firstn_all2 in HR by lia.
    destruct (each_cell_effect a nm fs cs d s1 i true k n cm mx b q (Z.to_nat num) C Ef Es BA BD Nq ltac:(lia) (Z.to_nat num) 0 h2 ws)
      as (h3 & ws3 & Y & R3 & L3 & F3 & FR3); try assumption.
    { rewrite FR by congruence. exact Ea. }
    { rewrite FR by congruence. exact Ed. }
    { lia. }
    { reflexivity. }
    { constructor. }
    assert (forall c, c <> b -> nth_error h3 c = nth_error h1 c) as FF by (intros c Hc; rewrite FR3, FR by exact Hc; reflexivity).
    assert (forall g, fst (step h3 (OGet a g)) = fst (step h1 (OGet a g))) as SR.
    { intros g. apply (same_reads h1 h3 a nm fs cs d None [] g Ea); apply FF; congruence. }
    change 0%Z with (Z.of_nat 0). rewrite Y. exists h3, a, b, ws3. split; [reflexivity|]. split; [|split; [|auto]].
    - exists h0. split; [exact E|]. split; [|split].
      + intros f v I. destruct (K f v I) as (i' & k' & n' & cm' & w & P1 & P2 & P3). exists i', k', n', cm', w. rewrite SR. auto.
      + intros f N _. rewrite SR. apply O. exact N.
      + intros c Hc. rewrite FF by lia. rewrite B by lia. exact (KP c Hc).
    - rewrite SR, (plain_read h1 a nm fs cs d None [] s1 "voltage_cell" i _ b Ea Ed C Ef Es). reflexivity.
  Qed.

  Lemma four h z nm fs cs i k n cm mx : class "uavcan.equipment.esc.RawCommand"%string = AComp nm false fs cs ->
    ~ In "cmd"%string (map fst cs) -> find_field fs "cmd" = Some (i, AArr true (APrim k n cm) mx) -> number_for k n (PInt z) -> 4 <= mx ->
    exists h' a b ws, throttle class h z = Sends h' a Done /\ carries h nm fs cs [] ["cmd"%string] h' a /\
      fst (step h' (OGet a "cmd")) = Ok (PRef b) /\ reads_as h' b ws /\ List.length ws = 4 /\ Forall (number_stored k n cm (PInt z)) ws.
  Proof.
    intros CL C Ef Nz LE. unfold throttle. rewrite CL. destruct (fresh h nm fs cs) as (a & h0 & d & sl & E & F & LD & KP).
    destruct (array_slot h h0 h0 a nm fs cs d sl _ "cmd" i _ mx E F ltac:(intros []) C Ef) as (b & Es & HA & LB & BA & BD).
    pose proof F as (Ea & Ed & _).
    destruct (assign_array_numbers h0 b k n cm mx (repeat (PInt z) 4) HA) as (h2 & ws & A & FS & HA2 & HR & FR).
    { apply Forall_forall. intros x I. apply repeat_spec in I. subst x. exact Nz. }
    rewrite repeat_length in A. pose proof (Forall2_len _ _ _ FS) as L. rewrite repeat_length in L.
    replace (4 <=? mx) with true in A by lia. rewrite firstn_all2 in HR by lia.
    pose proof (plain_assign h0 a nm fs cs d None [] sl "cmd" i true _ mx b (PList (repeat (PInt z) 4)) Ea Ed C Ef Es) as PA. rewrite A in PA.
    destruct (constructed h (AComp nm false fs cs) [("cmd"%string, PList (repeat (PInt z) 4))]) as (a' & h0' & E' & OK & _).
    { do 4 eexists. reflexivity. }
    rewrite E in E'. injection E' as <- <-.
    assert (step h (ONew (AComp nm false fs cs) [("cmd"%string, PList (repeat (PInt z) 4))]) = (Ok (PRef a), h2)) as EN.
    { apply OK. econstructor; [intros (r & X); discriminate X|exact PA|constructor]. }
    unfold new. rewrite EN.
    assert (forall g, fst (step h2 (OGet a g)) = fst (step h0 (OGet a g))) as SR.
    { intros g. apply (same_reads h0 h2 a nm fs cs d None [] g Ea); apply FR; congruence. }
    exists h2, a, b, ws. split; [reflexivity|]. split; [|split; [|split; [exact HR|split; [lia|]]]].
    - exists h0. split; [exact E|]. split; [intros f v []|]. split.
      + intros f _ _. apply SR.
      + intros c Hc. rewrite FR by lia. exact (KP c Hc).
    - rewrite SR, (plain_read h0 a nm fs cs d None [] sl "cmd" i _ b Ea Ed C Ef Es). reflexivity.
    - clear - FS. remember 4 as m. clear Heqm. revert ws FS. induction m as [|m IH]; intros ws FS; inversion FS; subst; constructor; auto.
  Qed.

  Lemma safety h z nm fs cs c : class "ardupilot.indication.SafetyState"%string = AComp nm false fs cs ->
    dget String.eqb cs "STATUS_SAFETY_OFF"%string = Some c -> number_field fs cs ("status"%string, PInt c) ->
    exists h' a, publish_throttle_setpoint class h true z = Sends h' a (throttle class h' z) /\
      carries h nm fs cs [("status"%string, PInt c)] [] h' a.
  Proof.
    intros CL D NS. unfold publish_throttle_setpoint. rewrite CL. destruct (fresh h nm fs cs) as (a & h0 & d & sl & E & F & LD & KP).
    rewrite (new_is _ _ _ _ _ _ E). pose proof F as (Ea & _).
    rewrite (get_constant _ _ _ _ _ _ _ _ _ _ _ Ea D).
    destruct (fill _ _ _ _ _ _ _ _ _ _ _ F NS) as (h1 & s1 & X & F1). rewrite X. exists h1, a. split; [reflexivity|].
    apply (carried h h0 h1 a nm fs cs d s1 _ _ E LD KP F1). intros e. cbn. tauto.
  Qed.

  Lemma command h id v c nm fs cs nm2 fs2 cs2 i mx : class "uavcan.equipment.actuator.ArrayCommand"%string = AComp nm false fs cs ->
    class "uavcan.equipment.actuator.Command"%string = AComp nm2 false fs2 cs2 ->
    ~ In "commands"%string (map fst cs) -> find_field fs "commands" = Some (i, AArr true (AComp nm2 false fs2 cs2) mx) -> 1 <= mx ->
    dget String.eqb cs2 "COMMAND_TYPE_UNITLESS"%string = Some c -> Forall (number_field fs2 cs2) (command_numbers id (PInt c) v) ->
    exists h' a b cmd, control_actuator class h id v = Sends h' a Done /\ carries h nm fs cs [] ["commands"%string] h' a /\
      fst (step h' (OGet a "commands")) = Ok (PRef b) /\ reads_as h' b [PRef cmd] /\
      (forall f w, In (f, w) (command_numbers id (PInt c) v) -> reads_number fs2 h' cmd f w).
  Proof.
    intros CL CL2 C Ef LE D NF. unfold control_actuator. rewrite CL, CL2.
    destruct (fresh h nm fs cs) as (a & h0 & d & sl & E & F & LD & KP). rewrite (new_is _ _ _ _ _ _ E).
    destruct (array_slot h h0 h0 a nm fs cs d sl _ "commands" i _ mx E F ltac:(intros []) C Ef) as (b & Es & HA & LB & BA & BD).
    destruct (fresh h0 nm2 fs2 cs2) as (cmd & h1 & d2 & sl2 & E2 & F2 & LD2 & KP2). rewrite (new_is _ _ _ _ _ _ E2).
    unfold command_numbers in NF. apply Forall_cons_iff in NF as (N1 & NF). apply Forall_cons_iff in NF as (N2 & NF). apply Forall_cons_iff in NF as (N3 & _).
    destruct (fill _ _ _ _ _ _ _ _ _ _ _ F2 N1) as (h2 & s2 & X2 & G2). rewrite X2.
    rewrite (get_constant _ _ _ _ _ _ _ _ _ _ _ (proj1 G2) D).
    destruct (fill _ _ _ _ _ _ _ _ _ _ _ G2 N2) as (h3 & s3 & X3 & G3). rewrite X3.
    destruct (fill _ _ _ _ _ _ _ _ _ _ _ G3 N3) as (h4 & s4 & X4 & G4). rewrite X4.
    pose proof F as (Ea & Ed & _). destruct HA as (dyn & items & Eb).
    assert (forall x y, nth_error h0 x = Some y -> nth_error h4 x = Some y) as OLD.
    { intros x y H. assert (x < List.length h0) as LX by (apply nth_error_Some; congruence).
      destruct G4 as (_ & _ & _ & _ & _ & B4). rewrite (B4 x) by lia. rewrite (KP2 x LX). exact H. }
    pose proof (OLD _ _ Ea) as Ea4. pose proof (OLD _ _ Ed) as Ed4. pose proof (OLD _ _ Eb) as Eb4.
    destruct (assign_array_effect h4 b (AComp nm2 false fs2 cs2) mx (PList [PRef cmd]) [PRef cmd]) as (h5 & A & HA5 & HR & FR).
    { exists dyn, items. exact Eb4. }
    { left; reflexivity. }
    { discriminate. }
    { repeat constructor. }
    cbn [List.length] in A. replace (1 <=? mx) with true in A by lia. rewrite firstn_all2 in HR by (cbn [List.length]; lia).
    unfold set. rewrite (plain_assign h4 a nm fs cs d None [] sl "commands" i true _ mx b _ Ea4 Ed4 C Ef Es), A.
    assert (forall g, fst (step h5 (OGet a g)) = fst (step h0 (OGet a g))) as SR.
    { intros g. rewrite (same_reads h4 h5 a nm fs cs d None [] g Ea4) by (apply FR; congruence).
      apply (same_reads h0 h4 a nm fs cs d None [] g Ea); congruence. }
    exists h5, a, b, cmd. split; [reflexivity|]. split; [|split; [|split; [exact HR|]]].
    - exists h0. split; [exact E|]. split; [intros f w []|]. split; [intros f _ _; apply SR|].
      intros x Hx. rewrite FR by lia. destruct (nth_error h0 x) eqn:E0.
      + rewrite (OLD _ _ E0), <- E0. exact (KP x Hx).
      + rewrite (KP x Hx) in E0. apply nth_error_None in E0. lia.
    - rewrite SR, (plain_read h0 a nm fs cs d None [] sl "commands" i _ b Ea Ed C Ef Es). reflexivity.
    - destruct G4 as (Ec & Ed2 & _ & K4 & _).
      assert (forall g, fst (step h5 (OGet cmd g)) = fst (step h4 (OGet cmd g))) as SC.
      { intros g. apply (same_reads h4 h5 cmd nm2 fs2 cs2 d2 None [] g Ec); apply FR; congruence. }
      intros f w I. assert (In (f, w) [("command_value"%string, PFloat v); ("command_type"%string, PInt c); ("actuator_id"%string, id)]) as I4.
      { clear - I. cbn in *. intuition. }
      destruct (K4 f w I4) as (i' & k' & n' & cm' & u & P1 & P2 & P3). exists i', k', n', cm', u. rewrite SC. auto.
  Qed.

  Lemma float_id h x v nm fs cs nm2 fs2 cs2 i k n cm : class "uavcan.equipment.actuator.ArrayCommand"%string = AComp nm false fs cs ->
    class "uavcan.equipment.actuator.Command"%string = AComp nm2 false fs2 cs2 ->
    find_field fs2 "actuator_id" = Some (i, APrim k n cm) -> ~ In "actuator_id"%string (map fst cs2) ->
    (k = KUint \/ k = KInt) -> int_type k n -> (k = KInt -> n <= 53) -> is_double x -> ~ greater x (range_high k n) -> ~ less x (range_low k n) ->
    control_actuator class h (PFloat x) v = Fails (match cm with Saturated => ValueError | Truncated => TypeError end).
  Proof.
    intros CL CL2 Ef C K T L D NG NL. unfold control_actuator. rewrite CL, CL2.
    destruct (fresh h nm fs cs) as (a & h0 & d & sl & E & F & LD & KP). rewrite (new_is _ _ _ _ _ _ E).
    destruct (fresh h0 nm2 fs2 cs2) as (cmd & h1 & d2 & sl2 & E2 & F2 & LD2 & KP2). rewrite (new_is _ _ _ _ _ _ E2).
    unfold set. destruct F2 as (Ea & Ed & LS & _).
    rewrite (float_refused h1 cmd nm2 fs2 cs2 None "actuator_id" i k n cm x); auto.
    - exists d2, []. exact Ea.
    - unfold field_slot. rewrite Ea, Ef, Ed.
      destruct (nth_error sl2 i) as [s0|] eqn:E0; [exists s0; exact E0 || reflexivity|].
      apply nth_error_None in E0. rewrite LS in E0. exfalso. pose proof (find_field_in _ _ _ _ Ef) as X. apply nth_error_None in E0. congruence.
  Qed.

  (** [submode] is not a field (the field is [sub_mode]): it becomes an
      ordinary attribute. *)
  Lemma status h t c1 c2 nm fs cs : class "uavcan.protocol.NodeStatus"%string = AComp nm false fs cs ->
    dget String.eqb cs "HEALTH_OK"%string = Some c1 -> dget String.eqb cs "MODE_OPERATIONAL"%string = Some c2 ->
    Forall (number_field fs cs) (status_numbers t c1 c2) -> find_field fs "submode" = None -> ~ In "submode"%string (map fst cs) ->
    exists h' a, publish_NodeInfo class h t = Sends h' a Done /\ carries h nm fs cs (status_numbers t c1 c2) ["submode"%string] h' a.
  Proof.
    intros CL D1 D2 NF NS NC. unfold publish_NodeInfo. rewrite CL. destruct (fresh h nm fs cs) as (a & h0 & d & sl & E & F & LD & KP).
    rewrite (new_is _ _ _ _ _ _ E). unfold status_numbers in NF. apply Forall_cons_iff in NF as (N1 & NF). apply Forall_cons_iff in NF as (N2 & NF).
    apply Forall_cons_iff in NF as (N3 & NF). apply Forall_cons_iff in NF as (N4 & _).
    destruct (fill _ _ _ _ _ _ _ _ _ _ _ F N1) as (h1 & s1 & X1 & F1). rewrite X1. rewrite (get_constant _ _ _ _ _ _ _ _ _ _ _ (proj1 F1) D1).
    destruct (fill _ _ _ _ _ _ _ _ _ _ _ F1 N2) as (h2 & s2 & X2 & F2). rewrite X2. rewrite (get_constant _ _ _ _ _ _ _ _ _ _ _ (proj1 F2) D2).
    destruct (fill _ _ _ _ _ _ _ _ _ _ _ F2 N3) as (h3 & s3 & X3 & F3). rewrite X3.
    destruct F3 as (Ea & Ed & L & K & O & B). assert (a <> d) as AD by congruence.
    set (h4 := put h3 a (CComp nm false fs cs d None [("submode"%string, PInt 0)])).
    assert (step h3 (OSet a "submode" (PInt 0)) = (Ok PNone, h4)) as S4.
    { cbn [step]. unfold setattr. rewrite Ea, (dget_none _ _ NC), NS. reflexivity. }
    assert (nth_error h4 a = Some (CComp nm false fs cs d None [("submode"%string, PInt 0)])) as Ea4 by apply (put_same _ _ _ _ Ea).
    assert (nth_error h4 d = Some (CDict s3)) as Ed4 by (unfold h4; rewrite put_other by congruence; exact Ed).
    assert (forall g, g <> "submode"%string -> fst (step h4 (OGet a g)) = fst (step h3 (OGet a g))) as G4.
    { intros g Hg. cbn [step]. unfold getattr. rewrite Ea4, Ea. destruct (dget String.eqb cs g); [reflexivity|].
      destruct (find_field fs g) as [[i t']|]; cbn [union_blocks andb].
      - rewrite Ed4, Ed. destruct (nth_error s3 i) as [[| |]|]; reflexivity.
      - cbn [dget]. destruct (String.eqb_spec g "submode"); [congruence|reflexivity]. }
    destruct N4 as (C & i & k & n & cm & Ef & Nv). cbn [fst snd] in C, Ef, Nv.
    assert (i < List.length s3) as Hi by (rewrite L; apply nth_error_Some; rewrite (find_field_in _ _ _ _ Ef); discriminate).
    destruct (set_number_field h4 a nm false fs cs None "vendor_specific_status_code" i k n cm (PInt 0) s3 d _ Ea4 Ed4 Hi ltac:(discriminate) Ef C Nv)
      as (h5 & w & A & G & ST & Oth & Cells).
    destruct (number_set k n cm (PInt 0) Nv) as (b & w' & Ep & _).
    assert (h5 = put h4 d (CDict (list_set s3 i (SPrim b)))) as EH.
    { cbn [step] in A. unfold setattr in A. rewrite Ea4, (dget_none _ _ C), Ef in A. cbn [union_blocks andb] in A. rewrite Ed4, Ep in A. congruence. }
    unfold set. rewrite S4, A. exists h5, a. split; [reflexivity|]. exists h0. split; [exact E|]. split; [|split].
    - intros f v I. destruct (String.eqb_spec f "vendor_specific_status_code") as [->|NE].
      + assert (v = PInt 0) as -> by (clear - I; cbn in I; intuition congruence).
        exists i, k, n, cm, w. split; [exact Ef|]. split; [rewrite G; reflexivity|exact ST].
      + assert (In (f, v) [("mode"%string, PInt c2); ("health"%string, PInt c1); ("uptime_sec"%string, PInt t)]) as I3.
        { clear - I NE. cbn in *. intuition congruence. }
        destruct (K f v I3) as (i' & k' & n' & cm' & w2 & P1 & P2 & P3). exists i', k', n', cm', w2. split; [exact P1|]. split; [|exact P3].
        rewrite (Oth eq_refl f NE), G4; [exact P2|]. intros ->. congruence.
    - intros f NI NB. rewrite (Oth eq_refl f), G4; [apply O| |].
      + cbn in *. tauto.
      + cbn in NB. intuition congruence.
      + intros ->. apply NI. cbn. tauto.
    - intros x Hx. pose proof (KP x Hx) as KX. rewrite EH, put_other by lia. unfold h4. 
      assert (List.length h <= a) as LA.
      { destruct (new_default h (AComp nm false fs cs)) as (a' & h' & E' & _ & _ & LA & _). { do 4 eexists. reflexivity. } rewrite E in E'. injection E' as <- _. exact LA. }
      rewrite put_other by lia. rewrite B by lia. exact KX.
  Qed.
End Publish.

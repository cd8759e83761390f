(** Decoding into objects gives what decoding gives (Model/Codec.unpack). *)
From Coq Require Import String.
From Verif.Base Require Import Prelude Bits.
From Verif.Model Require Import BitCodec Types Codec ObjectApi ObjectUnpack.
From Verif.Spec Require Import CodecSpec ObjectSpec ReceiveSpec.
From Verif.Proofs Require Import ObjectFacts ObjectTop ObjectUnions.
Open Scope list_scope.
Local Open Scope nat_scope.

Definition between (lo hi a : nat) : Prop := lo <= a < hi.
Definition agree (P : addr -> Prop) (h h' : heap) : Prop := forall a, P a -> nth_error h' a = nth_error h a.
(** Where the parts of an object live: where it was built, and what was added
    since. *)
Definition own (lo hi n m : nat) (a : addr) : Prop := between lo hi a \/ between n m a.
Definition closed (P : addr -> Prop) (h : heap) : Prop := forall a c, nth_error h a = Some c -> P a -> cell_refs P c.
Definition within (lo hi : nat) (H H2 : heap) : Prop :=
  List.length H <= List.length H2 /\
  (forall a, a < List.length H -> ~ between lo hi a -> nth_error H2 a = nth_error H a) /\
  closed (own lo hi (List.length H) (List.length H2)) H2.

Lemma reify_closed P h h' t s v : agree P h h' -> closed P h -> slot_refs P s -> reify h t s = Some v -> reify h' t s = Some v.
Proof. intros A C S R. rewrite <- R. exact (reify_frame P h h' A C t s S). Qed.
Lemma own_lt lo hi n m a : hi <= n -> own lo hi n m a -> n <= m -> a < m.
Proof. unfold own, between. lia. Qed.

Lemma within_seq lo mid hi H Ha H2 : lo <= mid -> mid <= hi -> hi <= List.length H ->
  within lo mid H Ha -> within mid hi Ha H2 ->
  within lo hi H H2 /\ agree (own lo mid (List.length H) (List.length Ha)) Ha H2 /\
  (forall a, own lo mid (List.length H) (List.length Ha) a -> own lo hi (List.length H) (List.length H2) a) /\
  (forall a, own mid hi (List.length Ha) (List.length H2) a -> own lo hi (List.length H) (List.length H2) a).
Proof.
  intros L1 L2 L3 (A1 & A2 & A3) (B1 & B2 & B3).
  assert (agree (own lo mid (List.length H) (List.length Ha)) Ha H2) as AG.
  { intros a O. apply B2; unfold own, between in *; lia. }
  assert (forall a, own lo mid (List.length H) (List.length Ha) a -> own lo hi (List.length H) (List.length H2) a) as I1.
  { unfold own, between. intros a. lia. }
  assert (forall a, own mid hi (List.length Ha) (List.length H2) a -> own lo hi (List.length H) (List.length H2) a) as I2.
  { unfold own, between. intros a. lia. }
  split; [|auto]. split; [lia|]. split.
  - intros a La N. rewrite B2, A2; unfold between in *; try lia; reflexivity.
  - intros a c E O.
    assert (own lo mid (List.length H) (List.length Ha) a \/ own mid hi (List.length Ha) (List.length H2) a) as [O1|O2].
    { unfold own, between in *. lia. }
    + rewrite (AG a O1) in E. eapply cell_refs_mono; [exact I1|]. exact (A3 _ _ E O1).
    + eapply cell_refs_mono; [exact I2|]. exact (B3 _ _ E O2).
Qed.

Lemma within_new k H h0 h1 : k <= List.length H -> extends H h0 -> within (List.length H) (List.length h0) h0 h1 ->
  within k k H h1 /\ (forall a, own (List.length H) (List.length h0) (List.length h0) (List.length h1) a ->
    own k k (List.length H) (List.length h1) a).
Proof.
  intros K (tl & E0) (A1 & A2 & A3).
  assert (List.length H <= List.length h0) as L by (rewrite E0, app_length; lia).
  assert (forall a, own (List.length H) (List.length h0) (List.length h0) (List.length h1) a ->
    own k k (List.length H) (List.length h1) a) as I1 by (unfold own, between; lia).
  split; [|exact I1]. split; [lia|]. split.
  - intros a La _. rewrite A2 by (unfold between; lia). rewrite E0. apply nth_error_app1. exact La.
  - intros a c E O. eapply cell_refs_mono; [exact I1|]. apply (A3 _ _ E). unfold own, between in *. lia.
Qed.

Lemma within_refl k H : within k k H H.
Proof. split; [lia|]. split; [reflexivity|]. intros a c _ [O|O]; unfold between in O; lia. Qed.

(** Cells at the end of the region are written. *)
Lemma within_put lo m hi H H1 H2 : lo <= m -> m <= hi -> hi <= List.length H -> within lo m H H1 ->
  List.length H2 = List.length H1 -> (forall a, ~ between m hi a -> nth_error H2 a = nth_error H1 a) ->
  (forall a c, nth_error H2 a = Some c -> between m hi a -> cell_refs (own lo hi (List.length H) (List.length H2)) c) ->
  within lo hi H H2 /\ agree (own lo m (List.length H) (List.length H1)) H1 H2 /\
  (forall a, own lo m (List.length H) (List.length H1) a -> own lo hi (List.length H) (List.length H2) a).
Proof.
  intros L1 L2 L3 (A1 & A2 & A3) E F C.
  assert (forall a, own lo m (List.length H) (List.length H1) a -> own lo hi (List.length H) (List.length H2) a) as I1.
  { rewrite E. unfold own, between. intros a. lia. }
  assert (agree (own lo m (List.length H) (List.length H1)) H1 H2) as AG.
  { intros a O. apply F. unfold own, between in *. lia. }
  split; [|auto]. split; [lia|]. split.
  - intros a La N. rewrite F by (unfold between in *; lia). apply A2; [exact La|unfold between in *; lia].
  - intros a c Ea O. destruct (Nat.lt_ge_cases a m) as [Lm|Lm]; [|destruct (Nat.lt_ge_cases a hi) as [Lh|Lh]].
    + assert (own lo m (List.length H) (List.length H1) a) as O1 by (unfold own, between in *; lia).
      rewrite (AG a O1) in Ea. eapply cell_refs_mono; [exact I1|]. exact (A3 _ _ Ea O1).
    + apply (C _ _ Ea). unfold between. lia.
    + assert (own lo m (List.length H) (List.length H1) a) as O1 by (unfold own, between in *; lia).
      rewrite (AG a O1) in Ea. eapply cell_refs_mono; [exact I1|]. exact (A3 _ _ Ea O1).
Qed.

(** ** New objects *)

Lemma usable_between n0 n r : usable (fun _ => False) n0 n r -> between n0 n r.
Proof. intros [[]|X]; exact X. Qed.
Lemma evolved_closed h h1 : evolves (fun _ => False) (List.length h) (fun _ => False) h h1 ->
  closed (between (List.length h) (List.length h1)) h1.
Proof.
  intros C.
  assert (good (fun _ => False) (List.length h) h) as G.
  { split; [lia|]. intros b c Hc Hu. apply usable_between in Hu. unfold between in Hu.
    assert (b < List.length h) by (apply nth_error_Some; congruence). lia. }
  destruct (evolves_good _ _ _ _ _ C G) as (_ & G2).
  intros b c Hb Hc. eapply cell_refs_mono; [apply usable_between|]. apply (G2 b c Hb). right. exact Hc.
Qed.
Lemma alloc_facts t h x h1 : alloc t h = (x, h1) -> extends h h1 /\ closed (between (List.length h) (List.length h1)) h1 /\
  slot_refs (between (List.length h) (List.length h1)) x /\ reify h1 t x = Some (default (erase t)).
Proof.
  intros E. destruct (alloc_is_default t h) as (A & B).
  destruct (alloc_is_sound (fun _ => False) (List.length h) (fun _ => False) t h (le_n _)) as (C & D).
  rewrite E in *. cbn [fst snd] in *. split; [exact A|]. split; [exact (evolved_closed _ _ C)|].
  split; [|apply B, extends_refl]. eapply slot_refs_mono; [|exact D]. apply usable_between.
Qed.
Lemma extends_len h h1 : extends h h1 -> List.length h <= List.length h1.
Proof. intros (tl & ->). rewrite app_length. lia. Qed.

(** [x] is a new object in [H], between [lo] and [hi]. *)
Definition fresh (t : atype) (H : heap) (x : slot) (lo hi : nat) : Prop :=
  exists h h1, alloc t h = (x, h1) /\ lo = List.length h /\ hi = List.length h1 /\ agree (between lo hi) h1 H /\ hi <= List.length H.

Lemma fresh_reify t H x lo hi : fresh t H x lo hi -> reify H t x = Some (default (erase t)) /\ lo <= hi <= List.length H /\
  closed (between lo hi) H /\ slot_refs (between lo hi) x.
Proof.
  intros (h & h1 & E & -> & -> & A & L). destruct (alloc_facts _ _ _ _ E) as (X & C & S & R).
  split; [exact (reify_closed _ _ _ _ _ _ A C S R)|]. split; [split; [exact (extends_len _ _ X)|exact L]|].
  split; [|exact S]. intros a c Ea O. rewrite (A a O) in Ea. exact (C _ _ Ea O).
Qed.

Definition loaded (t : atype) (H : heap) (lo hi : nat) (x' : slot) (H2 : heap) (v : value) : Prop :=
  within lo hi H H2 /\ slot_refs (own lo hi (List.length H) (List.length H2)) x' /\ reify H2 t x' = Some v.
Definition correct (t : atype) : Prop := forall H x lo hi tao s, fresh t H x lo hi ->
  match unpack (erase t) tao s with
  | Ok (v, s') => exists x' H2, load t H x tao s = Ok (x', s', H2) /\ loaded t H lo hi x' H2 v
  | Err e => load t H x tao s = Err e
  end.
(** The same for lists of slots of one type. *)
Definition loaded_list (et : atype) (H : heap) (lo hi : nat) (items : list slot) (H2 : heap) (vs : list value) : Prop :=
  within lo hi H H2 /\ Forall (slot_refs (own lo hi (List.length H) (List.length H2))) items /\
  all_some (map (reify H2 et) items) = Some vs.

Lemma all_some_frame P h h' et items vs : agree P h h' -> closed P h -> Forall (slot_refs P) items ->
  all_some (map (reify h et) items) = Some vs -> all_some (map (reify h' et) items) = Some vs.
Proof.
  intros A C F E. replace (map (reify h' et) items) with (map (reify h et) items); [exact E|].
  apply map_ext_in. intros s Hs. symmetry. apply (reify_frame P h h' A C). exact (proj1 (Forall_forall _ _) F s Hs).
Qed.

Lemma unpack_arr dyn et mx tao s : unpack (TArr dyn et mx) tao s =
  if negb dyn then '(vs, s') <- unpack_n (unpack et) mx tao s ;; Ok (VArr vs, s')
  else if tao && (8 <=? get_min_bitlen et) then
    vs <- unpack_tao (unpack et false) (S (List.length s)) s ;; Ok (VArr vs, [])
  else
    cb <- be_from_le_bits (firstn (array_len_bits_from_max_size mx) s) (array_len_bits_from_max_size mx) ;;
    '(vs, s') <- unpack_n (unpack et) (N.to_nat (N_of_bits cb)) tao (skipn (array_len_bits_from_max_size mx) s) ;;
    Ok (VArr vs, s').
Proof. reflexivity. Qed.

Section Arrays.
  Variable et : atype.
  Hypothesis C : correct et.

  Lemma load_n_ok n : forall h items h1 H tao s, alloc_n (alloc et) n h = (items, h1) ->
    agree (between (List.length h) (List.length h1)) h1 H -> List.length h1 <= List.length H ->
    match unpack_n (unpack (erase et)) n tao s with
    | Ok (vs, s') => exists items' H2, load_n (load et) n H items tao s = Ok (items', s', H2) /\
        loaded_list et H (List.length h) (List.length h1) items' H2 vs
    | Err e => load_n (load et) n H items tao s = Err e
    end.
  Proof.
    induction n as [|n IH]; intros h items h1 H tao s E A L; cbn [alloc_n] in E.
    - injection E as <- <-. cbn. exists [], H. split; [reflexivity|]. split; [apply within_refl|]. split; [constructor|reflexivity].
    - destruct (alloc et h) as (x & ha) eqn:E1. destruct (alloc_n (alloc et) n ha) as (r & h1') eqn:E2.
      injection E as <- <-. cbn [unpack_n load_n].
      pose proof (alloc_n_default (alloc et) et n (alloc_is_default et) ha) as (X & _). rewrite E2 in X. cbn [snd] in X.
      destruct (alloc_facts _ _ _ _ E1) as (X1 & _). pose proof (extends_len _ _ X) as L2. pose proof (extends_len _ _ X1) as L1.
      assert (fresh et H x (List.length h) (List.length ha)) as FR.
      { exists h, ha. split; [exact E1|]. split; [reflexivity|]. split; [reflexivity|]. split; [|lia].
        intros a O. rewrite (A a) by (unfold between in *; lia). destruct X as (tl & ->). apply nth_error_app1. apply O. }
      pose proof (C H x _ _ (tao && match n with O => true | _ => false end) s FR) as C1.
      destruct (unpack (erase et) _ s) as [[v s1]|e]; cbn [bind]; [|rewrite C1; reflexivity].
      destruct C1 as (x' & Ha & -> & W1 & R1 & V1). cbn [bind].
      assert (agree (between (List.length ha) (List.length h1')) h1' Ha) as A2.
      { intros a O. destruct W1 as (_ & W & _). rewrite W by (unfold between in *; lia). apply A. unfold between in *. lia. }
      assert (List.length h1' <= List.length Ha) as L3 by (destruct W1; lia).
      pose proof (IH ha r h1' Ha tao s1 E2 A2 L3) as C2.
      destruct (unpack_n (unpack (erase et)) n tao s1) as [[vs s2]|e]; cbn [bind]; [|rewrite C2; reflexivity].
      destruct C2 as (r' & H2 & -> & W2 & R2 & V2). cbn [bind].
      exists (x' :: r'), H2. split; [reflexivity|].
      destruct (within_seq (List.length h) (List.length ha) (List.length h1') H Ha H2 L1 L2 L W1 W2) as (W & AG & I1 & I2).
      split; [exact W|]. split.
      + constructor; [eapply slot_refs_mono; [exact I1|exact R1]|].
        eapply Forall_impl; [|exact R2]. intros y. apply slot_refs_mono. exact I2.
      + cbn [map all_some]. rewrite (reify_closed _ _ _ _ _ _ AG (proj2 (proj2 W1)) R1 V1), V2. reflexivity.
  Qed.

  Lemma load_one H h0 x tao s k : k <= List.length H -> alloc et H = (x, h0) ->
    match unpack (erase et) tao s with
    | Ok (v, s') => exists x' h1, load et h0 x tao s = Ok (x', s', h1) /\ loaded et H k k x' h1 v
    | Err e => load et h0 x tao s = Err e
    end.
  Proof.
    intros K E. destruct (alloc_facts _ _ _ _ E) as (X & _).
    assert (fresh et h0 x (List.length H) (List.length h0)) as FR.
    { exists H, h0. split; [exact E|]. split; [reflexivity|]. split; [reflexivity|]. split; [intros a _; reflexivity|lia]. }
    pose proof (C h0 x _ _ tao s FR) as C1. destruct (unpack (erase et) tao s) as [[v s1]|e]; [|exact C1].
    destruct C1 as (x' & h1 & E1 & W & R & V). exists x', h1. split; [exact E1|].
    destruct (within_new k H h0 h1 K X W) as (W' & I1). split; [exact W'|]. split; [|exact V].
    eapply slot_refs_mono; [exact I1|exact R].
  Qed.

  Lemma cons_loaded k H x' h1 v r' H2 vs : k <= List.length H -> loaded et H k k x' h1 v -> loaded_list et h1 k k r' H2 vs ->
    loaded_list et H k k (x' :: r') H2 (v :: vs).
  Proof.
    intros K (W1 & R1 & V1) (W2 & R2 & V2).
    destruct (within_seq k k k H h1 H2 (le_n _) (le_n _) K W1 W2) as (W & AG & I1 & I2).
    split; [exact W|]. split.
    - constructor; [eapply slot_refs_mono; [exact I1|exact R1]|].
      eapply Forall_impl; [|exact R2]. intros y. apply slot_refs_mono. exact I2.
    - cbn [map all_some]. rewrite (reify_closed _ _ _ _ _ _ AG (proj2 (proj2 W1)) R1 V1), V2. reflexivity.
  Qed.
  Lemma nil_loaded k H : loaded_list et H k k [] H [].
  Proof. split; [apply within_refl|]. split; [constructor|reflexivity]. Qed.

  Lemma load_new_ok k n : forall H tao s, k <= List.length H ->
    match unpack_n (unpack (erase et)) n tao s with
    | Ok (vs, s') => exists items' H2, load_new (alloc et) (load et) n H tao s = Ok (items', s', H2) /\
        loaded_list et H k k items' H2 vs
    | Err e => load_new (alloc et) (load et) n H tao s = Err e
    end.
  Proof.
    induction n as [|n IH]; intros H tao s K; cbn [unpack_n load_new].
    - exists [], H. split; [reflexivity|apply nil_loaded].
    - destruct (alloc et H) as (x & h0) eqn:E.
      pose proof (load_one H h0 x (tao && match n with O => true | _ => false end) s k K E) as C1.
      destruct (unpack (erase et) _ s) as [[v s1]|e]; cbn [bind]; [|rewrite C1; reflexivity].
      destruct C1 as (x' & h1 & -> & W1). cbn [bind].
      assert (k <= List.length h1) as K1 by (destruct W1 as ((A & _) & _); lia).
      pose proof (IH h1 tao s1 K1) as C2.
      destruct (unpack_n (unpack (erase et)) n tao s1) as [[vs s2]|e]; cbn [bind]; [|rewrite C2; reflexivity].
      destruct C2 as (r' & H2 & -> & W2). cbn [bind]. exists (x' :: r'), H2. split; [reflexivity|].
      eapply cons_loaded; eassumption.
  Qed.

  Lemma load_tao_ok k fuel : forall H s, k <= List.length H ->
    match unpack_tao (unpack (erase et) false) fuel s with
    | Ok vs => exists items' H2, load_tao (alloc et) (load et) fuel H s = Ok (items', H2) /\
        loaded_list et H k k items' H2 vs
    | Err e => load_tao (alloc et) (load et) fuel H s = Err e
    end.
  Proof.
    induction fuel as [|n IH]; intros H s K; cbn [unpack_tao load_tao]; [reflexivity|].
    destruct (8 <=? List.length s).
    - destruct (alloc et H) as (x & h0) eqn:E.
      pose proof (load_one H h0 x false s k K E) as C1.
      destruct (unpack (erase et) false s) as [[v s1]|e]; cbn [bind]; [|rewrite C1; reflexivity].
      destruct C1 as (x' & h1 & -> & W1). cbn [bind].
      assert (k <= List.length h1) as K1 by (destruct W1 as ((A & _) & _); lia).
      pose proof (IH h1 s1 K1) as C2.
      destruct (unpack_tao (unpack (erase et) false) n s1) as [vs|e]; cbn [bind]; [|rewrite C2; reflexivity].
      destruct C2 as (r' & H2 & -> & W2). cbn [bind]. exists (x' :: r'), H2. split; [reflexivity|].
      eapply cons_loaded; eassumption.
    - exists [], H. split; [reflexivity|apply nil_loaded].
  Qed.

  (** The array object with its items. *)
  Lemma write_array H lo m items items' H1 vs dyn mx : lo <= m -> S m <= List.length H ->
    nth_error H m = Some (CArr dyn et mx items) -> loaded_list et H lo m items' H1 vs ->
    loaded (AArr dyn et mx) H lo (S m) (SObj (PRef m)) (put H1 m (CArr dyn et mx items')) (VArr vs).
  Proof.
    intros L1 L2 E (W & R & V).
    assert (nth_error H1 m = Some (CArr dyn et mx items)) as E1.
    { rewrite <- E. apply (proj1 (proj2 W)); [lia|unfold between; lia]. }
    set (c := CArr dyn et mx items').
    assert (List.length (put H1 m c) = List.length H1) as PL by apply put_length.
    assert (forall a, ~ between m (S m) a -> nth_error (put H1 m c) a = nth_error H1 a) as PO.
    { intros a N. apply put_other. unfold between in N. lia. }
    assert (forall a c', nth_error (put H1 m c) a = Some c' -> between m (S m) a ->
      cell_refs (own lo (S m) (List.length H) (List.length (put H1 m c))) c') as PC.
    { intros a c' Ea O. assert (a = m) as -> by (unfold between in O; lia).
      rewrite (put_same _ _ _ _ E1) in Ea. injection Ea as <-. cbn. eapply Forall_impl; [|exact R].
      intros y. apply slot_refs_mono. rewrite PL. unfold own, between. intros r. lia. }
    destruct (within_put lo m (S m) H H1 (put H1 m c) L1 (Nat.le_succ_diag_r _) L2 W PL PO PC) as (W2 & AG & I1).
    split; [exact W2|]. split; [left; unfold between; lia|].
    cbn [reify]. rewrite (put_same _ _ _ _ E1). unfold c at 1.
    rewrite (all_some_frame _ _ _ _ _ _ AG (proj2 (proj2 W)) R V). reflexivity.
  Qed.

  Lemma correct_array dyn mx : correct (AArr dyn et mx).
  Proof.
    intros H x lo hi tao s (h & h1 & E & -> & -> & A & L).
    assert (exists items h0, (if dyn then ([], h) else alloc_n (alloc et) mx h) = (items, h0) /\
      x = SObj (PRef (List.length h0)) /\ h1 = h0 ++ [CArr dyn et mx items]) as (items & h0 & EI & -> & ->).
    { cbn [alloc] in E. destruct dyn.
      - injection E as <- <-. eauto.
      - destruct (alloc_n (alloc et) mx h) as (items & h0). injection E as <- <-. eauto. }
    clear E. rewrite app_length in *. cbn [List.length] in *.
    assert (List.length h <= List.length h0) as LH.
    { destruct dyn; [injection EI as <- <-; lia|].
      pose proof (alloc_n_default (alloc et) et mx (alloc_is_default et) h) as (X & _). rewrite EI in X. exact (extends_len _ _ X). }
    assert (nth_error H (List.length h0) = Some (CArr dyn et mx items)) as EA.
    { rewrite A by (unfold between; lia). rewrite nth_error_app2, Nat.sub_diag by lia. reflexivity. }
    assert (List.length h0 + 1 = S (List.length h0)) as -> by lia.
    cbn [erase load]. rewrite EA. rewrite unpack_arr. destruct dyn; cbn [negb].
    - injection EI as <- <-.
      destruct (tao && (8 <=? get_min_bitlen (erase et))).
      + pose proof (load_tao_ok (List.length h) (S (List.length s)) H s ltac:(lia)) as C1.
        destruct (unpack_tao (unpack (erase et) false) (S (List.length s)) s) as [vs|e]; cbn [bind]; [|rewrite C1; reflexivity].
        destruct C1 as (items' & H1 & -> & W). cbn [bind]. eexists. eexists. split; [reflexivity|].
        eapply write_array; eauto; lia.
      + destruct (be_from_le_bits _ _) as [cb|e]; cbn [bind]; [|reflexivity].
        pose proof (load_new_ok (List.length h) (N.to_nat (N_of_bits cb)) H tao
          (skipn (array_len_bits_from_max_size mx) s) ltac:(lia)) as C1.
        destruct (unpack_n (unpack (erase et)) _ tao _) as [[vs s']|e]; cbn [bind]; [|rewrite C1; reflexivity].
        destruct C1 as (items' & H1 & -> & W). cbn [bind]. eexists. eexists. split; [reflexivity|].
        eapply write_array; eauto; lia.
    - assert (agree (between (List.length h) (List.length h0)) h0 H) as A0.
      { intros a O. rewrite A by (unfold between in *; lia). apply nth_error_app1. apply O. }
      pose proof (load_n_ok mx h items h0 H tao s EI A0 ltac:(lia)) as C1.
      destruct (unpack_n (unpack (erase et)) _ tao _) as [[vs s']|e]; cbn [bind]; [|rewrite C1; reflexivity].
      destruct C1 as (items' & H1 & -> & W). cbn [bind]. eexists. eexists. split; [reflexivity|].
      eapply write_array; eauto; lia.
  Qed.
End Arrays.

(** ** Structures *)

Definition allocs (fs : list (string * atype)) := map (fun f => alloc (snd f)) fs.
Definition reifys (h : heap) (fs : list (string * atype)) := map (fun f => reify h (snd f)) fs.
Definition types_of (fs : list (string * atype)) := map (fun f => erase (snd f)) fs.

Lemma allocs_extend fs h slots h1 : alloc_all (allocs fs) h = (slots, h1) -> extends h h1.
Proof.
  intros E. pose proof (alloc_all_default fs) as X.
  assert (Forall (fun f => alloc_default (alloc (snd f)) (snd f)) fs) as F.
  { apply Forall_forall. intros f _. apply alloc_is_default. }
  destruct (X F h) as (A & _). unfold allocs in E. rewrite E in A. exact A.
Qed.
Definition loaded_fields (fs : list (string * atype)) (H : heap) (lo hi : nat) (slots : list slot) (H2 : heap) (vs : list value) : Prop :=
  within lo hi H H2 /\ Forall (slot_refs (own lo hi (List.length H) (List.length H2))) slots /\
  zip_some (reifys H2 fs) slots = Some vs.

Lemma zip_frame P h h' fs : forall slots vs, agree P h h' -> closed P h -> Forall (slot_refs P) slots ->
  zip_some (reifys h fs) slots = Some vs -> zip_some (reifys h' fs) slots = Some vs.
Proof.
  induction fs as [|f fs IH]; intros slots vs A C F E; [exact E|].
  destruct slots as [|s slots]; [exact E|]. cbn in *. apply Forall_cons_iff in F as (F1 & F2).
  rewrite (reify_frame P h h' A C _ _ F1). destruct (reify h (snd f) s); [|discriminate].
  destruct (zip_some (map (fun f => reify h (snd f)) fs) slots) as [ys|] eqn:EZ; [|discriminate].
  pose proof (IH slots ys A C F2 EZ) as X. unfold reifys in X. rewrite X. exact E.
Qed.

Lemma fields_fresh fs : forall h slots h1 H, alloc_all (allocs fs) h = (slots, h1) ->
  agree (between (List.length h) (List.length h1)) h1 H -> List.length h1 <= List.length H ->
  zip_some (reifys H fs) slots = Some (map default (types_of fs)) /\
  Forall (slot_refs (between (List.length h) (List.length h1))) slots /\
  closed (between (List.length h) (List.length h1)) H.
Proof.
  intros h slots h1 H E A L.
  destruct (alloc_all_default fs ltac:(apply Forall_forall; intros f _; apply alloc_is_default) h) as (X & Z).
  assert (Forall (fun f => alloc_sound (fun _ => False) (List.length h) (fun _ => False) (alloc (snd f))) fs) as S.
  { apply Forall_forall. intros f _. apply alloc_is_sound. }
  assert (Forall (alloc_sound (fun _ => False) (List.length h) (fun _ => False)) (allocs fs)) as S2.
  { unfold allocs. apply Forall_map. exact S. }
  destruct (alloc_all_sound (fun _ => False) (List.length h) (fun _ => False) (allocs fs) S2 h (le_n _)) as (C & D).
  unfold allocs in *. rewrite E in *. cbn [fst snd] in *.
  pose proof (evolved_closed _ _ C) as CL.
  assert (Forall (slot_refs (between (List.length h) (List.length h1))) slots) as F.
  { eapply Forall_impl; [|exact D]. intros y. apply slot_refs_mono. intros r. apply usable_between. }
  split; [|split; [exact F|]].
  - pose proof (zip_frame _ h1 H fs slots (map default (types_of fs)) A CL F) as ZF. apply ZF.
    specialize (Z h1 (extends_refl _)). unfold types_of. rewrite map_map. exact Z.
  - intros a c Ea O. rewrite (A a O) in Ea. exact (CL _ _ Ea O).
Qed.

Lemma load_struct_ok fs : Forall (fun f => correct (snd f)) fs -> forall h slots h1 H tao s,
  alloc_all (allocs fs) h = (slots, h1) ->
  agree (between (List.length h) (List.length h1)) h1 H -> List.length h1 <= List.length H ->
  match unpack_struct (map unpack (types_of fs)) tao s with
  | Ok (vs, s') => exists slots' H2, load_struct (map (fun f => load (snd f)) fs) H slots tao s = Ok (slots', s', H2) /\
      loaded_fields fs H (List.length h) (List.length h1) slots' H2 vs
  | Err e => load_struct (map (fun f => load (snd f)) fs) H slots tao s = Err e
  end.
Proof.
  induction 1 as [|f fs C F IH]; intros h slots h1 H tao s E A L; cbn [allocs map alloc_all] in E.
  - injection E as <- <-. cbn. exists [], H. split; [reflexivity|]. split; [apply within_refl|]. split; [constructor|reflexivity].
  - fold (allocs fs) in E. destruct (alloc (snd f) h) as (x & ha) eqn:E1.
    destruct (alloc_all (allocs fs) ha) as (r & h1') eqn:E2.
    injection E as <- <-. cbn [types_of map unpack_struct load_struct]. fold (types_of fs).
    pose proof (allocs_extend _ _ _ _ E2) as X.
    destruct (alloc_facts _ _ _ _ E1) as (X1 & _). pose proof (extends_len _ _ X) as L2. pose proof (extends_len _ _ X1) as L1.
    assert (fresh (snd f) H x (List.length h) (List.length ha)) as FR.
    { exists h, ha. split; [exact E1|]. split; [reflexivity|]. split; [reflexivity|]. split; [|lia].
      intros a O. rewrite (A a) by (unfold between in *; lia). destruct X as (tl & ->). apply nth_error_app1. apply O. }
    assert (forall A (g : string * atype -> A), match map g fs with [] => true | _ => false end =
            match map unpack (types_of fs) with [] => true | _ => false end) as LE by (intros; destruct fs; reflexivity).
    rewrite LE.
    pose proof (C H x _ _ (tao && match map unpack (types_of fs) with [] => true | _ => false end) s FR) as C1.
    destruct (unpack (erase (snd f)) _ s) as [[v s1]|e]; cbn [bind]; [|rewrite C1; reflexivity].
    destruct C1 as (x' & Ha & -> & W1 & R1 & V1). cbn [bind].
    assert (agree (between (List.length ha) (List.length h1')) h1' Ha) as A2.
    { intros a O. destruct W1 as (_ & W & _). rewrite W by (unfold between in *; lia). apply A. unfold between in *. lia. }
    assert (List.length h1' <= List.length Ha) as L3 by (destruct W1; lia).
    pose proof (IH ha r h1' Ha tao s1 E2 A2 L3) as C2.
    destruct (unpack_struct (map unpack (types_of fs)) tao s1) as [[vs s2]|e]; cbn [bind]; [|rewrite C2; reflexivity].
    destruct C2 as (r' & H2 & -> & W2 & R2 & V2). cbn [bind].
    exists (x' :: r'), H2. split; [reflexivity|].
    destruct (within_seq (List.length h) (List.length ha) (List.length h1') H Ha H2 L1 L2 L W1 W2) as (W & AG & I1 & I2).
    split; [exact W|]. split.
    + constructor; [eapply slot_refs_mono; [exact I1|exact R1]|].
      eapply Forall_impl; [|exact R2]. intros y. apply slot_refs_mono. exact I2.
    + cbn [reifys map zip_some]. unfold reifys in V2.
      rewrite (reify_closed _ _ _ _ _ _ AG (proj2 (proj2 W1)) R1 V1), V2. reflexivity.
Qed.

(** ** Unions *)

(** A part of the region was changed. *)
Lemma within_widen lo hi l r H H2 : lo <= l -> l <= r -> r <= hi -> hi <= List.length H -> closed (between lo hi) H ->
  within l r H H2 -> within lo hi H H2.
Proof.
  intros L1 L2 L3 L4 C (A1 & A2 & A3). split; [lia|]. split.
  - intros a La N. apply A2; unfold between in *; lia.
  - intros a c E O. destruct (Nat.lt_ge_cases a l) as [G|G]; [|destruct (Nat.lt_ge_cases a r) as [G2|G2]].
    + rewrite A2 in E by (unfold own, between in *; lia). eapply cell_refs_mono; [|apply (C _ _ E)]; unfold own, between in *; lia.
    + eapply cell_refs_mono; [|apply (A3 _ _ E)]; unfold own, between in *; lia.
    + destruct (Nat.lt_ge_cases a (List.length H)) as [G3|G3].
      * rewrite A2 in E by (unfold own, between in *; lia). eapply cell_refs_mono; [|apply (C _ _ E)]; unfold own, between in *; lia.
      * eapply cell_refs_mono; [|apply (A3 _ _ E)]; unfold own, between in *; lia.
Qed.

Lemma field_region fs : forall h slots h1 H i f,
  alloc_all (allocs fs) h = (slots, h1) -> agree (between (List.length h) (List.length h1)) h1 H ->
  List.length h1 <= List.length H -> nth_error fs i = Some f ->
  exists y l r, nth_error slots i = Some y /\ List.length h <= l /\ l <= r /\ r <= List.length h1 /\ fresh (snd f) H y l r /\
    forall H2 y' v, (forall a, between (List.length h) (List.length h1) a -> ~ between l r a -> nth_error H2 a = nth_error H a) ->
      reify H2 (snd f) y' = Some v ->
      zip_some (reifys H2 fs) (list_set slots i y') = Some (list_set (map default (types_of fs)) i v).
Proof.
  induction fs as [|g fs IH]; intros h slots h1 H i f E A L Ei; [destruct i; discriminate|].
  cbn [allocs map alloc_all] in E. fold (allocs fs) in E. destruct (alloc (snd g) h) as (x & ha) eqn:E1.
  destruct (alloc_all (allocs fs) ha) as (rs & h1') eqn:E2. injection E as <- <-.
  pose proof (allocs_extend _ _ _ _ E2) as X.
  destruct (alloc_facts _ _ _ _ E1) as (X1 & _). pose proof (extends_len _ _ X) as L2. pose proof (extends_len _ _ X1) as L1.
  assert (agree (between (List.length ha) (List.length h1')) h1' H) as A2.
  { intros a O. apply A. unfold between in *. lia. }
  assert (fresh (snd g) H x (List.length h) (List.length ha)) as FR.
  { exists h, ha. split; [exact E1|]. split; [reflexivity|]. split; [reflexivity|]. split; [|lia].
    intros a O. rewrite (A a) by (unfold between in *; lia). destruct X as (tl & ->). apply nth_error_app1. apply O. }
  destruct i as [|i]; cbn [nth_error] in Ei.
  - injection Ei as <-. exists x, (List.length h), (List.length ha).
    split; [reflexivity|]. split; [lia|]. split; [lia|]. split; [lia|]. split; [exact FR|].
    intros H2 y' v W2 R. cbn [list_set reifys map zip_some types_of]. rewrite R.
    destruct (fields_fresh fs ha rs h1' H E2 A2 L) as (Z & F & C).
    assert (agree (between (List.length ha) (List.length h1')) H H2) as A3.
    { intros a O. apply W2; unfold between in *; lia. }
    pose proof (zip_frame _ H H2 fs rs _ A3 C F Z) as ZZ. unfold reifys in ZZ. rewrite ZZ. reflexivity.
  - destruct (IH ha rs h1' H i f E2 A2 L Ei) as (y & l & r & Ey & G1 & G2 & G3 & FY & K).
    exists y, l, r. split; [exact Ey|]. split; [lia|]. split; [lia|]. split; [lia|]. split; [exact FY|].
    intros H2 y' v W R. cbn [list_set reifys map zip_some types_of].
    destruct (fresh_reify _ _ _ _ _ FR) as (R0 & _ & C & S0).
    assert (agree (between (List.length h) (List.length ha)) H H2) as A3.
    { intros a O. apply W; unfold between in *; lia. }
    rewrite (reify_closed _ _ _ _ _ _ A3 C S0 R0).
    assert (forall a, between (List.length ha) (List.length h1') a -> ~ between l r a -> nth_error H2 a = nth_error H a) as WK.
    { intros a O N. apply W; [unfold between in *; lia|exact N]. }
    pose proof (K H2 y' v WK R) as ZZ. unfold reifys in ZZ. rewrite ZZ. reflexivity.
Qed.

Lemma find_named (fs : list (string * atype)) : forall i f, NoDup (map fst fs) -> nth_error fs i = Some f ->
  find_field fs (fst f) = Some (i, snd f).
Proof.
  induction fs as [|(n, t) fs IH]; intros i f N E; [destruct i; discriminate|].
  cbn [map] in N. apply NoDup_cons_iff in N as (N1 & N2). destruct i as [|i]; cbn in E.
  - injection E as <-. cbn. rewrite String.eqb_refl. reflexivity.
  - cbn [find_field]. destruct (String.eqb_spec (fst f) n) as [EQ|NE].
    + cbn [fst] in N1. destruct N1. rewrite <- EQ. apply in_map. exact (nth_error_In _ _ E).
    + rewrite (IH i f N2 E). reflexivity.
Qed.

Lemma unpack_union fs tao s : unpack (TComp true fs) tao s =
  match firstn (union_tag_bits_from_num_elements (List.length fs)) s with
  | [] => Err ValueError
  | b :: bs =>
      match nth_error (map unpack fs) (N.to_nat (N_of_bits (b :: bs))) with
      | None => Err IndexError
      | Some uf =>
          '(v, s') <- uf tao (skipn (union_tag_bits_from_num_elements (List.length fs)) s) ;;
          Ok (VComp (list_set (map default fs) (N.to_nat (N_of_bits (b :: bs))) v) (Some (N.to_nat (N_of_bits (b :: bs)))), s')
      end
  end.
Proof. reflexivity. Qed.
Lemma unpack_plain fs tao s : unpack (TComp false fs) tao s =
  '(vs, s') <- unpack_struct (map unpack fs) tao s ;; Ok (VComp vs None, s').
Proof. reflexivity. Qed.
Lemma list_set_nil {A} i (x : A) : list_set [] i x = [].
Proof. destruct i; reflexivity. Qed.

Lemma correct_comp nm u fs cs : NoDup (map fst fs) -> Forall (fun f => correct (snd f)) fs -> correct (AComp nm u fs cs).
Proof.
  intros ND F H x lo hi tao s (h & h1 & E & -> & -> & A & L).
  cbn [alloc] in E. fold (allocs fs) in E. destruct (alloc_all (allocs fs) h) as (slots & h0) eqn:E0.
  injection E as <- <-. rewrite app_length in *. cbn [List.length] in *.
  set (d := List.length h0) in *. assert (d + 2 = S (S d)) as D2 by lia. rewrite D2 in *. clear D2.
  pose proof (extends_len _ _ (allocs_extend _ _ _ _ E0)) as LH. fold d in LH.
  assert (nth_error H d = Some (CDict slots)) as ED.
  { rewrite A by (unfold between; lia). unfold d. rewrite nth_error_app2, Nat.sub_diag by lia. reflexivity. }
  assert (nth_error H (S d) = Some (CComp nm u fs cs d None [])) as EC.
  { rewrite A by (unfold between; lia). unfold d. rewrite nth_error_app2 by lia.
    replace (S (List.length h0) - List.length h0) with 1 by lia. reflexivity. }
  assert (agree (between (List.length h) d) h0 H) as A0.
  { intros a O. rewrite A by (unfold between in *; lia). apply nth_error_app1. apply O. }
  cbn [erase load]. rewrite EC, String.eqb_refl, ED. cbn [negb]. fold (types_of fs).
  destruct u; [rewrite unpack_union|rewrite unpack_plain].
  - assert (List.length (types_of fs) = List.length fs) as LT by (unfold types_of; apply map_length). rewrite LT.
    set (n := union_tag_bits_from_num_elements (List.length fs)).
    destruct (firstn n s) as [|b0 bs] eqn:EB; [reflexivity|].
    set (tag := N.to_nat (N_of_bits (b0 :: bs))).
    assert (nth_error (map unpack (types_of fs)) tag =
      match nth_error fs tag with Some f => Some (unpack (erase (snd f))) | None => None end) as ->.
    { unfold types_of. rewrite map_map. rewrite nth_error_map. destruct (nth_error fs tag); reflexivity. }
    rewrite nth_error_map. destruct (nth_error fs tag) as [f|] eqn:Ef; cbn [option_map]; [|reflexivity].
    set (c1 := CComp nm true fs cs d (Some (fst f)) []).
    set (H0 := put H (S d) c1).
    assert (List.length H0 = List.length H) as LH0 by apply put_length.
    assert (agree (between (List.length h) d) h0 H0) as A1.
    { intros a O. unfold H0. rewrite put_other by (unfold between in O; lia). exact (A0 a O). }
    destruct (field_region fs h slots h0 H0 tag f E0 A1 ltac:(fold d; lia) Ef) as (y & l & r & Ey & G1 & G2 & G3 & FY & K).
    fold d in G3. rewrite Ey.
    pose proof (proj1 (Forall_forall _ _) F f (nth_error_In _ _ Ef) H0 y l r tao (skipn n s) FY) as C1.
    destruct (unpack (erase (snd f)) tao (skipn n s)) as [[v s']|e]; cbn [bind]; [|rewrite C1; reflexivity].
    destruct C1 as (y' & H1 & -> & W & R & V). cbn [bind]. eexists. eexists. split; [reflexivity|].
    destruct (fields_fresh fs h slots h0 H0 E0 A1 ltac:(fold d; lia)) as (_ & FS & CL). fold d in FS, CL.
    pose proof (within_widen (List.length h) d l r H0 H1 G1 G2 G3 ltac:(lia) CL W) as W1.
    assert (nth_error H1 d = Some (CDict slots)) as ED1.
    { rewrite (proj1 (proj2 W)); [|lia|unfold between; lia]. unfold H0. rewrite put_other by lia. exact ED. }
    assert (nth_error H1 (S d) = Some c1) as EC1.
    { rewrite (proj1 (proj2 W)); [|lia|unfold between; lia]. unfold H0. apply (put_same _ _ _ _ EC). }
    set (c2 := CDict (list_set slots tag y')).
    assert (within (List.length h) (S (S d)) H0 (put H1 d c2) /\
            agree (own (List.length h) d (List.length H0) (List.length H1)) H1 (put H1 d c2) /\
            (forall a, own (List.length h) d (List.length H0) (List.length H1) a ->
               own (List.length h) (S (S d)) (List.length H0) (List.length (put H1 d c2)) a)) as (W2 & AG & I1).
    { apply within_put; try exact W1; try lia.
      - apply put_length.
      - intros a N. apply put_other. unfold between in N. lia.
      - intros a c Ea O. rewrite put_length. assert (a = d \/ a = S d) as [->| ->] by (unfold between in O; lia).
        + rewrite (put_same _ _ _ _ ED1) in Ea. injection Ea as <-. cbn. apply Forall_list_set.
          * eapply Forall_impl; [|exact FS]. intros z. apply slot_refs_mono. unfold own, between. lia.
          * eapply slot_refs_mono; [|exact R]. unfold own, between. lia.
        + rewrite put_other in Ea by lia. rewrite EC1 in Ea. injection Ea as <-. cbn.
          split; [left; unfold between; lia|constructor]. }
    assert (reify (put H1 d c2) (snd f) y' = Some v) as V2.
    { apply (reify_closed _ _ _ _ _ _ AG (proj2 (proj2 W1))); [|exact V].
      eapply slot_refs_mono; [|exact R]. unfold own, between. lia. }
    split; [|split].
    + destruct W2 as (B1 & B2 & B3). rewrite LH0 in *. split; [exact B1|]. split; [|exact B3].
      intros a La N. rewrite B2 by assumption. unfold H0. apply put_other. unfold between in N. lia.
    + left. unfold between. lia.
    + cbn [reify]. rewrite put_other by lia. rewrite EC1. unfold c1. rewrite String.eqb_refl. unfold active_known, active_index.
      rewrite (find_named fs tag f ND Ef). cbn [andb]. rewrite (put_same _ _ _ _ ED1).
      assert (forall a, between (List.length h) d a -> ~ between l r a -> nth_error (put H1 d c2) a = nth_error H0 a) as W3.
      { intros a O N. rewrite put_other by (unfold between in O; lia). apply (proj1 (proj2 W)); [unfold between in O; lia|exact N]. }
      pose proof (K _ y' v W3 V2) as ZZ. unfold reifys in ZZ. unfold c2 at 1. rewrite ZZ. reflexivity.
  - pose proof (load_struct_ok fs F h slots h0 H tao s E0 A0 ltac:(fold d; lia)) as C1. fold d in C1.
    destruct (unpack_struct (map unpack (types_of fs)) tao s) as [[vs s']|e]; cbn [bind]; [|rewrite C1; reflexivity].
    destruct C1 as (slots' & H1 & -> & W & R & V). cbn [bind]. eexists. eexists. split; [reflexivity|].
    assert (nth_error H1 d = Some (CDict slots)) as ED1.
    { rewrite (proj1 (proj2 W)); [exact ED|lia|unfold between; lia]. }
    assert (nth_error H1 (S d) = Some (CComp nm false fs cs d None [])) as EC1.
    { rewrite (proj1 (proj2 W)); [exact EC|lia|unfold between; lia]. }
    set (c2 := CDict slots').
    assert (within (List.length h) (S (S d)) H (put H1 d c2) /\
            agree (own (List.length h) d (List.length H) (List.length H1)) H1 (put H1 d c2) /\
            (forall a, own (List.length h) d (List.length H) (List.length H1) a ->
               own (List.length h) (S (S d)) (List.length H) (List.length (put H1 d c2)) a)) as (W2 & AG & I1).
    { apply within_put; try exact W; try lia.
      - apply put_length.
      - intros a N. apply put_other. unfold between in N. lia.
      - intros a c Ea O. rewrite put_length. assert (a = d \/ a = S d) as [->| ->] by (unfold between in O; lia).
        + rewrite (put_same _ _ _ _ ED1) in Ea. injection Ea as <-. cbn.
          eapply Forall_impl; [|exact R]. intros z. apply slot_refs_mono. unfold own, between. lia.
        + rewrite put_other in Ea by lia. rewrite EC1 in Ea. injection Ea as <-. cbn.
          split; [left; unfold between; lia|constructor]. }
    split; [exact W2|]. split; [left; unfold between; lia|].
    cbn [reify]. rewrite put_other by lia. rewrite EC1, String.eqb_refl. cbn [active_known andb].
    rewrite (put_same _ _ _ _ ED1). unfold c2 at 1.
    pose proof (zip_frame _ _ _ fs slots' vs AG (proj2 (proj2 W)) R V) as ZZ. unfold reifys in ZZ. rewrite ZZ. reflexivity.
Qed.

Lemma load_correct t : distinct_names t -> correct t.
Proof.
  induction t as [k n cm|n|dyn et mx IH|nm u fs cs IH] using atype_ind'; intros D.
  - intros H x lo hi tao s (h & h1 & E & -> & -> & A & L). cbn [alloc] in E. injection E as <- <-.
    change (unpack (erase (APrim k n cm)) tao s) with ('(b, s') <- base_unpack s n ;; Ok (VPrim b, s')).
    cbn [load]. unfold base_unpack. destruct (Nat.eqb_spec n 0) as [->|N]; cbn [bind].
    + eexists. eexists. split; [reflexivity|]. split; [apply within_refl|]. split; [exact I|reflexivity].
    + destruct (be_from_le_bits s n) as [b|e]; cbn [bind]; [|reflexivity].
      eexists. eexists. split; [reflexivity|]. split; [apply within_refl|]. split; [exact I|reflexivity].
  - intros H x lo hi tao s (h & h1 & E & -> & -> & A & L). cbn [alloc] in E. injection E as <- <-.
    cbn [erase unpack load]. eexists. eexists. split; [reflexivity|]. split; [apply within_refl|]. split; [exact I|reflexivity].
  - apply correct_array. apply IH. exact D.
  - destruct D as (D1 & D2). apply correct_comp; [exact D1|].
    clear D1. induction IH as [|f fs IH0 IH IHl]; cbn in D2; [constructor|]. destruct D2. constructor; auto.
Qed.

(** ** Received messages *)

Lemma receive_ok t h tao s : distinct_names t -> (exists nm u fs cs, t = AComp nm u fs cs) ->
  match unpack (erase t) tao s with
  | Ok (v, _) => exists a h', receive h t tao s = (Ok a, h') /\ reify h' t (SObj (PRef a)) = Some v /\
      (forall b, b < List.length h -> nth_error h' b = nth_error h b) /\ List.length h <= a < List.length h' /\
      (forall b c, List.length h <= b -> nth_error h' b = Some c -> cell_refs (fun r => List.length h <= r < List.length h') c)
  | Err e => fst (receive h t tao s) = Err e
  end.
Proof.
  intros D (nm & u & fs & cs & ->). set (t := AComp nm u fs cs) in *. unfold receive, new_object.
  assert (exists a h1, alloc t h = (SObj (PRef a), h1)) as (a & h1 & E).
  { unfold t. cbn [alloc]. destruct (alloc_all _ h) as (ss & h1). eauto. }
  change (match t with AComp _ _ _ _ => match alloc t h with (SObj (PRef a), h1) => init_fields h1 a [] | (_, h1) => (Err TypeError, h1) end
          | _ => (Err TypeError, h) end) with (match alloc t h with (SObj (PRef a), h1) => init_fields h1 a [] | (_, h1) => (Err TypeError, h1) end).
  rewrite E. cbn [init_fields].
  destruct (alloc_facts _ _ _ _ E) as (X & CL & SR & _).
  assert (fresh t h1 (SObj (PRef a)) (List.length h) (List.length h1)) as FR.
  { exists h, h1. split; [exact E|]. split; [reflexivity|]. split; [reflexivity|]. split; [intros b _; reflexivity|lia]. }
  pose proof (load_correct t D h1 (SObj (PRef a)) _ _ tao s FR) as C.
  destruct (unpack (erase t) tao s) as [[v s']|e]; [|rewrite C; reflexivity].
  destruct C as (x' & h2 & C & (W1 & W2 & W3) & R & V). 
  assert (x' = SObj (PRef a)) as ->.
  { clear - C. unfold t in C. cbn [load] in C. destruct (nth_error h1 a) as [[| |nm' ? ? ? d act ex]|]; try discriminate.
    destruct (negb (String.eqb nm nm')); [discriminate|]. destruct (nth_error h1 d) as [[|sl|]|]; try discriminate.
    destruct u.
    - destruct (firstn _ s); [discriminate|]. destruct (nth_error fs _); [|discriminate]. destruct (nth_error (map _ fs) _); [|discriminate].
      destruct (nth_error sl _); [|discriminate]. apply bind_ok in C as (((y & s1) & h3) & _ & C). injection C as <- _ _. reflexivity.
    - apply bind_ok in C as (((y & s1) & h3) & _ & C). injection C as <- _ _. reflexivity. }
  rewrite C. exists a, h2. split; [reflexivity|]. split; [exact V|].
  pose proof (extends_len _ _ X) as LX. cbn in SR. unfold between in SR.
  split; [|split; [lia|]].
  - intros b Lb. rewrite W2 by (unfold between; lia). destruct X as (tl & ->). apply nth_error_app1. exact Lb.
  - intros b c Lb Eb. assert (b < List.length h2) by (apply nth_error_Some; congruence).
    eapply cell_refs_mono; [|apply (W3 _ _ Eb)]; unfold own, between; lia.
Qed.

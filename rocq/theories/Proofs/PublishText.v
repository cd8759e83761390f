(** The example that sends log messages. *)
From Coq Require Import String Ascii.
From Verif.Base Require Import Prelude Bits.
From Verif.Model Require Import BitCodec Types Codec Prim Float Utf8 ObjectApi Publishers.
From Verif.Spec Require Import PrimSpec FloatSpec ConstructSpec ObjectSpec NumberSpec PublishSpec HobbywingSpec.
From Verif.Proofs Require Import CodecFacts ObjectFacts ObjectTop ObjectArrays ObjectUnions ObjectText ConstructFacts HobbywingFacts NumberFacts PublishFacts.
Open Scope list_scope.
Local Open Scope nat_scope.

(** ** Arrays of different fields are different *)

Lemma alloc_ref t h b h1 : alloc t h = (SObj (PRef b), h1) -> List.length h <= b < List.length h1.
Proof.
  intros E. destruct (alloc_is_default t h) as ((tl & X) & _). rewrite E in X. cbn [snd] in X.
  destruct t as [k n cm|n|dyn et mx|nm u fs cs]; cbn [alloc] in E; try discriminate.
  - assert (forall h0 items0, (if dyn then ([], h) else alloc_n (alloc et) mx h) = (items0, h0) -> List.length h <= List.length h0) as LE.
    { intros h0 items0 E0. destruct dyn; [injection E0 as _ <-; lia|].
      clear E X. revert h h0 items0 E0. induction mx as [|mx IH]; intros h h0 items0 E0; cbn [alloc_n] in E0; [injection E0 as _ <-; lia|].
      destruct (alloc et h) as [s h2] eqn:E2. destruct (alloc_n (alloc et) mx h2) as [ss h3] eqn:E3. injection E0 as _ <-.
      pose proof (IH _ _ _ E3). destruct (alloc_is_default et h) as ((t2 & X2) & _). rewrite E2 in X2. cbn [snd] in X2. subst h2. rewrite app_length in H. lia. }
    destruct (if dyn then ([], h) else alloc_n (alloc et) mx h) as [items0 h0] eqn:E0. injection E as <- <-.
    specialize (LE _ _ eq_refl). rewrite app_length. cbn [List.length]. lia.
  - destruct (alloc_all_default fs) with (h := h) as ((t2 & X2) & _).
    { apply Forall_forall. intros f _. apply alloc_is_default. }
    destruct (alloc_all (map (fun f => alloc (snd f)) fs) h) as [slots h0] eqn:E0. cbn [snd] in X2. injection E as <- <-.
    subst h0. rewrite !app_length. cbn [List.length]. lia.
Qed.
Lemma alloc_all_ref (fs : list (string * atype)) : forall h ss h1 i b, alloc_all (map (fun f => alloc (snd f)) fs) h = (ss, h1) ->
  nth_error ss i = Some (SObj (PRef b)) -> List.length h <= b.
Proof.
  induction fs as [|f fs IH]; intros h ss h1 i b E N; cbn [map alloc_all] in E.
  - injection E as <- <-. destruct i; discriminate.
  - destruct (alloc (snd f) h) as [s h2] eqn:E2. destruct (alloc_all (map (fun f => alloc (snd f)) fs) h2) as [ss2 h3] eqn:E3. injection E as <- <-.
    destruct i as [|i]; cbn [nth_error] in N.
    + injection N as ->. apply alloc_ref in E2. lia.
    + pose proof (IH _ _ _ _ _ E3 N). destruct (alloc_is_default (snd f) h) as ((t2 & X2) & _). rewrite E2 in X2. cbn [snd] in X2. subst h2.
      rewrite app_length in H. lia.
Qed.
Lemma alloc_all_apart (fs : list (string * atype)) : forall h ss h1 i j b c, alloc_all (map (fun f => alloc (snd f)) fs) h = (ss, h1) ->
  i < j -> nth_error ss i = Some (SObj (PRef b)) -> nth_error ss j = Some (SObj (PRef c)) -> b < c.
Proof.
  induction fs as [|f fs IH]; intros h ss h1 i j b c E L Ni Nj; cbn [map alloc_all] in E.
  - injection E as <- <-. destruct i; discriminate.
  - destruct (alloc (snd f) h) as [s h2] eqn:E2. destruct (alloc_all (map (fun f => alloc (snd f)) fs) h2) as [ss2 h3] eqn:E3. injection E as <- <-.
    destruct j as [|j]; [lia|]. cbn [nth_error] in Nj. destruct i as [|i]; cbn [nth_error] in Ni.
    + injection Ni as ->. apply alloc_ref in E2. pose proof (alloc_all_ref _ _ _ _ _ _ E3 Nj). lia.
    + apply (IH _ _ _ i j b c E3); auto. lia.
Qed.
Lemma apart h nm fs cs a h1 d slots i j b c : step h (ONew (AComp nm false fs cs) []) = (Ok (PRef a), h1) ->
  filling h1 h1 a nm fs cs d slots [] -> i <> j -> nth_error slots i = Some (SObj (PRef b)) -> nth_error slots j = Some (SObj (PRef c)) -> b <> c.
Proof.
  intros E (Ea & Ed & _) D Ni Nj. cbn [step] in E. unfold new_object in E. cbn [alloc] in E.
  destruct (alloc_all (map (fun f => alloc (snd f)) fs) h) as [ss h0] eqn:EA. cbn [init_fields] in E. injection E as <- <-.
  rewrite nth_error_app2 in Ea by lia. replace (S (List.length h0) - List.length h0) with 1 in Ea by lia. cbn in Ea. injection Ea as <-.
  rewrite nth_error_app2 in Ed by lia. rewrite Nat.sub_diag in Ed. cbn in Ed. injection Ed as <-.
  destruct (Nat.lt_trichotomy i j) as [L|[L|L]]; [|contradiction|].
  - pose proof (alloc_all_apart fs h _ _ i j b c EA L Ni Nj). lia.
  - pose proof (alloc_all_apart fs h _ _ j i c b EA L Nj Ni). lia.
Qed.
Lemma find_apart fs : forall f g i j t u, find_field fs f = Some (i, t) -> find_field fs g = Some (j, u) -> f <> g -> i <> j.
Proof.
  intros f g i j t u F G D ->. pose proof (find_field_in _ _ _ _ F). pose proof (find_field_in _ _ _ _ G). congruence.
Qed.

Lemma alloc_all_cell (fs : list (string * atype)) : forall h ss h1 i f et mx, alloc_all (map (fun f => alloc (snd f)) fs) h = (ss, h1) ->
  nth_error fs i = Some (f, AArr true et mx) -> exists b, nth_error ss i = Some (SObj (PRef b)) /\ nth_error h1 b = Some (CArr true et mx []).
Proof.
  induction fs as [|g fs IH]; intros h ss h1 i f et mx E N; [destruct i; discriminate|]. cbn [map alloc_all] in E.
  destruct (alloc (snd g) h) as [s h2] eqn:E2. destruct (alloc_all (map (fun f => alloc (snd f)) fs) h2) as [ss2 h3] eqn:E3. injection E as <- <-.
  destruct i as [|i]; cbn [nth_error] in N; [|exact (IH _ _ _ _ _ _ _ E3 N)].
  injection N as ->. cbn [snd alloc] in E2. injection E2 as <- <-. exists (List.length h). split; [reflexivity|].
  destruct (alloc_all_default fs) with (h := h ++ [CArr true et mx []]) as ((t2 & X2) & _).
  { apply Forall_forall. intros x _. apply alloc_is_default. }
  rewrite E3 in X2. cbn [snd] in X2. subst h3. rewrite <- app_assoc, nth_error_app2 by lia. rewrite Nat.sub_diag. reflexivity.
Qed.
Lemma new_cell h nm fs cs a h1 d slots f i et mx : step h (ONew (AComp nm false fs cs) []) = (Ok (PRef a), h1) ->
  filling h1 h1 a nm fs cs d slots [] -> find_field fs f = Some (i, AArr true et mx) ->
  exists b, nth_error slots i = Some (SObj (PRef b)) /\ nth_error h1 b = Some (CArr true et mx []).
Proof.
  intros E (Ea & Ed & _) F. cbn [step] in E. unfold new_object in E. cbn [alloc] in E.
  destruct (alloc_all (map (fun f => alloc (snd f)) fs) h) as [ss h0] eqn:EA. cbn [init_fields] in E. injection E as <- <-.
  rewrite nth_error_app2 in Ea by lia. replace (S (List.length h0) - List.length h0) with 1 in Ea by lia. cbn in Ea. injection Ea as <-.
  rewrite nth_error_app2 in Ed by lia. rewrite Nat.sub_diag in Ed. cbn in Ed. injection Ed as <-.
  destruct (alloc_all_cell _ _ _ _ _ _ _ _ EA (find_field_in _ _ _ _ F)) as (b & X & Y). exists b. split; [exact X|].
  rewrite nth_error_app1 by (apply nth_error_Some; congruence). exact Y.
Qed.

(** ** Text *)

Lemma set_text h a nm fs cs d act extra slots f i cm mx b items s : nth_error h a = Some (CComp nm false fs cs d act extra) ->
  nth_error h d = Some (CDict slots) -> ~ In f (map fst cs) -> find_field fs f = Some (i, AArr true (APrim KUint 8 cm) mx) ->
  nth_error slots i = Some (SObj (PRef b)) -> nth_error h b = Some (CArr true (APrim KUint 8 cm) mx items) ->
  Forall (fun c => (c < 128)%N) s -> List.length s <= mx ->
  exists h' items', (forall k, set a f (PStr s) h k = k h') /\ nth_error h' b = Some (CArr true (APrim KUint 8 cm) mx items') /\
    arr_decode h' b = Ok s /\ (forall c, c <> b -> nth_error h' c = nth_error h c).
Proof.
  intros Ea Ed C Ef Es Eb As Ls.
  pose proof (plain_assign h a nm fs cs d act extra slots f i true _ mx b (PStr s) Ea Ed C Ef Es) as PA.
  unfold assign_array, arr_clear in PA. rewrite Eb, clear_loop_nil in PA by lia.
  set (h1 := put h b (CArr true (APrim KUint 8 cm) mx [])) in PA.
  assert (nth_error h1 b = Some (CArr true (APrim KUint 8 cm) mx [])) as E1 by apply (put_same _ _ _ _ Eb).
  pose proof (ascii_bytes s As) as Es'.
  assert (Forall (fun x => representable KUint 8 (Z.of_N x)) s) as Rs.
  { apply Forall_forall. intros x I. apply representable_byte. pose proof (proj1 (Forall_forall _ _) As x I). cbn in H. lia. }
  destruct (encode_outcome KUint cm s s h1 b mx [] ltac:(unfold int_type; lia) E1 Es' Rs) as (h2 & F2 & E2 & D2). rewrite E2 in PA.
  replace (List.length s <=? mx) with true in * by lia. specialize (D2 Ls).
  assert (exists items', nth_error h2 b = Some (CArr true (APrim KUint 8 cm) mx items')) as (items' & Eb2).
  { unfold arr_encode, arr_delall in E2. rewrite E1, Es' in E2. change (string_like true (APrim KUint 8 cm)) with true in E2. cbn [negb] in E2.
    set (h1' := put h1 b (CArr true (APrim KUint 8 cm) mx [])) in E2.
    assert (nth_error h1' b = Some (CArr true (APrim KUint 8 cm) mx [])) as E1' by apply (put_same _ _ _ _ E1).
    destruct (append_all_bytes KUint cm s ltac:(unfold int_type; lia) Rs h1' b true mx [] E1' ltac:(cbn; lia)) as (h2' & it & X2 & _ & H2).
    cbn [List.length app] in H2. rewrite Nat.add_0_l in H2. replace (List.length s <=? mx) with true in H2 by lia.
    destruct H2 as (H2 & _). exists it. assert (h2 = h2') as -> by congruence. exact X2. }
  exists h2, items'. split; [|split; [exact Eb2|split; [exact D2|]]].
  - intros k. unfold set. rewrite PA. reflexivity.
  - intros c Hc. rewrite F2 by exact Hc. apply put_other. congruence.
Qed.

Definition codes (s : string) : list N := map N_of_ascii (list_ascii_of_string s).

(** The two text fields of the object. *)
Definition texts (h : heap) a nm fs cs d slots i1 i2 b1 b2 c1 c2 m1 m2 : Prop :=
  nth_error h a = Some (CComp nm false fs cs d None []) /\ nth_error h d = Some (CDict slots) /\
  nth_error slots i1 = Some (SObj (PRef b1)) /\ nth_error slots i2 = Some (SObj (PRef b2)) /\ b1 <> b2 /\ b1 <> a /\ b2 <> a /\ b1 <> d /\ b2 <> d /\
  (exists it, nth_error h b1 = Some (CArr true (APrim KUint 8 c1) m1 it)) /\ (exists it, nth_error h b2 = Some (CArr true (APrim KUint 8 c2) m2 it)).

Lemma both h a nm fs cs d slots i1 i2 b1 b2 c1 c2 m1 m2 (s t : string) : texts h a nm fs cs d slots i1 i2 b1 b2 c1 c2 m1 m2 ->
  ~ In "source"%string (map fst cs) -> ~ In "text"%string (map fst cs) ->
  find_field fs "source" = Some (i1, AArr true (APrim KUint 8 c1) m1) -> find_field fs "text" = Some (i2, AArr true (APrim KUint 8 c2) m2) ->
  Forall (fun c => (c < 128)%N) (codes s) -> Forall (fun c => (c < 128)%N) (codes t) -> List.length (codes s) <= m1 -> List.length (codes t) <= m2 ->
  exists h', (forall k, set a "source" (str s) h (fun h => set a "text" (str t) h k) = k h') /\
    texts h' a nm fs cs d slots i1 i2 b1 b2 c1 c2 m1 m2 /\ holds_text h' a "source" s /\ holds_text h' a "text" t /\
    (forall c, c <> b1 -> c <> b2 -> nth_error h' c = nth_error h c).
Proof.
  intros (Ea & Ed & S1 & S2 & D & D1 & D2 & D3 & D4 & (t1 & E1) & (t2 & E2)) C1 C2 F1 F2 As At Ls Lt.
  destruct (set_text h a nm fs cs d None [] slots "source" i1 c1 m1 b1 t1 (codes s) Ea Ed C1 F1 S1 E1 As Ls) as (h1 & u1 & X1 & Y1 & Z1 & R1).
  assert (nth_error h1 a = Some (CComp nm false fs cs d None [])) as Ea1 by (rewrite R1 by congruence; exact Ea).
  assert (nth_error h1 d = Some (CDict slots)) as Ed1 by (rewrite R1 by congruence; exact Ed).
  assert (nth_error h1 b2 = Some (CArr true (APrim KUint 8 c2) m2 t2)) as E21 by (rewrite R1 by congruence; exact E2).
  destruct (set_text h1 a nm fs cs d None [] slots "text" i2 c2 m2 b2 t2 (codes t) Ea1 Ed1 C2 F2 S2 E21 At Lt) as (h2 & u2 & X2 & Y2 & Z2 & R2).
  assert (nth_error h2 a = Some (CComp nm false fs cs d None [])) as Ea2 by (rewrite R2 by congruence; exact Ea1).
  assert (nth_error h2 d = Some (CDict slots)) as Ed2 by (rewrite R2 by congruence; exact Ed1).
  assert (nth_error h2 b1 = Some (CArr true (APrim KUint 8 c1) m1 u1)) as E12 by (rewrite R2 by congruence; exact Y1).
  exists h2. split; [|split; [|split; [|split]]].
  - intros k. change (str s) with (PStr (codes s)). change (str t) with (PStr (codes t)). rewrite X1. apply X2.
  - unfold texts. eauto 20.
  - exists b1. rewrite (plain_read h2 a nm fs cs d None [] slots "source" i1 _ b1 Ea2 Ed2 C1 F1 S1). split; [reflexivity|].
    cbn [step fst]. unfold arr_decode in *. rewrite E12. rewrite Y1 in Z1. rewrite Z1. reflexivity.
  - exists b2. rewrite (plain_read h2 a nm fs cs d None [] slots "text" i2 _ b2 Ea2 Ed2 C2 F2 S2). split; [reflexivity|].
    cbn [step fst]. rewrite Z2. reflexivity.
  - intros c N1 N2. rewrite R2, R1 by assumption. reflexivity.
Qed.

Lemma log_messages class h nm fs cs i1 i2 c1 c2 m1 m2 : class "uavcan.protocol.debug.LogMessage"%string = AComp nm false fs cs ->
  ~ In "source"%string (map fst cs) -> ~ In "text"%string (map fst cs) ->
  find_field fs "source" = Some (i1, AArr true (APrim KUint 8 c1) m1) -> find_field fs "text" = Some (i2, AArr true (APrim KUint 8 c2) m2) ->
  13 <= m1 -> 90 <= m2 ->
  exists a h1 h2 h3, publish_message class h = Sends h1 a (Sends h2 a (Sends h3 a Done)) /\
    Forall2 (fun hi p => holds_text hi a "source" (fst p) /\ holds_text hi a "text" (snd p) /\
      carries h nm fs cs [] ["source"; "text"]%string hi a) [h1; h2; h3] log_texts.
Proof.
  intros CL C1 C2 F1 F2 L1 L2. unfold publish_message. rewrite CL. destruct (fresh h nm fs cs) as (a & h0 & d & sl & E & F & LD & KP).
  rewrite (new_is _ _ _ _ _ _ E).
  destruct (array_slot h h0 h0 a nm fs cs d sl _ "source" i1 _ m1 E F ltac:(intros []) C1 F1) as (b1 & S1 & _ & B1 & N1 & M1).
  destruct (array_slot h h0 h0 a nm fs cs d sl _ "text" i2 _ m2 E F ltac:(intros []) C2 F2) as (b2 & S2 & _ & B2 & N2 & M2).
  destruct (new_cell h nm fs cs a h0 d sl "source" i1 _ m1 E F F1) as (b1' & S1' & X1). rewrite S1 in S1'. injection S1' as <-.
  destruct (new_cell h nm fs cs a h0 d sl "text" i2 _ m2 E F F2) as (b2' & S2' & X2). rewrite S2 in S2'. injection S2' as <-.
  assert (b1 <> b2) as D.
  { apply (apart h nm fs cs a h0 d sl i1 i2 b1 b2 E F); auto. apply (find_apart fs "source" "text" i1 i2 _ _ F1 F2). discriminate. }
  assert (texts h0 a nm fs cs d sl i1 i2 b1 b2 c1 c2 m1 m2) as T0.
  { destruct F as (Ea & Ed & _). unfold texts. eauto 20. }
  assert ((Forall (fun p => Forall (fun c => (c < 128)%N) (codes (fst p)) /\ Forall (fun c => (c < 128)%N) (codes (snd p)) /\
     List.length (codes (fst p)) <= m1 /\ List.length (codes (snd p)) <= m2) log_texts)) as OK.
  { assert (forall l, forallb (fun c => (c <? 128)%N) l = true -> Forall (fun c => (c < 128)%N) l) as A.
    { intros l H. apply Forall_forall. intros x I. apply (proj1 (forallb_forall _ _) H) in I. lia. }
    unfold log_texts. repeat (apply Forall_cons; [cbn [fst snd]; split; [apply A; reflexivity|]; split; [apply A; reflexivity|];
      split; [eapply Nat.le_trans; [|exact L1]; apply Nat.leb_le; reflexivity|eapply Nat.le_trans; [|exact L2]; apply Nat.leb_le; reflexivity]|]).
    constructor. }
  unfold log_texts in OK.
  apply Forall_cons_iff in OK as ((P1 & P2 & P3 & P4) & OK). apply Forall_cons_iff in OK as ((P5 & P6 & P7 & P8) & OK).
  apply Forall_cons_iff in OK as ((P9 & P10 & P11 & P12) & _).
  destruct (both h0 a nm fs cs d sl i1 i2 b1 b2 c1 c2 m1 m2 _ _ T0 C1 C2 F1 F2 P1 P2 P3 P4) as (h1 & Y1 & T1 & H1 & H1' & R1).
  destruct (both h1 a nm fs cs d sl i1 i2 b1 b2 c1 c2 m1 m2 _ _ T1 C1 C2 F1 F2 P5 P6 P7 P8) as (h2 & Y2 & T2 & H2 & H2' & R2).
  destruct (both h2 a nm fs cs d sl i1 i2 b1 b2 c1 c2 m1 m2 _ _ T2 C1 C2 F1 F2 P9 P10 P11 P12) as (h3 & Y3 & T3 & H3 & H3' & R3).
  cbn [fst snd] in Y1, Y2, Y3. rewrite Y1, Y2, Y3. exists a, h1, h2, h3. split; [reflexivity|].
  assert (forall hi, (forall c, c <> b1 -> c <> b2 -> nth_error hi c = nth_error h0 c) -> carries h nm fs cs [] ["source"; "text"]%string hi a) as CA.
  { intros hi R. destruct F as (Ea & Ed & _). exists h0. split; [exact E|]. split; [intros f v []|]. split.
    - intros f _ _. apply (same_reads h0 hi a nm fs cs d None [] f Ea); apply R; congruence.
    - intros c Hc. rewrite R by lia. exact (KP c Hc). }
  constructor; [|constructor; [|constructor; [|constructor]]]; cbn [fst snd]; (split; [assumption|split; [assumption|]]); apply CA; intros c Q1 Q2.
  - apply R1; assumption.
  - rewrite R2, R1 by assumption. reflexivity.
  - rewrite R3, R2, R1 by assumption. reflexivity.
Qed.

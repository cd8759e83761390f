(** Facts of comparing message objects. *)
From Coq Require Import String.
From Verif.Base Require Import Prelude Bits.
From Verif.Model Require Import BitCodec Types Codec Prim Float Utf8 ObjectApi ObjectEq.
From Verif.Spec Require Import PrimSpec CodecSpec ObjectSpec ObjectEqSpec.
From Verif.Proofs Require Import CodecFacts PrimFacts Utf8Facts ObjectArrays ObjectText.
Open Scope list_scope.

Lemma str_eq_spec s : forall t, str_eq s t = true <-> s = t.
Proof.
  induction s as [|x s IH]; intros [|y t]; cbn; try (split; congruence).
  rewrite Bool.andb_true_iff, N.eqb_eq, IH. split; [intros (-> & ->); reflexivity|intros E; injection E as -> ->; auto].
Qed.


Lemma ints_eq fuel h xs : forall ys,
  exists b, lists_eq (py_eq (S fuel) h) (map PInt xs) (map PInt ys) = Ok b /\ (b = true <-> xs = ys).
Proof.
  unfold lists_eq. intros ys. rewrite !map_length.
  destruct (Nat.eqb_spec (List.length xs) (List.length ys)) as [L|L].
  2:{ exists false. split; [reflexivity|]. split; [discriminate|]. intros ->. congruence. }
  revert ys L. induction xs as [|i xs IH]; intros [|j ys] L; try discriminate.
  - exists true. split; [reflexivity|split; reflexivity].
  - cbn [map items_eq same_object py_eq bind].
    destruct (Z.eqb_spec i j) as [->|NE].
    + destruct (IH ys ltac:(cbn in L; lia)) as (b & E & B). exists b. split; [exact E|]. rewrite B.
      split; [intros ->; reflexivity|intros X; injection X as ->; reflexivity].
    + exists false. split; [reflexivity|]. split; [discriminate|]. intros X. injection X as -> ->. congruence.
Qed.

Lemma at_is_array h a et mx : array_at h a et mx -> is_array h a = true.
Proof. intros (dyn & items & E). unfold is_array. rewrite E. reflexivity. Qed.

Lemma at_iterate h a et mx vs : array_at h a et mx -> reads_as h a vs -> iterate h (PRef a) = Ok vs.
Proof. intros A R. apply yields_iterate. right. exists a, et, mx. auto. Qed.

(** An array of integers and a list, either way round. *)
Lemma eq_list fuel h a et mx xs ys : array_at h a et mx -> reads_as h a (map PInt xs) ->
  exists b, py_eq (S (S fuel)) h (PRef a) (PList (map PInt ys)) = Ok b /\
    py_eq (S (S fuel)) h (PList (map PInt ys)) (PRef a) = Ok b /\ (b = true <-> xs = ys).
Proof.
  intros A R. destruct (ints_eq fuel h xs ys) as (b & E & B). exists b.
  pose proof (at_is_array _ _ _ _ A) as IA. pose proof (at_iterate _ _ _ _ _ A R) as IT.
  remember (S fuel) as f1 eqn:F. cbn [py_eq]. rewrite IA, IT. cbn [bind]. auto.
Qed.

(** Two arrays of integers. *)
Lemma eq_arrays fuel h a1 et1 mx1 a2 et2 mx2 xs ys : array_at h a1 et1 mx1 -> reads_as h a1 (map PInt xs) ->
  array_at h a2 et2 mx2 -> reads_as h a2 (map PInt ys) ->
  exists b, py_eq (S (S fuel)) h (PRef a1) (PRef a2) = Ok b /\ (b = true <-> xs = ys).
Proof.
  intros A R A2 R2. destruct (ints_eq fuel h ys xs) as (b & E & B). exists b.
  pose proof (at_is_array _ _ _ _ A) as IA. pose proof (at_iterate _ _ _ _ _ A R) as IT.
  pose proof (at_is_array _ _ _ _ A2) as IA2. pose proof (at_iterate _ _ _ _ _ A2 R2) as IT2.
  remember (S fuel) as f1 eqn:F. cbn [py_eq]. rewrite IA, IT. cbn [bind]. rewrite IA2, IT2. cbn [bind].
  split; [exact E|]. rewrite B. split; auto.
Qed.

(** Items of one integer type that read alike have the same bits. *)
Lemma get_int_inj k n b1 b2 z : int_type k n -> List.length b1 = n -> List.length b2 = n ->
  get_int k n b1 = Some z -> get_int k n b2 = Some z -> b1 = b2.
Proof.
  intros T L1 L2 G1 G2.
  assert (N_of_bits b1 = N_of_bits b2) as E; [|apply N_of_bits_inj; congruence].
  pose proof (N_of_bits_lt b1) as B1. pose proof (N_of_bits_lt b2) as B2. rewrite L1 in B1. rewrite L2 in B2.
  unfold get_int in *. destruct b1 as [|x1 b1]; [discriminate|]. destruct b2 as [|x2 b2]; [discriminate|].
  set (u := N_of_bits (x1 :: b1)) in *. set (w := N_of_bits (x2 :: b2)) in *. clearbody u w.
  destruct k; cbn [int_type] in T.
  - subst n. injection G1 as G1. injection G2 as G2. change (2 ^ N.of_nat 1)%N with 2%N in *.
    destruct (Z.eqb_spec (Z.of_N u) 0); destruct (Z.eqb_spec (Z.of_N w) 0); lia.
  - injection G1 as G1. injection G2 as G2. lia.
  - rewrite !Z.shiftl_1_l in *. injection G1 as G1. injection G2 as G2.
    assert (Z.of_N u < 2 ^ Z.of_nat n /\ Z.of_N w < 2 ^ Z.of_nat n)%Z as (U & W).
    { rewrite <- nat_N_Z, <- (N2Z.inj_pow 2). lia. }
    set (p := (2 ^ Z.of_nat n)%Z) in *. set (q := (2 ^ (Z.of_nat n - 1))%Z) in *.
    assert (p = 2 * q)%Z as P. { unfold p, q. rewrite <- Z.pow_succ_r by lia. f_equal. lia. }
    clearbody p q.
    destruct (Z.leb_spec q (Z.of_N u)); destruct (Z.leb_spec q (Z.of_N w)); lia.
  - contradiction.
Qed.

Lemma same_items k n cm1 cm2 items1 : int_type k n -> forall items2 vs,
  Forall (full n) items1 -> Forall (full n) items2 ->
  Forall2 (holds (APrim k n cm1)) items1 vs -> Forall2 (holds (APrim k n cm2)) items2 vs -> items1 = items2.
Proof.
  intros T. induction items1 as [|s1 items1 IH]; intros items2 vs F1 F2 H1 H2.
  - inversion H1; subst. inversion H2; subst. reflexivity.
  - inversion H1 as [|? v ? vs' X1 Y1]; subst. inversion H2 as [|s2 ? items2' ? X2 Y2]; subst.
    apply Forall_cons_iff in F1 as ((b1 & -> & L1) & F1). apply Forall_cons_iff in F2 as ((b2 & -> & L2) & F2).
    f_equal; [f_equal|exact (IH _ _ F1 F2 Y1 Y2)].
    assert (n <> 0) as NZ by (destruct k; cbn in T; lia || contradiction).
    unfold holds, item_value in X1, X2.
    destruct b1 as [|x1 b1]; [cbn in L1; congruence|]. destruct b2 as [|x2 b2]; [cbn in L2; congruence|].
    unfold prim_get in X1, X2.
    assert (forall b w, get_int k n (b :: w) <> None) as NN.
    { intros b w. destruct k; cbn in *; try discriminate. contradiction. }
    destruct (get_int k n (x1 :: b1)) as [z1|] eqn:G1; [|exfalso; exact (NN _ _ G1)].
    destruct (get_int k n (x2 :: b2)) as [z2|] eqn:G2; [|exfalso; exact (NN _ _ G2)].
    apply (get_int_inj k n _ _ z1 T L1 L2 G1). rewrite G2. destruct k; try contradiction; congruence.
Qed.

(** Text. *)
Lemma eq_text fuel h a dyn et mx items s bs : nth_error h a = Some (CArr dyn et mx items) ->
  string_like dyn et = true -> arr_to_bytes h a = Ok bs ->
  (py_eq (S fuel) h (PRef a) (PStr s) = Ok true <-> utf8_encode s = Ok bs) /\
  ((exists t, utf8_encode t = Ok bs) -> exists b, py_eq (S fuel) h (PRef a) (PStr s) = Ok b) /\
  (~ (exists t, utf8_encode t = Ok bs) -> exists e, py_eq (S fuel) h (PRef a) (PStr s) = Err e).
Proof.
  intros E SL B. assert (arr_decode h a = utf8_decode bs) as D.
  { unfold arr_decode. rewrite E, SL. unfold arr_to_bytes in B. rewrite E in B. cbn [negb]. rewrite B. reflexivity. }
  assert (is_array h a = true) as IA by (unfold is_array; rewrite E; reflexivity).
  cbn [py_eq]. rewrite IA, D. destruct (utf8_decode bs) as [t|e] eqn:U; cbn [bind].
  - split; [|split].
    + split.
      * intros X. injection X as X. apply str_eq_spec in X as <-. apply utf8_encode_decode. exact U.
      * intros X. f_equal. apply str_eq_spec. apply utf8_decode_encode in X. congruence.
    + eauto.
    + intros X. exfalso. apply X. exists t. apply utf8_encode_decode. exact U.
  - split; [|split].
    + split; [discriminate|]. intros X. apply utf8_decode_encode in X. congruence.
    + intros (t & X). apply utf8_decode_encode in X. congruence.
    + eauto.
Qed.

(** A field that was given a text is equal to that text and no other. *)
Lemma eq_assigned fuel s h a nm b mx : text_field h a nm b KUint mx -> Forall scalar s -> utf8_size s <= mx ->
  exists h', setattr h a nm (PStr s) = (Ok PNone, h') /\ field_array h' a nm b /\
    forall t, exists r, py_eq (S fuel) h' (PRef b) (PStr t) = Ok r /\ (r = true <-> t = s).
Proof.
  intros T F L. destruct (assign_text s h a nm b mx T F L) as (h' & E & A & D).
  exists h'. split; [exact E|]. split; [exact A|]. intros t.
  assert (is_array h' b = true) as IA.
  { unfold is_array. unfold arr_decode in D. destruct (nth_error h' b) as [[]|]; try discriminate. reflexivity. }
  cbn [py_eq]. rewrite IA, D. cbn [bind]. eexists. split; [reflexivity|]. rewrite str_eq_spec. split; congruence.
Qed.

(** An array of objects compares the objects by identity. *)
Lemma objects_eq fuel h xs : forall ys, Forall (fun a => is_array h a = false) (xs ++ ys) ->
  exists b, lists_eq (py_eq (S fuel) h) (map PRef xs) (map PRef ys) = Ok b /\ (b = true <-> xs = ys).
Proof.
  unfold lists_eq. intros ys. rewrite !map_length.
  destruct (Nat.eqb_spec (List.length xs) (List.length ys)) as [L|L].
  2:{ exists false. split; [reflexivity|]. split; [discriminate|]. intros ->. congruence. }
  revert ys L. induction xs as [|i xs IH]; intros [|j ys] L F; try discriminate.
  - exists true. split; [reflexivity|split; reflexivity].
  - apply Forall_app in F as (F1 & F2). apply Forall_cons_iff in F1 as (I & F1). apply Forall_cons_iff in F2 as (J & F2).
    cbn [map items_eq same_object py_eq bind].
    destruct (Nat.eqb_spec i j) as [->|NE].
    + destruct (IH ys ltac:(cbn in L; lia)) as (b & E & B); [apply Forall_app; auto|].
      exists b. split; [exact E|]. rewrite B.
      split; [intros ->; reflexivity|intros X; injection X as ->; reflexivity].
    + rewrite I, J. cbn [bind]. exists false. split; [reflexivity|]. split; [discriminate|].
      intros X. injection X as -> ->. congruence.
Qed.
Lemma eq_objects fuel h a1 et1 mx1 a2 et2 mx2 xs ys : array_at h a1 et1 mx1 -> reads_as h a1 (map PRef xs) ->
  array_at h a2 et2 mx2 -> reads_as h a2 (map PRef ys) -> Forall (fun a => is_array h a = false) (xs ++ ys) ->
  exists b, py_eq (S (S fuel)) h (PRef a1) (PRef a2) = Ok b /\ (b = true <-> xs = ys).
Proof.
  intros A R A2 R2 F. destruct (objects_eq fuel h ys xs) as (b & E & B).
  { apply Forall_app in F as (F1 & F2). apply Forall_app. auto. }
  exists b.
  pose proof (at_is_array _ _ _ _ A) as IA. pose proof (at_iterate _ _ _ _ _ A R) as IT.
  pose proof (at_is_array _ _ _ _ A2) as IA2. pose proof (at_iterate _ _ _ _ _ A2 R2) as IT2.
  remember (S fuel) as f1 eqn:Q. cbn [py_eq]. rewrite IA, IT. cbn [bind]. rewrite IA2, IT2. cbn [bind].
  split; [exact E|]. rewrite B. split; auto.
Qed.

(** Equal arrays of one integer type have the same bits, and the other way
    round. *)
Lemma eq_bits fuel h a1 k n cm1 mx1 a2 cm2 mx2 xs ys items1 items2 : int_type k n ->
  array_at h a1 (APrim k n cm1) mx1 -> reads_as h a1 (map PInt xs) -> items_of h a1 = Some items1 -> Forall (full n) items1 ->
  array_at h a2 (APrim k n cm2) mx2 -> reads_as h a2 (map PInt ys) -> items_of h a2 = Some items2 -> Forall (full n) items2 ->
  (py_eq (S (S fuel)) h (PRef a1) (PRef a2) = Ok true <-> items1 = items2).
Proof.
  intros T A1 R1 I1 F1 A2 R2 I2 F2.
  destruct (eq_arrays fuel h _ _ _ _ _ _ _ _ A1 R1 A2 R2) as (b & E & B). rewrite E.
  destruct A1 as (d1 & l1 & E1). destruct A2 as (d2 & l2 & E2).
  unfold items_of in I1, I2. rewrite E1 in I1. rewrite E2 in I2. injection I1 as ->. injection I2 as ->.
  apply (reads_items _ _ _ _ _ _ _ E1) in R1. apply (reads_items _ _ _ _ _ _ _ E2) in R2.
  split.
  - intros X. injection X as ->. destruct B as (B & _). specialize (B eq_refl). subst ys.
    exact (same_items k n cm1 cm2 _ T _ _ F1 F2 R1 R2).
  - intros ->. f_equal. apply B. clear - R1 R2.
    revert ys items2 R1 R2. induction xs as [|x xs IH]; intros ys items2 R1 R2.
    + inversion R1; subst. inversion R2 as [X|]; subst. destruct ys; [reflexivity|discriminate].
    + inversion R1 as [|s ? l ? X1 Y1]; subst. destruct ys as [|y ys]; [inversion R2|].
      inversion R2 as [|? ? ? ? X2 Y2]; subst. f_equal; [|exact (IH _ _ Y1 Y2)].
      unfold holds in *. destruct s as [[|]| |]; cbn [item_value] in X1, X2; congruence.
Qed.

(** Comparing numbers, and arrays of numbers. *)
From Coq Require Import QArith Qpower String.
From Verif.Base Require Import Prelude Bits.
From Verif.Model Require Import BitCodec Types Codec Prim Float Utf8 ObjectApi ObjectEq.
From Verif.Spec Require Import PrimSpec CodecSpec ObjectSpec ObjectEqSpec.
From Verif.Proofs Require Import CodecFacts PrimFacts Utf8Facts ObjectArrays ObjectText ObjectEqFacts.
Open Scope list_scope.
Local Open Scope Z_scope.

Definition signed_z (s : bool) (m : Z) : Z := if s then - m else m.
Lemma signed_q (s : bool) m : (if s then Qopp (inject_Z m) else inject_Z m) = inject_Z (signed_z s m).
Proof. destruct s; [symmetry; apply inject_Z_opp|reflexivity]. Qed.

Lemma two_nz : ~ (2 == 0)%Q.
Proof. discriminate. Qed.

Lemma scaled m e1 e : e <= e1 -> (inject_Z m * 2 ^ e1 == inject_Z (m * 2 ^ (e1 - e)) * 2 ^ e)%Q.
Proof.
  intros L. rewrite inject_Z_mult, Zpower_Qpower by lia. change (inject_Z 2) with 2%Q.
  rewrite <- Qmult_assoc, <- Qpower_plus by exact two_nz. replace (e1 - e + e) with e1 by lia. reflexivity.
Qed.

Lemma fin_eq_iff s1 m1 e1 s2 m2 e2 : fin_eq s1 m1 e1 s2 m2 e2 = true <->
  (inject_Z (signed_z s1 m1) * 2 ^ e1 == inject_Z (signed_z s2 m2) * 2 ^ e2)%Q.
Proof.
  unfold fin_eq. cbv zeta. rewrite Z.eqb_eq. set (e := Z.min e1 e2).
  rewrite (scaled (signed_z s1 m1) e1 e), (scaled (signed_z s2 m2) e2 e) by (unfold e; lia).
  rewrite Qmult_inj_r by (apply Qpower_not_0; exact two_nz). rewrite inject_Z_injective. reflexivity.
Qed.

Definition value_of (x : pyfloat) : option amount := amount_of (PFloat x).
Lemma float_eq_iff x y : float_eq x y = true <->
  exists p q, value_of x = Some p /\ value_of y = Some q /\ same_amount p q.
Proof.
  destruct x as [|a|s1 m1 e1], y as [|b|s2 m2 e2]; cbn [float_eq value_of amount_of];
    try (split; [discriminate|intros (p & q & E1 & E2 & X)]; try discriminate; injection E1 as <-; injection E2 as <-; contradiction).
  - rewrite Bool.eqb_true_iff. split.
    + intros ->. exists (Infinite b), (Infinite b). repeat split.
    + intros (p & q & E1 & E2 & X). injection E1 as <-. injection E2 as <-. exact X.
  - rewrite fin_eq_iff, <- !signed_q. split.
    + intros X. do 2 eexists. split; [reflexivity|]. split; [reflexivity|exact X].
    + intros (p & q & E1 & E2 & X). injection E1 as <-. injection E2 as <-. exact X.
Qed.

Lemma int_float_same z : exists q, value_of (int_float z) = Some (Finite q) /\ (q == inject_Z z)%Q.
Proof.
  unfold int_float, value_of, amount_of. eexists. split; [reflexivity|]. rewrite signed_q.
  change (2 ^ 0)%Q with 1%Q. rewrite Qmult_1_r. unfold signed_z.
  destruct (Z.ltb_spec z 0); [replace (- Z.abs z) with z by lia|replace (Z.abs z) with z by lia]; reflexivity.
Qed.

(** Two numbers, or a NaN and a number. *)
Lemma number_eq fuel h v w : (exists z, v = PInt z) \/ (exists x, v = PFloat x) ->
  (exists z, w = PInt z) \/ (exists x, w = PFloat x) ->
  exists b, py_eq (S fuel) h v w = Ok b /\ (b = true <-> same_number v w).
Proof.
  unfold same_number. intros [(i & ->)|(x & ->)] [(j & ->)|(y & ->)]; cbn [py_eq]; eexists; (split; [reflexivity|]).
  - rewrite Z.eqb_eq. cbn [amount_of]. split.
    + intros ->. do 2 eexists. split; [reflexivity|]. split; reflexivity.
    + intros (p & q & E1 & E2 & X). injection E1 as <-. injection E2 as <-. cbn in X. apply inject_Z_injective, X.
  - rewrite float_eq_iff. destruct (int_float_same i) as (q & E & Q). rewrite E. unfold value_of. cbn [amount_of].
    split; intros (p & r & E1 & E2 & X); injection E1 as <-; (do 2 eexists; split; [reflexivity|]; split; [exact E2|]);
      destruct r; cbn in X |- *; try contradiction; [rewrite <- Q|rewrite Q]; exact X.
  - rewrite float_eq_iff. destruct (int_float_same j) as (q & E & Q). rewrite E. unfold value_of. cbn [amount_of].
    split; intros (p & r & E1 & E2 & X); injection E2 as <-; (do 2 eexists; split; [exact E1|]; split; [reflexivity|]);
      destruct p; cbn in X |- *; try contradiction; [rewrite <- Q|rewrite Q]; exact X.
  - apply float_eq_iff.
Qed.

Lemma is_number_kind v : numeric v -> (exists z, v = PInt z) \/ (exists x, v = PFloat x).
Proof. destruct v; cbn; try contradiction; eauto. Qed.

Lemma numbers_eq fuel h xs : Forall numeric xs -> forall ys, Forall numeric ys ->
  exists b, lists_eq (py_eq (S fuel) h) xs ys = Ok b /\ (b = true <-> Forall2 same_number xs ys).
Proof.
  unfold lists_eq. intros F ys G.
  destruct (Nat.eqb_spec (List.length xs) (List.length ys)) as [L|L].
  2:{ exists false. split; [reflexivity|]. split; [discriminate|]. intros X.
      exfalso. apply L. clear - X. induction X; cbn; congruence. }
  revert ys G L. induction F as [|v xs Hv F IH]; intros [|w ys] G L; try discriminate.
  - exists true. split; [reflexivity|]. split; [constructor|reflexivity].
  - apply Forall_cons_iff in G as (Hw & G).
    assert (same_object v w = false) as SO by (destruct v, w; cbn in *; try contradiction; reflexivity).
    cbn [items_eq]. rewrite SO.
    destruct (number_eq fuel h v w (is_number_kind _ Hv) (is_number_kind _ Hw)) as (b & E & B). rewrite E. cbn [bind].
    destruct b.
    + destruct (IH ys G ltac:(cbn in L; lia)) as (b & E' & B'). exists b. split; [exact E'|]. rewrite B'.
      split; [intros X; constructor; [apply B; reflexivity|exact X]|intros X; inversion X; assumption].
    + exists false. split; [reflexivity|]. split; [discriminate|]. intros X. inversion X; subst. apply B. assumption.
Qed.

Lemma same_number_sym v w : same_number v w -> same_number w v.
Proof.
  intros (x & y & E1 & E2 & X). exists y, x. split; [exact E2|]. split; [exact E1|].
  destruct x, y; cbn in *; try contradiction; symmetry; exact X.
Qed.

Lemma eq_number_list fuel h a et mx vs ws : array_at h a et mx -> reads_as h a vs -> Forall numeric vs -> Forall numeric ws ->
  exists b, py_eq (S (S fuel)) h (PRef a) (PList ws) = Ok b /\
    py_eq (S (S fuel)) h (PList ws) (PRef a) = Ok b /\ (b = true <-> Forall2 same_number vs ws).
Proof.
  intros A R F G. destruct (numbers_eq fuel h vs F ws G) as (b & E & B). exists b.
  pose proof (at_is_array _ _ _ _ A) as IA. pose proof (at_iterate _ _ _ _ _ A R) as IT.
  remember (S fuel) as f1 eqn:Ef. cbn [py_eq]. rewrite IA, IT. cbn [bind]. auto.
Qed.

Lemma eq_number_arrays fuel h a1 et1 mx1 a2 et2 mx2 vs ws : array_at h a1 et1 mx1 -> reads_as h a1 vs ->
  array_at h a2 et2 mx2 -> reads_as h a2 ws -> Forall numeric vs -> Forall numeric ws ->
  exists b, py_eq (S (S fuel)) h (PRef a1) (PRef a2) = Ok b /\ (b = true <-> Forall2 same_number vs ws).
Proof.
  intros A R A2 R2 F G. destruct (numbers_eq fuel h ws G vs F) as (b & E & B). exists b.
  pose proof (at_is_array _ _ _ _ A) as IA. pose proof (at_iterate _ _ _ _ _ A R) as IT.
  pose proof (at_is_array _ _ _ _ A2) as IA2. pose proof (at_iterate _ _ _ _ _ A2 R2) as IT2.
  remember (S fuel) as f1 eqn:Ef. cbn [py_eq]. rewrite IA, IT. cbn [bind]. rewrite IA2, IT2. cbn [bind].
  split; [exact E|]. rewrite B. clear.
  split; intros X; induction X; constructor; try assumption; apply same_number_sym; assumption.
Qed.

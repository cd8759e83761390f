(** A shift register with feedback, of any width and polynomial; both
    checksums are instances. *)
From Verif.Base Require Import Prelude Bits.
From Verif.Spec Require Import CrcSpec.
Local Open Scope N_scope.

Lemma iter_succ_r {A} n (f : A -> A) x : Nat.iter (S n) f x = Nat.iter n f (f x).
Proof. induction n as [|n IH]; [reflexivity|]. cbn in *. f_equal. exact IH. Qed.

Lemma lt_pow2_bits x n : (forall i, n <= i -> N.testbit x i = false) -> x < 2 ^ n.
Proof.
  intros H. destruct (N.eq_dec x 0) as [->|Hx]; [apply N.neq_0_lt_0, N.pow_nonzero; lia|].
  apply N.log2_lt_pow2; [lia|].
  destruct (N.lt_ge_cases (N.log2 x) n) as [|Hge]; [assumption|].
  specialize (H _ Hge). rewrite N.bit_log2 in H by exact Hx. discriminate.
Qed.

Lemma testbit_high x n i : x < 2 ^ n -> n <= i -> N.testbit x i = false.
Proof.
  intros H Hi. destruct (N.eq_dec x 0) as [->|Hx]; [apply N.bits_0|].
  apply N.bits_above_log2. apply N.log2_lt_pow2 in H; lia.
Qed.

Lemma lxor_lt x y n : x < 2 ^ n -> y < 2 ^ n -> N.lxor x y < 2 ^ n.
Proof.
  intros Hx Hy. apply lt_pow2_bits. intros i Hi.
  rewrite N.lxor_spec, (testbit_high x n i), (testbit_high y n i) by assumption. reflexivity.
Qed.

Section Reg.
Variables (w : N) (P : N).
Hypotheses (Hw : 0 < w) (HP : P < 2 ^ w) (Hodd : N.odd P = true).

Definition shl (x : N) : N := (2 * x) mod 2 ^ w.
Definition fb (x : N) : N := if N.testbit x (w - 1) then N.lxor (shl x) P else shl x.
Definition step (x : N) (b : bool) : N := fb (N.lxor x (N.shiftl (N.b2n b) (w - 1))).
Definition reg (x : N) (l : bits) : N := fold_left step l x.

Lemma shl_bit x i : N.testbit (shl x) i = (i <? w) && (0 <? i) && N.testbit x (i - 1).
Proof.
  unfold shl. destruct (N.ltb_spec i w) as [H|H].
  - rewrite N.mod_pow2_bits_low by exact H.
    destruct (N.eq_dec i 0) as [->|Hi].
    + rewrite N.testbit_even_0. reflexivity.
    + replace i with (N.succ (i - 1)) at 1 by lia.
      rewrite N.testbit_even_succ by lia.
      replace (0 <? i) with true by lia. reflexivity.
  - rewrite N.mod_pow2_bits_high by exact H. reflexivity.
Qed.

Lemma shl_lt x : shl x < 2 ^ w.
Proof. apply N.mod_lt. apply N.pow_nonzero. lia. Qed.

Lemma shl_lxor x y : shl (N.lxor x y) = N.lxor (shl x) (shl y).
Proof.
  apply N.bits_inj. intros i. rewrite N.lxor_spec, !shl_bit, N.lxor_spec.
  destruct (i <? w), (0 <? i); cbn; try reflexivity.
Qed.

Lemma fb_lt x : fb x < 2 ^ w.
Proof.
  unfold fb. destruct (N.testbit _ _); [apply lxor_lt; [apply shl_lt|exact HP]|apply shl_lt].
Qed.

Lemma fb_lxor x y : fb (N.lxor x y) = N.lxor (fb x) (fb y).
Proof.
  unfold fb. rewrite shl_lxor, N.lxor_spec.
  destruct (N.testbit x (w - 1)), (N.testbit y (w - 1)); cbn [xorb].
  - apply N.bits_inj. intros i. rewrite !N.lxor_spec.
    destruct (N.testbit (shl x) i), (N.testbit (shl y) i), (N.testbit P i); reflexivity.
  - apply N.bits_inj. intros i. rewrite !N.lxor_spec.
    destruct (N.testbit (shl x) i), (N.testbit (shl y) i), (N.testbit P i); reflexivity.
  - apply N.bits_inj. intros i. rewrite !N.lxor_spec.
    destruct (N.testbit (shl x) i), (N.testbit (shl y) i), (N.testbit P i); reflexivity.
  - reflexivity.
Qed.

Lemma fb_0 : fb 0 = 0.
Proof. unfold fb, shl. rewrite N.bits_0. reflexivity. Qed.

Lemma fb_inj0 x : x < 2 ^ w -> fb x = 0 -> x = 0.
Proof.
  intros Hx. unfold fb. destruct (N.testbit x (w - 1)) eqn:E; intros H.
  - exfalso. apply N.lxor_eq in H.
    assert (N.testbit (shl x) 0 = N.testbit P 0) as H0 by congruence.
    rewrite shl_bit in H0. rewrite (N.bit0_odd P), Hodd in H0. cbn [N.ltb N.compare] in H0.
    rewrite andb_false_r in H0. discriminate.
  - apply N.bits_inj. intros i. rewrite N.bits_0.
    destruct (N.lt_ge_cases i w) as [Hi|Hi]; [|apply (testbit_high x w); assumption].
    destruct (N.eq_dec i (w - 1)) as [->|Hne]; [exact E|].
    assert (N.testbit (shl x) (i + 1) = false) as H0 by (rewrite H; apply N.bits_0).
    rewrite shl_bit in H0. replace (i + 1 <? w) with true in H0 by lia.
    replace (0 <? i + 1) with true in H0 by lia.
    replace (i + 1 - 1) with i in H0 by lia. exact H0.
Qed.

Lemma step_lt x b : step x b < 2 ^ w.
Proof. apply fb_lt. Qed.

Lemma reg_lt x l : x < 2 ^ w -> reg x l < 2 ^ w.
Proof.
  unfold reg. revert x. induction l as [|b l IH]; intros x Hx; [exact Hx|].
  cbn [fold_left]. apply IH, step_lt.
Qed.

Lemma reg_app x a b : reg x (a ++ b) = reg (reg x a) b.
Proof. apply fold_left_app. Qed.

Fixpoint xor_bits (a b : bits) : bits :=
  match a, b with
  | x :: a', y :: b' => xorb x y :: xor_bits a' b'
  | _, _ => []
  end.

Lemma step_lxor x y a b : step (N.lxor x y) (xorb a b) = N.lxor (step x a) (step y b).
Proof.
  unfold step. rewrite <- fb_lxor. f_equal.
  replace (N.shiftl (N.b2n (xorb a b)) (w - 1))
    with (N.lxor (N.shiftl (N.b2n a) (w - 1)) (N.shiftl (N.b2n b) (w - 1))).
  2:{ rewrite <- N.shiftl_lxor. f_equal. destruct a, b; reflexivity. }
  apply N.bits_inj. intros i. rewrite !N.lxor_spec.
  repeat match goal with |- context [N.testbit ?u ?v] => destruct (N.testbit u v) end; reflexivity.
Qed.

Lemma reg_lxor a : forall b x y, length a = length b ->
  reg (N.lxor x y) (xor_bits a b) = N.lxor (reg x a) (reg y b).
Proof.
  unfold reg. induction a as [|c a IH]; intros [|d b] x y H; try discriminate; [reflexivity|].
  cbn [xor_bits fold_left]. rewrite step_lxor. apply IH. cbn in H. lia.
Qed.

(** Zeros keep a zero register and never clear a non-zero one. *)
Lemma step_zero_0 : step 0 false = 0.
Proof. unfold step. cbn [N.b2n]. rewrite N.shiftl_0_l. apply fb_0. Qed.

Lemma reg_zeros_0 n : reg 0 (repeat false n) = 0.
Proof.
  unfold reg. induction n as [|n IH]; [reflexivity|].
  cbn [repeat fold_left]. rewrite step_zero_0. exact IH.
Qed.

Lemma reg_zeros_nz n x : x < 2 ^ w -> x <> 0 -> reg x (repeat false n) <> 0.
Proof.
  unfold reg. revert x. induction n as [|n IH]; intros x Hx H0; [exact H0|].
  cbn [repeat fold_left]. apply IH; [apply step_lt|].
  unfold step. cbn [N.b2n]. rewrite N.shiftl_0_l, N.lxor_0_r.
  intros E. apply H0. apply fb_inj0; assumption.
Qed.

(** Up to [w] bits at once. *)
Lemma N_of_bits_cons b l :
  N_of_bits (b :: l) = N.lxor (N.shiftl (N.b2n b) (N.of_nat (length l))) (N_of_bits l).
Proof.
  change (b :: l) with ([b] ++ l). rewrite N_of_bits_app.
  replace (N_of_bits [b]) with (N.b2n b) by (destruct b; reflexivity).
  rewrite N.shiftl_mul_pow2. pose proof (N_of_bits_lt l) as Hl.
  apply N.bits_inj. intros i. rewrite N.lxor_spec.
  destruct (N.lt_ge_cases i (N.of_nat (length l))) as [Hi|Hi].
  - rewrite N.mul_pow2_bits_low by exact Hi. cbn [xorb].
    rewrite <- (N.mod_pow2_bits_low _ (N.of_nat (length l)) i Hi).
    rewrite N.add_comm, N.mod_add by (apply N.pow_nonzero; lia).
    rewrite N.mod_small by exact Hl. destruct (N.testbit _ _); reflexivity.
  - rewrite (testbit_high (N_of_bits l) (N.of_nat (length l)) i) by assumption.
    rewrite xorb_false_r.
    replace i with ((i - N.of_nat (length l)) + N.of_nat (length l)) by lia.
    rewrite <- !N.div_pow2_bits, N.div_add_l, (N.div_small _ _ Hl), N.add_0_r, N.div_mul
      by (apply N.pow_nonzero; lia). reflexivity.
Qed.

Lemma shl_shiftl x k : x < 2 ^ (w - 1 - k) -> k < w ->
  fb (N.shiftl x k) = N.shiftl x (k + 1).
Proof.
  intros Hx Hk. unfold fb.
  replace (N.testbit (N.shiftl x k) (w - 1)) with false.
  2:{ symmetry. rewrite N.shiftl_spec_high' by lia.
      apply (testbit_high x (w - 1 - k)); [exact Hx|lia]. }
  unfold shl.
  rewrite !N.shiftl_mul_pow2.
  replace (2 * (x * 2 ^ k)) with (x * 2 ^ (k + 1)).
  2:{ rewrite N.add_1_r, N.pow_succ_r'. lia. }
  apply N.mod_small.
  assert (2 ^ w = 2 ^ (w - 1 - k) * 2 ^ (k + 1)) as ->
    by (rewrite <- N.pow_add_r; f_equal; lia).
  apply N.mul_lt_mono_pos_r; [|exact Hx].
  apply N.neq_0_lt_0, N.pow_nonzero. lia.
Qed.

Lemma reg_iter l : N.of_nat (length l) <= w -> forall x,
  Nat.iter (length l) fb (N.lxor x (N.shiftl (N_of_bits l) (w - N.of_nat (length l)))) = reg x l.
Proof.
  induction l as [|b l IH]; intros Hl x.
  - cbn. rewrite N.lxor_0_r. reflexivity.
  - cbn [length] in *. rewrite iter_succ_r.
    cbn [reg fold_left]. unfold reg. cbn [fold_left]. change (fold_left step l (step x b)) with (reg (step x b) l).
    rewrite <- IH by lia. f_equal.
    rewrite N_of_bits_cons, N.shiftl_lxor, N.shiftl_shiftl, <- N.lxor_assoc.
    replace (N.of_nat (length l) + (w - N.of_nat (S (length l)))) with (w - 1) by lia.
    rewrite fb_lxor. unfold step. f_equal.
    rewrite shl_shiftl; [f_equal; lia| |lia].
    replace (w - 1 - (w - N.of_nat (S (length l)))) with (N.of_nat (length l)) by lia.
    apply N_of_bits_lt.
Qed.

Lemma iter_nz n x : x < 2 ^ w -> x <> 0 -> Nat.iter n fb x <> 0.
Proof.
  revert x. induction n as [|n IH]; intros x Hx H0; [exact H0|].
  rewrite iter_succ_r. apply IH; [apply fb_lt|].
  intros E. apply H0, fb_inj0; assumption.
Qed.

Lemma reg_short_nz l : N.of_nat (length l) <= w -> N_of_bits l <> 0 -> reg 0 l <> 0.
Proof.
  intros Hl H0. rewrite <- reg_iter by exact Hl. rewrite N.lxor_0_l.
  apply iter_nz.
  - rewrite N.shiftl_mul_pow2.
    assert (2 ^ w = 2 ^ N.of_nat (length l) * 2 ^ (w - N.of_nat (length l))) as ->
      by (rewrite <- N.pow_add_r; f_equal; lia).
    apply N.mul_lt_mono_pos_r; [|apply N_of_bits_lt].
    apply N.neq_0_lt_0, N.pow_nonzero. lia.
  - rewrite N.shiftl_mul_pow2. intros E. apply N.mul_eq_0 in E as [E|E]; [auto|].
    apply N.pow_nonzero in E; lia.
Qed.

Lemma xor_bits_app a b c d : length a = length c ->
  xor_bits (a ++ b) (c ++ d) = xor_bits a c ++ xor_bits b d.
Proof.
  revert c. induction a as [|x a IH]; intros [|y c] H; try discriminate; [reflexivity|].
  cbn. f_equal. apply IH. cbn in H. lia.
Qed.

Lemma xor_bits_self a : xor_bits a a = repeat false (length a).
Proof. induction a as [|x a IH]; [reflexivity|]. cbn. rewrite xorb_nilpotent, IH. reflexivity. Qed.

Lemma xor_bits_length a : forall b, length a = length b -> length (xor_bits a b) = length a.
Proof.
  induction a as [|x a IH]; intros [|y b] H; try discriminate; [reflexivity|].
  cbn. f_equal. apply IH. cbn in H. lia.
Qed.

Lemma xor_bits_zero a : forall b, length a = length b ->
  N_of_bits (xor_bits a b) = 0 -> a = b.
Proof.
  intros b H E. assert (xor_bits a b = repeat false (length a)) as Hx.
  { apply N_of_bits_inj; [rewrite repeat_length; apply xor_bits_length; exact H|].
    rewrite N_of_bits_zeros. exact E. }
  clear E. revert b H Hx. induction a as [|x a IH]; intros [|y b] H Hx; try discriminate; [reflexivity|].
  cbn in Hx. injection Hx as H1 H2. f_equal.
  - destruct x, y; try reflexivity; discriminate.
  - apply IH; [cbn in H; lia|exact H2].
Qed.

(** No burst of up to [w] bits goes unnoticed. *)
Theorem reg_burst x a b : burst (N.to_nat w) a b -> reg x a <> reg x b.
Proof.
  intros (Hne & pre & c & d & post & -> & -> & Hl & Hlw) E.
  assert (N.lxor (reg x (pre ++ c ++ post)) (reg x (pre ++ d ++ post)) = 0) as H0
    by (rewrite E; apply N.lxor_nilpotent).
  rewrite <- reg_lxor in H0 by (rewrite !app_length; lia).
  rewrite N.lxor_nilpotent in H0.
  rewrite xor_bits_app, xor_bits_app, !xor_bits_self in H0 by (reflexivity || exact Hl).
  rewrite !reg_app, reg_zeros_0 in H0.
  revert H0. apply reg_zeros_nz; [apply reg_lt, N.neq_0_lt_0, N.pow_nonzero; lia|].
  apply reg_short_nz; [rewrite xor_bits_length by exact Hl; lia|].
  intros Hz. apply xor_bits_zero in Hz; [|exact Hl]. congruence.
Qed.

(** The register is a remainder of polynomial division. *)
Definition G : N := 2 ^ w + P.

Lemma G_lxor : G = N.lxor (2 ^ w) P.
Proof.
  unfold G. rewrite N.add_nocarry_lxor; [reflexivity|].
  apply N.bits_inj. intros i. rewrite N.land_spec, N.bits_0, N.pow2_bits_eqb.
  destruct (N.eqb_spec w i) as [E|]; [|reflexivity].
  apply (testbit_high P w); [exact HP|lia].
Qed.

Lemma double_lxor x y : 2 * N.lxor x y = N.lxor (2 * x) (2 * y).
Proof.
  rewrite <- !N.double_spec. apply N.bits_inj. intros i.
  rewrite N.lxor_spec, !N.double_spec.
  destruct (N.eq_dec i 0) as [->|Hi]; [rewrite !N.testbit_even_0; reflexivity|].
  replace i with (N.succ (i - 1)) by lia.
  rewrite !N.testbit_even_succ by lia. apply N.lxor_spec.
Qed.

Lemma mod_split x : x < 2 * 2 ^ w ->
  x mod 2 ^ w = N.lxor x (if N.testbit x w then 2 ^ w else 0).
Proof.
  intros Hx. rewrite <- N.pow_succ_r' in Hx. apply N.bits_inj. intros i.
  rewrite N.lxor_spec. destruct (N.lt_ge_cases i w) as [Hi|Hi].
  - rewrite N.mod_pow2_bits_low by exact Hi.
    destruct (N.testbit x w); [rewrite N.pow2_bits_false by lia|rewrite N.bits_0];
      rewrite xorb_false_r; reflexivity.
  - rewrite N.mod_pow2_bits_high by exact Hi.
    destruct (N.eq_dec i w) as [->|Hne].
    + destruct (N.testbit x w) eqn:E; [rewrite N.pow2_bits_true|rewrite N.bits_0]; reflexivity.
    + rewrite (testbit_high x (N.succ w) i) by (assumption || lia).
      destruct (N.testbit x w); [rewrite N.pow2_bits_false by lia|rewrite N.bits_0]; reflexivity.
Qed.

Lemma fb_G x : x < 2 ^ w ->
  fb x = N.lxor (2 * x) (if N.testbit x (w - 1) then G else 0).
Proof.
  intros Hx. unfold fb, shl. rewrite mod_split by lia.
  replace (N.testbit (2 * x) w) with (N.testbit x (w - 1)).
  2:{ replace w with (N.succ (w - 1)) at 2 by lia. rewrite N.testbit_even_succ by lia. reflexivity. }
  destruct (N.testbit x (w - 1)); [|reflexivity].
  rewrite G_lxor, N.lxor_assoc. reflexivity.
Qed.

Lemma pmul_double q g : pmul (2 * q) g = 2 * pmul q g.
Proof. destruct q; reflexivity. Qed.

Lemma pmul_double1 q g : pmul (2 * q + 1) g = N.lxor (2 * pmul q g) g.
Proof. destruct q; cbn; [reflexivity|]. rewrite N.lxor_comm. reflexivity. Qed.

Theorem reg_remainder x l : x < 2 ^ w ->
  premainder w G
    (N.lxor (N.shiftl x (N.of_nat (length l))) (N.shiftl (N_of_bits l) w)) (reg x l).
Proof.
  intros Hx. split; [apply reg_lt; exact Hx|].
  induction l as [|b l (q & IH)] using rev_ind.
  - exists 0. cbn. rewrite N.shiftl_0_r. rewrite N.lxor_0_r. reflexivity.
  - set (r := reg x l) in *.
    assert (r < 2 ^ w) as Hr by (apply reg_lt; exact Hx).
    rewrite reg_app. fold r. change (reg r [b]) with (step r b). unfold step.
    set (z := N.lxor r (N.shiftl (N.b2n b) (w - 1))).
    assert (z < 2 ^ w) as Hz.
    { apply lxor_lt; [exact Hr|]. rewrite N.shiftl_mul_pow2.
      assert (2 ^ w = 2 * 2 ^ (w - 1)) as ->
        by (rewrite <- N.pow_succ_r'; f_equal; lia).
      apply N.mul_lt_mono_pos_r; [apply N.neq_0_lt_0, N.pow_nonzero; lia|].
      destruct b; cbn; lia. }
    rewrite fb_G by exact Hz.
    exists (2 * q + (if N.testbit z (w - 1) then 1 else 0)).
    replace (pmul (2 * q + (if N.testbit z (w - 1) then 1 else 0)) G)
      with (N.lxor (2 * pmul q G) (if N.testbit z (w - 1) then G else 0)).
    2:{ destruct (N.testbit z (w - 1)); [symmetry; apply pmul_double1|].
        rewrite N.add_0_r, pmul_double, N.lxor_0_r. reflexivity. }
    rewrite app_length, N_of_bits_snoc. cbn [length].
    assert (2 * z = N.lxor (2 * r) (N.shiftl (N.b2n b) w)) as Hz2.
    { unfold z. rewrite double_lxor. f_equal.
      rewrite !N.shiftl_mul_pow2.
      assert (2 ^ w = 2 * 2 ^ (w - 1)) as ->
        by (rewrite <- N.pow_succ_r'; f_equal; lia). lia. }
    rewrite Hz2.
    assert (N.shiftl x (N.of_nat (length l + 1)) = 2 * N.shiftl x (N.of_nat (length l))) as ->.
    { rewrite !N.shiftl_mul_pow2.
      replace (N.of_nat (length l + 1)) with (N.succ (N.of_nat (length l))) by lia.
      rewrite N.pow_succ_r'. lia. }
    assert (N.shiftl (2 * N_of_bits l + N.b2n b) w =
            N.lxor (2 * N.shiftl (N_of_bits l) w) (N.shiftl (N.b2n b) w)) as ->.
    { replace (2 * N_of_bits l + N.b2n b) with (N.lxor (2 * N_of_bits l) (N.b2n b)).
      - rewrite N.shiftl_lxor. f_equal. rewrite !N.shiftl_mul_pow2. lia.
      - destruct b; cbn [N.b2n]; [|rewrite N.lxor_0_r; lia].
        destruct (N_of_bits l); reflexivity. }
    assert (N.lxor (2 * N.shiftl x (N.of_nat (length l))) (2 * N.shiftl (N_of_bits l) w)
            = N.lxor (2 * pmul q G) (2 * r)) as HH.
    { rewrite <- !double_lxor, IH. reflexivity. }
    apply N.bits_inj. intros i. apply (f_equal (fun v => N.testbit v i)) in HH.
    rewrite !N.lxor_spec in *.
    repeat match goal with |- context [N.testbit ?u ?v] => destruct (N.testbit u v) end;
      cbn in *; congruence.
Qed.

(** The remainder is unique. *)
Lemma pmul_log2 q g : q <> 0 -> g <> 0 -> N.log2 (pmul q g) = N.log2 q + N.log2 g /\ pmul q g <> 0.
Proof.
  intros Hq Hg. destruct q as [|q]; [congruence|]. clear Hq. cbn [pmul].
  induction q as [q [IH Hnz]|q [IH Hnz]|]; cbn [pmul_pos].
  - assert (N.log2 (2 * pmul_pos q g) = N.succ (N.log2 (N.pos q) + N.log2 g)) as Hl.
    { rewrite N.log2_double by lia. rewrite IH. reflexivity. }
    assert (N.log2 (N.lxor g (2 * pmul_pos q g)) = N.succ (N.log2 (N.pos q) + N.log2 g)) as Hx.
    { apply N.log2_bits_unique.
      - rewrite N.lxor_spec, <- Hl, N.bit_log2 by lia.
        rewrite N.bits_above_log2 by lia. reflexivity.
      - intros m Hm. rewrite N.lxor_spec, !N.bits_above_log2 by lia. reflexivity. }
    split.
    + rewrite Hx. replace (N.log2 (N.pos q~1)) with (N.succ (N.log2 (N.pos q))); [lia|].
      change (N.pos q~1) with (2 * N.pos q + 1). rewrite N.log2_succ_double by lia. reflexivity.
    + intros E. rewrite E in Hx. cbn in Hx. lia.
  - split; [|lia]. rewrite N.log2_double by lia. rewrite IH.
    change (N.pos q~0) with (2 * N.pos q). rewrite N.log2_double by lia. lia.
  - split; [cbn; reflexivity|exact Hg].
Qed.

Lemma pmul_lxor a : forall b g, pmul (N.lxor a b) g = N.lxor (pmul a g) (pmul b g).
Proof.
  intros b g. revert b.
  induction a as [|a IH|a IH] using N.binary_ind; intros b; [reflexivity| |];
    rewrite ?N.double_spec, ?N.succ_double_spec in *;
    destruct (N.Even_or_Odd b) as [[n ->]|[n ->]].
  - rewrite <- double_lxor, !pmul_double, IH, double_lxor. reflexivity.
  - replace (N.lxor (2 * a) (2 * n + 1)) with (2 * N.lxor a n + 1)
      by (destruct a, n; cbn; try reflexivity; destruct (Pos.lxor _ _); reflexivity).
    rewrite !pmul_double1, pmul_double, IH, double_lxor, N.lxor_assoc. reflexivity.
  - replace (N.lxor (2 * a + 1) (2 * n)) with (2 * N.lxor a n + 1)
      by (destruct a, n; cbn; try reflexivity; destruct (Pos.lxor _ _); reflexivity).
    rewrite !pmul_double1, pmul_double, IH, double_lxor.
    rewrite !N.lxor_assoc, (N.lxor_comm g). reflexivity.
  - replace (N.lxor (2 * a + 1) (2 * n + 1)) with (2 * N.lxor a n)
      by (destruct a, n; cbn; try reflexivity; destruct (Pos.lxor _ _); reflexivity).
    rewrite pmul_double, !pmul_double1, IH, double_lxor.
    apply N.bits_inj. intros i. rewrite !N.lxor_spec.
    repeat match goal with |- context [N.testbit ?u ?v] => destruct (N.testbit u v) end; reflexivity.
Qed.

Theorem remainder_unique m r r' :
  premainder w G m r -> premainder w G m r' -> r = r'.
Proof.
  intros [Hr [q Hq]] [Hr' [q' Hq']].
  assert (pmul (N.lxor q q') G = N.lxor r r') as E.
  { rewrite pmul_lxor. apply N.bits_inj. intros i.
    rewrite Hq in Hq'. apply (f_equal (fun v => N.testbit v i)) in Hq'.
    rewrite !N.lxor_spec in *.
    repeat match goal with |- context [N.testbit ?u ?v] => destruct (N.testbit u v) end;
      cbn in *; congruence. }
  destruct (N.eq_dec (N.lxor q q') 0) as [H0|H0].
  - rewrite H0 in E. cbn in E. apply N.lxor_eq. auto.
  - exfalso. assert (G <> 0) as HG.
    { unfold G. pose proof (N.pow_nonzero 2 w). lia. }
    destruct (pmul_log2 _ G H0 HG) as [Hl Hnz].
    assert (N.log2 G = w) as HlG.
    { unfold G. apply N.log2_unique' with (c := P); (exact HP || lia). }
    rewrite E in Hl, Hnz. pose proof (lxor_lt r r' w Hr Hr') as Hlt.
    apply N.log2_lt_pow2 in Hlt; lia.
Qed.

(** Odd numbers of changed bits, when G is divisible by x + 1. *)
Fixpoint parity_pos (p : positive) : bool :=
  match p with xH => true | xO q => parity_pos q | xI q => negb (parity_pos q) end.
Definition parity (n : N) : bool := match n with N0 => false | Npos p => parity_pos p end.

Lemma parity_double n : parity (2 * n) = parity n.
Proof. destruct n; reflexivity. Qed.

Lemma parity_double1 n : parity (2 * n + 1) = negb (parity n).
Proof. destruct n; reflexivity. Qed.

Lemma parity_lxor a : forall b, parity (N.lxor a b) = xorb (parity a) (parity b).
Proof.
  induction a as [|a IH|a IH] using N.binary_ind; intros b;
    [rewrite N.lxor_0_l; cbn; destruct (parity b); reflexivity| |];
    rewrite ?N.double_spec, ?N.succ_double_spec in *;
    destruct (N.Even_or_Odd b) as [[n ->]|[n ->]].
  - rewrite <- double_lxor, !parity_double. apply IH.
  - replace (N.lxor (2 * a) (2 * n + 1)) with (2 * N.lxor a n + 1)
      by (destruct a, n; cbn; try reflexivity; destruct (Pos.lxor _ _); reflexivity).
    rewrite !parity_double1, parity_double, IH. destruct (parity a), (parity n); reflexivity.
  - replace (N.lxor (2 * a + 1) (2 * n)) with (2 * N.lxor a n + 1)
      by (destruct a, n; cbn; try reflexivity; destruct (Pos.lxor _ _); reflexivity).
    rewrite !parity_double1, parity_double, IH. destruct (parity a), (parity n); reflexivity.
  - replace (N.lxor (2 * a + 1) (2 * n + 1)) with (2 * N.lxor a n)
      by (destruct a, n; cbn; try reflexivity; destruct (Pos.lxor _ _); reflexivity).
    rewrite !parity_double1, parity_double, IH. destruct (parity a), (parity n); reflexivity.
Qed.

Lemma parity_pow2 n : parity (2 ^ n) = true.
Proof.
  induction n as [|n IH] using N.peano_ind; [reflexivity|].
  rewrite N.pow_succ_r', parity_double. exact IH.
Qed.

Definition ones (l : bits) : nat := length (filter (fun b => b) l).

Lemma step_parity x b : parity G = false -> x < 2 ^ w ->
  parity (step x b) = xorb (parity x) b.
Proof.
  intros HG Hx. unfold step.
  assert (N.shiftl (N.b2n b) (w - 1) < 2 ^ w) as Hb.
  { rewrite N.shiftl_mul_pow2.
    assert (2 ^ w = 2 * 2 ^ (w - 1)) as -> by (rewrite <- N.pow_succ_r'; f_equal; lia).
    apply N.mul_lt_mono_pos_r; [apply N.neq_0_lt_0, N.pow_nonzero; lia|].
    destruct b; cbn; lia. }
  rewrite fb_G by (apply lxor_lt; assumption).
  rewrite parity_lxor, parity_double, parity_lxor.
  assert (forall c : bool, parity (if c then G else 0) = false) as -> by (intros []; auto).
  rewrite xorb_false_r. f_equal.
  destruct b; cbn [N.b2n]; [|rewrite N.shiftl_0_l; reflexivity].
  rewrite N.shiftl_1_l. apply parity_pow2.
Qed.

Lemma reg_parity l : parity G = false -> forall x, x < 2 ^ w ->
  parity (reg x l) = xorb (parity x) (Nat.odd (ones l)).
Proof.
  intros HG. induction l as [|b l IH]; intros x Hx; unfold reg, ones; cbn [fold_left filter].
  - destruct (parity x); reflexivity.
  - change (fold_left step l (step x b)) with (reg (step x b) l).
    rewrite IH by apply step_lt. rewrite step_parity by assumption.
    destruct b; cbn [length].
    + rewrite Nat.odd_succ, <- Nat.negb_odd. unfold ones.
      destruct (parity x), (Nat.odd _); reflexivity.
    + rewrite xorb_false_r. reflexivity.
Qed.

Lemma ones_distance a : forall b, length a = length b -> ones (xor_bits a b) = distance a b.
Proof.
  induction a as [|x a IH]; intros [|y b] H; try discriminate; [reflexivity|].
  cbn [xor_bits distance]. unfold ones in *. cbn [filter].
  destruct x, y; cbn [xorb eqb length]; rewrite IH by (cbn in H; lia); reflexivity.
Qed.

Theorem reg_odd x a b : parity G = false -> length a = length b ->
  Nat.odd (distance a b) = true -> reg x a <> reg x b.
Proof.
  intros HG Hl Ho E.
  assert (N.lxor (reg x a) (reg x b) = 0) as H0 by (rewrite E; apply N.lxor_nilpotent).
  rewrite <- reg_lxor, N.lxor_nilpotent in H0 by exact Hl.
  apply (f_equal parity) in H0. rewrite reg_parity in H0.
  - rewrite ones_distance, Ho in H0 by exact Hl. discriminate.
  - exact HG.
  - apply N.neq_0_lt_0, N.pow_nonzero. lia.
Qed.

(** Two changed bits. *)
Lemma ones_zero l : ones l = 0%nat -> l = repeat false (length l).
Proof.
  induction l as [|[] l IH]; unfold ones; cbn; intros H; [reflexivity|discriminate|].
  f_equal. apply IH. exact H.
Qed.

Lemma ones_split l n : ones l = S n ->
  exists i l', l = repeat false i ++ true :: l' /\ ones l' = n.
Proof.
  induction l as [|[] l IH]; unfold ones; cbn; intros H; [discriminate| |].
  - exists 0%nat, l. split; [reflexivity|]. injection H as H. exact H.
  - destruct (IH H) as (i & l' & -> & Hl'). exists (S i), l'. auto.
Qed.

Lemma step0_true : step 0 true = P.
Proof.
  unfold step. rewrite N.lxor_0_l. cbn [N.b2n]. rewrite N.shiftl_1_l.
  unfold fb. rewrite N.pow2_bits_true. unfold shl.
  rewrite <- N.pow_succ_r'. replace (N.succ (w - 1)) with w by lia.
  rewrite N.mod_same by (apply N.pow_nonzero; lia). apply N.lxor_0_l.
Qed.

Lemma reg_zeros_iter n x : reg x (repeat false n) = Nat.iter n fb x.
Proof.
  unfold reg. revert x. induction n as [|n IH]; intros x; [reflexivity|].
  cbn [repeat fold_left]. rewrite IH, iter_succ_r. f_equal.
  unfold step. cbn [N.b2n]. rewrite N.shiftl_0_l, N.lxor_0_r. reflexivity.
Qed.

Theorem reg_two x a b bound : (forall k, (k < bound)%nat -> Nat.iter k fb P <> 2 ^ (w - 1)) ->
  length a = length b -> (length a <= bound)%nat -> distance a b = 2%nat ->
  reg x a <> reg x b.
Proof.
  intros HB Hl Hb H2 E.
  assert (N.lxor (reg x a) (reg x b) = 0) as H0 by (rewrite E; apply N.lxor_nilpotent).
  rewrite <- reg_lxor, N.lxor_nilpotent in H0 by exact Hl.
  rewrite <- ones_distance in H2 by exact Hl.
  pose proof (xor_bits_length a b Hl) as Hlx.
  set (e := xor_bits a b) in *. clearbody e.
  apply ones_split in H2 as (i & l1 & -> & H2).
  apply ones_split in H2 as (j & l2 & -> & H2).
  apply ones_zero in H2. rewrite H2 in H0.
  rewrite !reg_app, reg_zeros_0 in H0.
  change (true :: repeat false j ++ true :: repeat false (length l2))
    with ([true] ++ repeat false j ++ [true] ++ repeat false (length l2)) in H0.
  rewrite !reg_app in H0. change (reg 0 [true]) with (step 0 true) in H0.
  rewrite step0_true, (reg_zeros_iter j) in H0.
  assert (Nat.iter j fb P < 2 ^ w) as Hj by (destruct j; [exact HP|apply fb_lt]).
  revert H0. apply reg_zeros_nz; [apply reg_lt; exact Hj|].
  unfold reg. cbn [fold_left]. unfold step. cbn [N.b2n]. rewrite N.shiftl_1_l.
  intros H0. apply fb_inj0 in H0.
  - apply N.lxor_eq in H0. revert H0. apply HB.
    rewrite !app_length, repeat_length in Hlx. cbn [length] in Hlx.
    rewrite app_length, repeat_length in Hlx. cbn [length] in Hlx. lia.
  - apply lxor_lt; [exact Hj|]. apply N.pow_lt_mono_r; lia.
Qed.

End Reg.

(** Bit strings: Python strings of '0' and '1', first character first. *)
From Verif.Base Require Import Prelude.
Local Open Scope N_scope.

Definition bits := list bool.

(** [int(s, 2)] on a string of binary digits. *)
Definition N_of_bits (s : bits) : N :=
  fold_left (fun acc b => 2 * acc + N.b2n b) s 0.

(** Exactly [w] binary digits of [x], most significant first. *)
Fixpoint bits_of_N (w : nat) (x : N) : bits :=
  match w with
  | O => []
  | S w' => bits_of_N w' (N.div2 x) ++ [N.odd x]
  end.

(** Minimal binary digits of a positive number, most significant first. *)
Fixpoint pos_digits (p : positive) : bits :=
  match p with
  | xH => [true]
  | xO q => pos_digits q ++ [false]
  | xI q => pos_digits q ++ [true]
  end.

Definition bin_digits (x : N) : bits :=
  match x with N0 => [false] | Npos p => pos_digits p end.

(** [format(x, '0' + str(w) + 'b')] for [x >= 0]: minimal digits, padded on
    the left with zeros to at least [w] characters. *)
Definition py_format_b (w : nat) (x : N) : bits :=
  let d := bin_digits x in repeat false (w - length d) ++ d.

Lemma N_of_bits_app a b :
  N_of_bits (a ++ b) = N_of_bits a * 2 ^ N.of_nat (length b) + N_of_bits b.
Proof.
  unfold N_of_bits. rewrite fold_left_app.
  generalize (fold_left (fun acc b => 2 * acc + N.b2n b) a 0). intros x.
  revert x. induction b as [|c b IH]; intros x.
  - cbn [fold_left length]. change (2 ^ N.of_nat 0) with 1. lia.
  - cbn [fold_left length]. rewrite IH.
    rewrite (IH (2 * 0 + N.b2n c)).
    rewrite Nat2N.inj_succ, N.pow_succ_r'. lia.
Qed.

Lemma N_of_bits_snoc a b : N_of_bits (a ++ [b]) = 2 * N_of_bits a + N.b2n b.
Proof.
  rewrite N_of_bits_app. cbn [length]. change (2 ^ N.of_nat 1) with 2.
  unfold N_of_bits at 2. cbn [fold_left]. lia.
Qed.

Lemma N_of_bits_lt s : N_of_bits s < 2 ^ N.of_nat (length s).
Proof.
  induction s as [|b s IH] using rev_ind; [reflexivity|].
  rewrite N_of_bits_snoc, app_length. cbn [length].
  replace (N.of_nat (length s + 1)) with (N.succ (N.of_nat (length s))) by lia.
  rewrite N.pow_succ_r'. destruct b; cbn [N.b2n]; lia.
Qed.

Lemma bits_of_N_length w x : length (bits_of_N w x) = w.
Proof.
  revert x. induction w as [|w IH]; intros x; [reflexivity|].
  cbn [bits_of_N]. rewrite app_length, IH. cbn [length]. lia.
Qed.

Lemma N_of_bits_of_N w x : N_of_bits (bits_of_N w x) = x mod 2 ^ N.of_nat w.
Proof.
  revert x. induction w as [|w IH]; intros x.
  - cbn. rewrite N.mod_1_r. reflexivity.
  - cbn [bits_of_N]. rewrite N_of_bits_snoc, IH.
    replace (N.of_nat (S w)) with (N.succ (N.of_nat w)) by lia.
    rewrite N.pow_succ_r'.
    assert (2 ^ N.of_nat w <> 0) as Hp by (apply N.pow_nonzero; lia).
    pose proof (N.div2_odd x) as Hx.
    change (if N.odd x then 1 else 0) with (N.b2n (N.odd x)) in Hx.
    rewrite (N.mod_mul_r x 2 (2 ^ N.of_nat w)) by lia.
    rewrite <- N.div2_div.
    rewrite <- N.bit0_odd, N.bit0_mod in *. lia.
Qed.

Lemma N_of_bits_of_N_small w x :
  x < 2 ^ N.of_nat w -> N_of_bits (bits_of_N w x) = x.
Proof. intros H. rewrite N_of_bits_of_N. apply N.mod_small. exact H. Qed.

Lemma bits_of_N_of_bits s : bits_of_N (length s) (N_of_bits s) = s.
Proof.
  induction s as [|b s IH] using rev_ind; [reflexivity|].
  rewrite app_length, Nat.add_comm. cbn [length plus bits_of_N].
  rewrite N_of_bits_snoc.
  replace (N.div2 (2 * N_of_bits s + N.b2n b)) with (N_of_bits s).
  2:{ destruct b; cbn [N.b2n].
      - rewrite N.div2_div. lia.
      - rewrite N.div2_div. lia. }
  rewrite IH. f_equal. f_equal.
  rewrite N.add_comm. rewrite N.odd_add_mul_2. destruct b; reflexivity.
Qed.

Lemma N_of_bits_inj a b :
  length a = length b -> N_of_bits a = N_of_bits b -> a = b.
Proof.
  intros Hl Hv. rewrite <- (bits_of_N_of_bits a), <- (bits_of_N_of_bits b).
  rewrite Hl, Hv. reflexivity.
Qed.

Lemma pos_digits_value p : N_of_bits (pos_digits p) = Npos p.
Proof.
  induction p as [p IH|p IH|]; cbn [pos_digits]; [| |reflexivity];
    rewrite N_of_bits_snoc, IH; cbn [N.b2n]; lia.
Qed.

Lemma bin_digits_value x : N_of_bits (bin_digits x) = x.
Proof. destruct x; [reflexivity|apply pos_digits_value]. Qed.

Lemma pos_digits_length p : 2 ^ N.of_nat (length (pos_digits p) - 1) <= Npos p.
Proof.
  induction p as [p IH|p IH|]; cbn [pos_digits]; [| |cbn; lia];
    rewrite app_length; cbn [length];
    destruct (pos_digits p) as [|b l] eqn:E;
    try (pose proof (pos_digits_value p) as V; rewrite E in V; discriminate);
    cbn [length] in *;
    replace (N.of_nat (S (length l) + 1 - 1))
      with (N.succ (N.of_nat (S (length l) - 1))) by lia;
    rewrite N.pow_succ_r'; lia.
Qed.

Lemma bin_digits_length w x : (0 < w)%nat -> x < 2 ^ N.of_nat w ->
  (length (bin_digits x) <= w)%nat.
Proof.
  intros Hw Hx. destruct x as [|p]; [cbn; lia|]. cbn [bin_digits].
  pose proof (pos_digits_length p) as H.
  destruct (le_lt_dec (length (pos_digits p)) w) as [|Hlt]; [assumption|exfalso].
  assert (2 ^ N.of_nat w <= 2 ^ N.of_nat (length (pos_digits p) - 1)).
  { apply N.pow_le_mono_r; lia. }
  lia.
Qed.

Lemma N_of_bits_zeros n : N_of_bits (repeat false n) = 0.
Proof.
  induction n as [|n IH]; [reflexivity|].
  replace (S n) with (n + 1)%nat by lia. rewrite repeat_app. cbn [repeat].
  rewrite N_of_bits_snoc, IH. reflexivity.
Qed.

Lemma py_format_b_fit w x : (0 < w)%nat -> x < 2 ^ N.of_nat w ->
  py_format_b w x = bits_of_N w x.
Proof.
  intros Hw Hx. pose proof (bin_digits_length w x Hw Hx) as Hl.
  apply N_of_bits_inj.
  - unfold py_format_b. rewrite app_length, repeat_length, bits_of_N_length. lia.
  - unfold py_format_b. rewrite N_of_bits_app, N_of_bits_zeros, bin_digits_value.
    rewrite N_of_bits_of_N_small by exact Hx. lia.
Qed.

Lemma nth_bits_of_N w x j : (j < w)%nat ->
  nth j (bits_of_N w x) false = N.testbit x (N.of_nat (w - 1 - j)).
Proof.
  revert x j. induction w as [|w IH]; intros x j Hj; [lia|].
  cbn [bits_of_N].
  destruct (Nat.eq_dec j w) as [->|Hne].
  - rewrite app_nth2 by (rewrite bits_of_N_length; lia).
    rewrite bits_of_N_length, Nat.sub_diag. cbn [nth].
    replace (S w - 1 - w)%nat with 0%nat by lia. symmetry. apply N.bit0_odd.
  - rewrite app_nth1 by (rewrite bits_of_N_length; lia).
    rewrite IH by lia.
    rewrite N.div2_spec, N.shiftr_spec by lia. f_equal. lia.
Qed.

Lemma bits_of_N_app w1 w2 x :
  bits_of_N (w1 + w2) x = bits_of_N w1 (N.shiftr x (N.of_nat w2)) ++ bits_of_N w2 x.
Proof.
  revert x. induction w2 as [|w2 IH]; intros x.
  - rewrite Nat.add_0_r. cbn [bits_of_N]. rewrite app_nil_r.
    change (N.of_nat 0) with 0. rewrite N.shiftr_0_r. reflexivity.
  - replace (w1 + S w2)%nat with (S (w1 + w2)) by lia. cbn [bits_of_N].
    rewrite IH, <- app_assoc. f_equal. f_equal.
    rewrite N.div2_spec, N.shiftr_shiftr. f_equal. lia.
Qed.

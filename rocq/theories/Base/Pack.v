(** Little-endian integers of the [struct] module. *)
From Verif.Base Require Import Prelude.
Local Open Scope N_scope.

(** The [n] bytes of [x], least significant first. *)
Fixpoint le_bytes (n : nat) (x : N) : list N :=
  match n with O => [] | S n => x mod 256 :: le_bytes n (x / 256) end.
(** The value of a little-endian byte string. *)
Fixpoint le_value (l : list N) : N :=
  match l with [] => 0 | b :: l => b + 256 * le_value l end.
(** [struct.pack]: an error if the value does not fit. *)
Definition pack_le (n : nat) (x : Z) : res (list N) :=
  if ((0 <=? x) && (x <? 256 ^ Z.of_nat n))%Z then Ok (le_bytes n (Z.to_N x)) else Err StructError.

Lemma le_bytes_length n : forall x, length (le_bytes n x) = n.
Proof. induction n as [|n IH]; intros x; cbn; [|rewrite IH]; reflexivity. Qed.

Lemma le_bytes_byte n : forall x, Forall (fun b => b < 256) (le_bytes n x).
Proof.
  induction n as [|n IH]; intros x; cbn [le_bytes]; constructor; [|apply IH].
  apply N.mod_lt. discriminate.
Qed.

Lemma le_value_bytes n : forall x, x < 256 ^ N.of_nat n -> le_value (le_bytes n x) = x.
Proof.
  induction n as [|n IH]; intros x H; cbn [le_bytes le_value].
  - cbn in H. lia.
  - rewrite IH.
    + rewrite N.add_comm. symmetry. apply N.div_mod. discriminate.
    + apply N.div_lt_upper_bound; [discriminate|].
      replace (N.of_nat (S n)) with (N.succ (N.of_nat n)) in H by lia.
      rewrite N.pow_succ_r' in H. exact H.
Qed.

Lemma le_value_lt l : Forall (fun b => b < 256) l -> le_value l < 256 ^ N.of_nat (length l).
Proof.
  induction 1 as [|b l H F IH]; cbn [le_value length]; [reflexivity|].
  replace (N.of_nat (S (length l))) with (N.succ (N.of_nat (length l))) by lia.
  rewrite N.pow_succ_r'. set (P := 256 ^ N.of_nat (length l)) in *. lia.
Qed.

Lemma le_bytes_value l : Forall (fun b => b < 256) l -> le_bytes (length l) (le_value l) = l.
Proof.
  induction 1 as [|b l H F IH]; cbn [le_value le_bytes length]; [reflexivity|]. f_equal.
  - rewrite (N.mul_comm 256), N.mod_add by discriminate. apply N.mod_small. exact H.
  - replace ((b + 256 * le_value l) / 256) with (le_value l); [exact IH|].
    rewrite (N.mul_comm 256), N.div_add by discriminate. rewrite (N.div_small b) by exact H. lia.
Qed.

Lemma pack_le_ok n x l : pack_le n x = Ok l ->
  length l = n /\ Forall (fun b => b < 256) l /\ Z.of_N (le_value l) = x.
Proof.
  unfold pack_le. destruct (_ && _)%Z eqn:E; [|discriminate]. intros H. injection H as <-.
  split; [apply le_bytes_length|]. split; [apply le_bytes_byte|].
  rewrite le_value_bytes; [lia|]. apply andb_prop in E as [E1 E2].
  apply N2Z.inj_lt. rewrite N2Z.inj_pow, Z2N.id by lia. rewrite nat_N_Z. change (Z.of_N 256) with 256%Z. lia.
Qed.

Lemma pack_le_fits n x : (0 <= x < 256 ^ Z.of_nat n)%Z -> exists l, pack_le n x = Ok l.
Proof.
  intros H. unfold pack_le. replace (_ && _)%Z with true; [eexists; reflexivity|].
  symmetry. apply andb_true_intro. lia.
Qed.

(** C138: the gap detector. *)
From Coq Require Import QArith.
From Verif.Base Require Import Prelude.
From Verif.Model Require Import FixGap.
From Verif.Spec Require Import FixGapSpec.
From Verif.Proofs Require Import FixGapFacts.
Local Open Scope Z_scope.

(** Each line is right: it tells a gap between neighbouring fixes of the node
    that is longer than the threshold, and the average over all fixes of that
    node; only lines whose average interval is 0 are missing. *)
Theorem C138_lines : forall F fifth smooth is_zero only threshold ms,
  g_out (watch F fifth smooth is_zero only threshold ms)
    = filter (fun l => negb (is_zero (snd l))) (lines_due fifth smooth threshold [] (filter (wanted only) ms)).
Proof. exact watch_lines. Qed.
Print Assumptions C138_lines.

(** Every gap is printed. Missing: clocks that were set back ([C138_gaps_refuted]). *)
Theorem C138_gaps_partial : forall F fifth smooth is_zero only threshold ms,
  positive_average fifth smooth is_zero -> steady (filter (wanted only) ms) ->
  g_out (watch F fifth smooth is_zero only threshold ms) = lines_due fifth smooth threshold [] (filter (wanted only) ms).
Proof. exact watch_all. Qed.
Print Assumptions C138_gaps_partial.

(** Times in milliseconds. *)
Definition ms_smooth (f : Q) (d : Z) : Q := ((9 # 10) * f + (1 # 10) * inject_Z d)%Q.
Definition ms_zero (f : Q) : bool := Qeq_bool f 0.
Lemma ms_positive : positive_average 200%Q ms_smooth ms_zero.
Proof.
  exists (fun f => 0 < f)%Q. split; [reflexivity|]. split.
  - intros f d Hf Hd. unfold ms_smooth. rewrite <- (Qplus_0_l 0). apply Qplus_lt_le_compat.
    + apply Qmult_lt_0_compat; [reflexivity|exact Hf].
    + apply Qmult_le_0_compat; [discriminate|]. unfold Qle. cbn. lia.
  - intros f H. unfold ms_zero. destruct (Qeq_bool f 0) eqn:E; [|reflexivity]. apply Qeq_bool_eq in E. rewrite E in H. discriminate.
Qed.
Definition ms_fixes : list fix2 := [Fix 8 1000; Fix 9 1010; Fix 8 1200; Fix 9 1500; Fix 8 1451; Fix 7 3000; Fix 8 1701].
Example C138_case :
  steady (filter (wanted None) ms_fixes) /\
  map fst (g_out (watch Q 200%Q ms_smooth ms_zero None 250 ms_fixes)) = [(9%N, 490); (8%N, 251)] /\
  map fst (g_out (watch Q 200%Q ms_smooth ms_zero (Some 8%N) 250 ms_fixes)) = [(8%N, 251)].
Proof.
  split; [|vm_compute; repeat split].
  intros n. unfold times_of, ms_fixes. cbn [filter wanted f_node].
  destruct (N.eqb_spec 8 n) as [<-|H8]; [vm_compute; repeat constructor; discriminate|].
  destruct (N.eqb_spec 9 n) as [<-|H9]; [vm_compute; repeat constructor; discriminate|].
  destruct (N.eqb_spec 7 n) as [<-|H7]; vm_compute; constructor.
Qed.

(** The clock is set back by ten seconds and on by 7.38: the average is 0, and
    the gap is not printed. *)
Theorem C138_gaps_refuted : exists F fifth smooth is_zero only threshold ms,
  positive_average fifth smooth is_zero /\
  g_out (watch F fifth smooth is_zero only threshold ms) <> lines_due fifth smooth threshold [] (filter (wanted only) ms).
Proof.
  exists Q, 200%Q, ms_smooth, ms_zero, None, 250, [Fix 8 20000; Fix 8 10000; Fix 8 17380].
  split; [exact ms_positive|]. vm_compute. discriminate.
Qed.
Print Assumptions C138_gaps_refuted.

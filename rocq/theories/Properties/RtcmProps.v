(** C137: the RTCM dump. *)
From Coq Require Import QArith Sorting.Sorted.
From Verif.Base Require Import Prelude.
From Verif.Model Require Import RtcmDump.
From Verif.Spec Require Import RtcmSpec.
From Verif.Proofs Require Import RtcmFacts.
Local Open Scope Z_scope.

(** Without --stats: one line for each packet in the stream, in order, however
    the stream was divided into messages. *)
Theorem C137_listing : forall D F read packet is_empty (diff : Z -> Z -> F) blend is_zero clk second (d : D) msgs,
  never_raises read ->
  rt_out (dump D F read packet is_empty diff blend is_zero clk second false d msgs)
    = map (fun p => LPacket (snd (fst p)) (fst (fst p))) (decoded read packet is_empty d 0 (concat msgs)).
Proof. intros. apply plain_dump. assumption. Qed.
Print Assumptions C137_listing.

(** With --stats: a report each time two seconds are over, which says how many
    packets of each kind there were since the last one. *)
Theorem C137_counts : forall D F read packet is_empty (diff : Z -> Z -> F) blend is_zero clk second (d : D) msgs,
  never_raises read -> later_each_time clk -> positive_intervals diff blend is_zero ->
  reports_right [] (stretches clk second 0 0 [] (decoded read packet is_empty d 0 (concat msgs)))
    (rt_out (dump D F read packet is_empty diff blend is_zero clk second true d msgs)).
Proof. intros. destruct H1 as (pos & P1 & P2 & P3). eapply stats_dump; eassumption. Qed.
Print Assumptions C137_counts.

(** The file is the stream. Missing: two packets of a kind at the same reading
    of the clock with --stats ([C137_file_refuted]). *)
Theorem C137_file_partial : forall D F read packet is_empty (diff : Z -> Z -> F) blend is_zero clk second stats (d : D) msgs,
  never_raises read -> stats = false \/ later_each_time clk /\ positive_intervals diff blend is_zero ->
  rt_file (dump D F read packet is_empty diff blend is_zero clk second stats d msgs) = concat msgs.
Proof.
  intros. destruct stats; [|apply plain_dump; assumption].
  destruct H0 as [H0|(H0 & pos & P1 & P2 & P3)]; [discriminate|]. eapply stats_dump; eassumption.
Qed.
Print Assumptions C137_file_partial.

(** A decoder of packets 0xD3, length, id, data. *)
Definition toy_done (p : list N) : bool := match p with _ :: n :: _ => Nat.eqb (length p) (3 + N.to_nat n) | _ => false end.
Definition toy_read (p : list N) (b : N) : list N * option bool :=
  let p := if toy_done p then [] else p in
  let p := match p with [] => if N.eqb b 0xD3 then [b] else [] | _ => p ++ [b] end in
  (p, Some (toy_done p)).
Definition toy_packet (p : list N) : pkey := (nth 2 p 0%N, N.of_nat (length p)).
Definition toy_empty (p : list N) : bool := match p with [] => true | _ => false end.
Lemma toy_quiet : never_raises toy_read.
Proof. intros d b. discriminate. Qed.
Definition q_diff (a b : Z) : Q := inject_Z (a - b).
Definition q_blend (f g : Q) : Q := ((9 # 10) * f + (1 # 10) * g)%Q.
Definition q_zero (f : Q) : bool := Qeq_bool f 0.
Lemma q_positive : positive_intervals q_diff q_blend q_zero.
Proof.
  exists (fun f => 0 < f)%Q. split; [|split].
  - intros a b H. unfold q_diff, Qlt. cbn. lia.
  - intros f g Hf Hg. unfold q_blend. rewrite <- (Qplus_0_l 0).
    apply Qplus_lt_le_compat; [|apply Qlt_le_weak]; (apply Qmult_lt_0_compat; [reflexivity|assumption]).
  - intros f H. unfold q_zero. destruct (Qeq_bool f 0) eqn:E; [|reflexivity]. apply Qeq_bool_eq in E. rewrite E in H. discriminate.
Qed.
Definition toy_dump (clk : nat -> Z) (stats : bool) (msgs : list (list N)) : rtcm (list N) Q :=
  dump _ _ toy_read toy_packet toy_empty q_diff q_blend q_zero clk 10 stats [] msgs.
Definition toy_kind (id len : N) : list N := 0xD3%N :: len :: id :: repeat 7%N (N.to_nat len).
(** A packet cut by the border of two messages, noise, two kinds of packets. *)
Definition toy_msgs : list (list N) :=
  [toy_kind 5 2 ++ [1; 2; 0xD3]; [2; 5; 9; 9] ++ toy_kind 4 1; toy_kind 5 2 ++ toy_kind 4 1 ++ toy_kind 5 2; [8] ++ toy_kind 4 1;
   toy_kind 4 1 ++ toy_kind 4 1]%N.
Definition toy_clk (n : nat) : Z := 4 + 6 * Z.of_nat n.
Lemma toy_later : later_each_time toy_clk.
Proof. intros n. unfold toy_clk. lia. Qed.
Example C137_listing_case :
  rt_out (toy_dump toy_clk false toy_msgs) =
    [LPacket 5 5; LPacket 5 5; LPacket 4 4; LPacket 5 5; LPacket 4 4; LPacket 5 5; LPacket 4 4; LPacket 4 4; LPacket 4 4]%N.
Proof. vm_compute. reflexivity. Qed.
Definition toy_lines (l : list (line Q)) : list (line unit) :=
  map (fun x => match x with LLost n => LLost n | LRow a b o c => LRow a b (option_map (fun _ => tt) o) c | LTotal n => LTotal n | LPacket a b => LPacket a b end) l.
Example C137_counts_case :
  toy_lines (rt_out (toy_dump toy_clk true toy_msgs)) =
    [LLost 2; LRow 5 5 (Some tt) 3; LTotal 5; LLost 3; LRow 4 4 (Some tt) 3; LRow 5 5 (Some tt) 1; LTotal 9]%N /\
  rt_file (toy_dump toy_clk true toy_msgs) = concat toy_msgs.
Proof. vm_compute. repeat split. Qed.

(** With --stats, two packets of a kind at the same reading of the clock, two
    messages of which the second is not written. *)
Theorem C137_file_refuted : exists D F read packet is_empty (diff : Z -> Z -> F) blend is_zero clk second (d : D) msgs,
  never_raises read /\ positive_intervals diff blend is_zero /\ (forall n, clk n <= clk (S n)) /\
  rt_file (dump D F read packet is_empty diff blend is_zero clk second true d msgs) <> concat msgs.
Proof.
  exists _, _, toy_read, toy_packet, toy_empty, q_diff, q_blend, q_zero, (fun n => if Nat.ltb n 2 then 1 else 100), 10, [],
    [toy_kind 5 2; toy_kind 5 2 ++ toy_kind 4 1]%N.
  split; [exact toy_quiet|]. split; [exact q_positive|]. split.
  - intros n. destruct n as [|[|n]]; cbn; lia.
  - vm_compute. discriminate.
Qed.
Print Assumptions C137_file_refuted.

(** A packet that no report counts: the only one of its kind. *)
Theorem C137_counted_refuted : exists D F read packet is_empty (diff : Z -> Z -> F) blend is_zero clk second (d : D) msgs w lost k,
  never_raises read /\ later_each_time clk /\ positive_intervals diff blend is_zero /\
  In (w, lost) (stretches clk second 0 0 [] (decoded read packet is_empty d 0 (concat msgs))) /\ In k w /\
  forall o c, ~ In (LRow (fst k) (snd k) o c) (rt_out (dump D F read packet is_empty diff blend is_zero clk second true d msgs)).
Proof.
  exists _, _, toy_read, toy_packet, toy_empty, q_diff, q_blend, q_zero, toy_clk, 10, [],
    [toy_kind 5 2; toy_kind 6 2 ++ toy_kind 5 2; toy_kind 5 2 ++ toy_kind 5 2]%N, [(5, 5); (6, 5); (5, 5); (5, 5)]%N, 0%N, (6, 5)%N.
  split; [exact toy_quiet|]. split; [exact toy_later|]. split; [exact q_positive|].
  split; [vm_compute; left; reflexivity|]. split; [cbn; tauto|].
  intros o c H. vm_compute in H. intuition discriminate.
Qed.
Print Assumptions C137_counted_refuted.

(** A decoder that raises, without --stats: the packets completed before are
    listed, the rest of that message is not decoded and none of it is written;
    the messages after it go on with the decoder as it was left. *)
Theorem C137_raising : forall D F read packet is_empty (diff : Z -> Z -> F) blend is_zero clk second (d : D) msgs,
  let s := dump D F read packet is_empty diff blend is_zero clk second false d msgs in
  rt_out s = map (fun k => LPacket (snd k) (fst k)) (fst (listed_written read packet d msgs)) /\
  rt_file s = snd (listed_written read packet d msgs).
Proof. intros. apply raising_dump. Qed.
Print Assumptions C137_raising.

(** A decoder that raises at the byte 0xFF. *)
Definition picky_read (p : list N) (b : N) : list N * option bool := if N.eqb b 0xFF then (p, None) else toy_read p b.
Example C137_raising_case :
  let s := dump _ _ picky_read toy_packet toy_empty q_diff q_blend q_zero toy_clk 10 false [] [toy_kind 5 1 ++ [0xFF; 3]; [4] ++ toy_kind 6 1]%N in
  rt_out s = [LPacket 4 5; LPacket 4 6]%N /\ rt_file s = ([4] ++ toy_kind 6 1)%N.
Proof. vm_compute. repeat split. Qed.

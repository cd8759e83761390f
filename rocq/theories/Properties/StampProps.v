(** C124: the times that frames carry. Times of SLCAN frames are multiplied by
    [e_scale], in microseconds. *)
From Verif.Base Require Import Prelude Pack.
From Verif.Model Require Import CanFrame TsEst Slcan Packets Writer.
From Verif.Spec Require Import TsSpec SlcanSpec WriterSpec StampSpec.
From Verif.Proofs Require Import TsFacts SlcanFacts WriterFacts StampFacts.
From Verif.Properties Require Import TsProps SlcanProps WriterProps.

(** A frame that a writer thread reports as transmitted carries the time of
    the step that reports it, and before that step more messages were written
    than frames had been reported. *)
Theorem C124_transmitted : forall W (encode : cframe -> res W) flushes refuses capacity acts rs g rest,
  reports (run encode flushes refuses capacity start acts) = rs ++ inl g :: rest ->
  exists pre e post, acts = pre ++ AWriter e (c_ts g) :: post /\
    let s := run encode flushes refuses capacity start pre in
    reports s = rs /\ (length (shown rs) < length (wrote (w_log s)))%nat.
Proof. exact stamped_after. Qed.
Print Assumptions C124_transmitted.
Example C124_transmitted_case :
  let s := sock_run (sock_acts ++ repeat turn 30) in
  exists g h x, reports s = [inl g] ++ inl h :: [inr x] /\ c_ts g = 77%Z /\ c_ts h = 99%Z.
Proof. exists (stamped (wf 1) 77), (stamped (wf 2) 99), StructError. split; [vm_compute; reflexivity|]. split; reflexivity. Qed.

Local Open Scope Z_scope.
(** A frame received by SLCAN without an adapter's time carries the two local
    times of the reading that completed its line. *)
Theorem C124_arrival : forall c reads, no_times (complete_lines [] (stream reads)) ->
  rx_out (rx_reads c rx_new reads) = arrivals c (tagged [] reads).
Proof.
  intros c reads H. rewrite (reads_tagged c reads rx_new (fun x => x)). rewrite <- tagged_lines in H.
  exact (untimed_stamps c (tagged [] reads) rx_new H).
Qed.
Print Assumptions C124_arrival.

(** With adapter's times each frame carries the estimates that two estimators
    give, one for each local clock, if none of them fails (C80). *)
Theorem C124_estimated : forall c reads,
  let lines := tagged [] reads in
  let ms := snd (es_run c es_new (mono_samples lines)) in
  let rs := snd (es_run c es_new (real_samples lines)) in
  Forall (fun r => is_ok r = true) ms -> Forall (fun r => is_ok r = true) rs ->
  rx_out (rx_reads c rx_new reads) = stamps c lines ms rs.
Proof.
  intros c reads lines ms rs Hm Hr. rewrite (reads_tagged c reads rx_new (fun x => x)).
  exact (timed_stamps c lines rx_new Hm Hr).
Qed.
Print Assumptions C124_estimated.

(** Whatever the clocks do, no frame carries a time later than the reading
    that completed its line by more than the fixed delay. *)
Theorem C124_not_later : forall c reads f m r, 0 <= e_resync c -> 0 <= e_fixed c -> 0 <= e_scale c ->
  In (f, m, r) (rx_out (rx_reads c rx_new reads)) ->
  exists line tm tr ts, In (line, (tm, tr)) (tagged [] reads) /\ slcan_parse line = Ok (Some (f, ts)) /\
    m <= e_scale c * (tm + e_fixed c) /\ r <= e_scale c * (tr + e_fixed c).
Proof.
  intros c reads f m r RS FX SC I. rewrite (reads_tagged c reads rx_new (fun x => x)) in I.
  pose proof (not_later c RS FX SC (tagged [] reads)) as N. cbv zeta in N. destruct N as (_ & _ & F).
  rewrite Forall_forall in F. exact (F _ I).
Qed.
Print Assumptions C124_not_later.

(** Two lines with the times 5.490 s and 6.490 s, half a line in one reading
    and the rest later. The second was delayed more, but does not carry so late
    a time; the real time clock is an hour ahead. *)
Definition line_6490 : list N := [84; 48; 48; 48; 48; 48; 48; 48; 50; 48; 49; 57; 53; 65]%N.
Definition delayed_reads : list (list N * Z * Z) :=
  [(line_5490 ++ [CR] ++ firstn 5 line_6490, 9000000, 3609000000);
   (skipn 5 line_6490 ++ [CR], 10050000, 3610050000)].
Example C124_case :
  let lines := tagged [] delayed_reads in
  mono_samples lines = [(5490000, 9000000); (6490000, 10050000)] /\
  forallb is_ok (snd (es_run slcan_params es_new (mono_samples lines))) = true /\
  forallb is_ok (snd (es_run slcan_params es_new (real_samples lines))) = true /\
  map (fun x => (snd (fst x), snd x)) (rx_out (rx_reads slcan_params rx_new delayed_reads)) =
    [(9000200000000, 3609000200000000); (10000400000000, 3610000400000000)].
Proof.
  split; [vm_compute; reflexivity|]. split; [vm_compute; reflexivity|]. split; [vm_compute; reflexivity|]. vm_compute. reflexivity.
Qed.
(** The same without the adapter's times. *)
Definition plain_reads : list (list N * Z * Z) :=
  [(firstn 10 line_5490 ++ [CR] ++ firstn 5 line_6490, 9000000, 3609000000);
   (firstn 5 (skipn 5 line_6490) ++ [CR], 10050000, 3610050000)].
Example C124_arrival_case :
  no_times (complete_lines [] (stream plain_reads)) /\
  map (fun x => (snd (fst x), snd x)) (rx_out (rx_reads slcan_params rx_new plain_reads)) =
    [(9000000000000, 3609000000000000); (10050000000000, 3610050000000000)].
Proof.
  split; [|vm_compute; reflexivity].
  change (complete_lines [] (stream plain_reads)) with [firstn 10 line_5490; firstn 10 line_6490].
  constructor; [|constructor; [|constructor]]; intros f t E; vm_compute in E; discriminate.
Qed.

(** Properties of SLCAN: C47, C48, C81. *)
From Verif.Base Require Import Prelude.
From Verif.Model Require Import CanFrame TsEst Slcan.
From Verif.Spec Require Import CrcSpec PacketSpec TsSpec SlcanSpec LineSpec.
From Verif.Proofs Require Import PacketFacts TsFacts SlcanFacts LineFacts.
From Verif.Properties Require Import TsProps.
Local Open Scope N_scope.

(** ** C47

    The full statement is: every frame of the bus, in either format, is sent
    as a line that is read as the same frame. *)

(** It is false of standard frames: they cannot be sent. *)
Theorem C47_roundtrip_refuted : exists f, on_bus f /\ In (N.of_nat (length (c_data f))) legal_lengths /\
  slcan_encode f = Err TypeError.
Proof.
  exists (CFrame 0x123 [1; 2] false false 0). split; [|split; [cbn; auto|reflexivity]].
  split; [reflexivity|]. split; [repeat constructor|cbn; lia].
Qed.
Print Assumptions C47_roundtrip_refuted.

(** Every extended frame is sent as a line of the protocol, *)
Theorem C47_sent_partial : forall f, on_bus f -> c_ext f = true -> In (N.of_nat (length (c_data f))) legal_lengths ->
  exists line g, slcan_encode f = Ok (line ++ [13]) /\ as_received f g /\ frame_line g None line.
Proof. exact encoded. Qed.
Print Assumptions C47_sent_partial.

(** and every line of the protocol, in either frame format, with digits in
    either case and with or without a time stamp, is read as the frame and the
    time stamp in it. No such line contains the separator of lines. *)
Theorem C47_read : forall f ts line, frame_line f ts line ->
  slcan_parse line = Ok (Some (f, option_map Z.of_N ts)) /\ ~ In 13 line.
Proof. exact line_parsed. Qed.
Print Assumptions C47_read.

(** T18EEFF2140102fac0 and the time stamp 1F40 *)
Example C47_case :
  let line := [84; 49; 56; 69; 69; 70; 70; 50; 49; 52; 48; 49; 48; 50; 102; 97; 99; 48] in
  slcan_encode (CFrame 0x18EEFF21 [1; 2; 250; 192] true false 0) = Ok (line ++ [CR]) /\
  slcan_parse (line ++ [49; 70; 52; 48]) =
    Ok (Some ({| r_id := 0x18EEFF21; r_data := [1; 2; 250; 192]; r_ext := true; r_fd := false |}, Some 8000%Z)) /\
  slcan_parse [116; 49; 50; 51; 50; 70; 101; 48; 49] =
    Ok (Some ({| r_id := 0x123; r_data := [254; 1]; r_ext := false; r_fd := false |}, None)).
Proof. vm_compute. repeat split. Qed.

(** ** C48

    The full statement is: the frames delivered do not depend on how the
    stream is split into readings, and no malformed line affects another. *)

(** How the stream is split has no effect except on the arrival times: lines
    are processed one after the other, each with the times of the reading
    that completed it, and what is left over waits for the next reading. *)
Theorem C48_lines : forall c reads,
  let s := rx_reads c rx_new reads in
  let lines := tagged [] reads in
  map fst lines = complete_lines [] (stream reads) /\
  rx_out s = rx_out (process_tagged c rx_new lines) /\ rx_data s = remainder [] (stream reads) /\
  Forall (fun x => In (snd x) (map (fun r => (snd (fst r), snd r)) reads)) lines.
Proof.
  intros c reads. cbn zeta. rewrite (reads_tagged c reads rx_new (fun x => x)). split; [apply tagged_lines|].
  split; [reflexivity|]. split; [reflexivity|]. apply tagged_times.
Qed.
Print Assumptions C48_lines.

(** So without time stamps of the adapter, what is delivered is what is in
    the stream, *)
Theorem C48_chunks_partial : forall c reads, no_times (complete_lines [] (stream reads)) ->
  delivered (rx_reads c rx_new reads) = frames_in (complete_lines [] (stream reads)).
Proof.
  intros c reads H. rewrite (reads_tagged c reads rx_new (fun x => x)). rewrite <- tagged_lines in *.
  exact (untimed c _ rx_new H).
Qed.
Print Assumptions C48_chunks_partial.

(** and with time stamps it is if neither the adapter's clock nor the local
    ones go back and delays change by less than half the period. *)
Theorem C48_timed_partial : forall c period reads lm lr, e_period c = Some period -> (0 < period)%Z -> (0 <= e_resync c)%Z ->
  let times := times_in (tagged [] reads) in
  observed period lm = map (fun x => (fst x, fst (snd x))) times -> steady period lm -> forward lm ->
  observed period lr = map (fun x => (fst x, snd (snd x))) times -> steady period lr -> forward lr ->
  delivered (rx_reads c rx_new reads) = frames_in (complete_lines [] (stream reads)).
Proof.
  intros c period reads lm lr P PP RS times OM SM FM OR SR FR.
  rewrite (reads_tagged c reads rx_new (fun x => x)). rewrite <- tagged_lines.
  change (delivered (process_tagged c rx_new (tagged [] reads)) = delivered rx_new ++ frames_in (map fst (tagged [] reads))).
  apply timed; fold times; cbn [rx_mono rx_real rx_new].
  - rewrite <- OM. eapply no_failure; eauto.
  - rewrite <- OR. eapply no_failure; eauto.
Qed.
Print Assumptions C48_timed_partial.

(** Lines that are not frames have no effect at all. *)
Theorem C48_malformed_partial : forall c s a bad t b, (forall x, slcan_parse bad <> Ok (Some x)) ->
  process_tagged c s (a ++ (bad, t) :: b) = process_tagged c s (a ++ b).
Proof.
  intros c s a bad [tm tr] b H. rewrite !process_tagged_app. cbn [process_tagged]. rewrite not_a_frame by exact H. reflexivity.
Qed.
Print Assumptions C48_malformed_partial.

(** Two frames without data, with times 5.000 s and then 4.999 s. *)
Definition line_5000 : list N := [84; 48; 48; 48; 48; 48; 48; 48; 49; 48; 49; 51; 56; 56].
Definition line_4999 : list N := [84; 48; 48; 48; 48; 48; 48; 48; 50; 48; 49; 51; 56; 55].
Definition stream_back : list N := line_5000 ++ [CR] ++ line_4999 ++ [CR].

(** With an adapter whose clock goes back a little, the splitting decides
    whether the second frame is delivered: not in one reading, but if it is
    read a second later. *)
Theorem C48_chunks_refuted : exists c reads reads', stream reads = stream reads' /\
  delivered (rx_reads c rx_new reads) <> delivered (rx_reads c rx_new reads').
Proof.
  exists slcan_params, [(stream_back, 9000000, 9000000)%Z],
    [(line_5000 ++ [CR], 9000000, 9000000)%Z; (line_4999 ++ [CR], 10000000, 10000000)%Z].
  split; [reflexivity|]. vm_compute. discriminate.
Qed.
Print Assumptions C48_chunks_refuted.

(** A line whose time stamp is out of range (FFFF, 65.535 s) makes the next
    line, with the time stamp 5.490 s, be lost. *)
Definition line_ffff : list N := [84; 48; 48; 48; 48; 48; 48; 48; 49; 48; 70; 70; 70; 70].
Definition line_5490 : list N := [84; 48; 48; 48; 48; 48; 48; 48; 50; 48; 49; 53; 55; 50].
Theorem C48_malformed_refuted : exists c bad line t f, 
  delivered (process_tagged c rx_new [(line, t)]) = [f] /\ ~ In f (delivered (process_tagged c rx_new [(bad, t); (line, t)])).
Proof.
  exists slcan_params, line_ffff, line_5490, (9000000, 9000000)%Z. eexists. split; [vm_compute; reflexivity|].
  vm_compute. intros [E|[]]. discriminate.
Qed.
Print Assumptions C48_malformed_refuted.

Example C48_case :
  let reads := [(firstn 5 line_4999, 1%Z, 1%Z); (skipn 5 line_4999 ++ [CR; 122; 10; CR] ++ line_5000, 2%Z, 2%Z); ([CR; 84], 3000%Z, 3000%Z)] in
  complete_lines [] (stream reads) = [line_4999; [122; 10]; line_5000] /\
  map r_id (delivered (rx_reads slcan_params rx_new reads)) = [2; 1]%Z /\
  observed 60000000 [(4999000, 2); (5000000, 3000)]%Z = map (fun x => (fst x, fst (snd x))) (times_in (tagged [] reads)) /\
  steady 60000000 [(4999000, 2); (5000000, 3000)]%Z /\ forward [(4999000, 2); (5000000, 3000)]%Z.
Proof. cbn zeta. split; [vm_compute; reflexivity|]. split; [vm_compute; reflexivity|]. split; [vm_compute; reflexivity|]. unfold steady, steady_from, forward, forward_from. lia. Qed.

(** ** C81

    The full statement is: only lines of the protocol are read as frames. *)

(** It is false: a line that was cut off in its data is read as a shorter
    frame, and signs, spaces and underscores are accepted in numbers. *)
Theorem C81_cut_refuted : exists f ts line, slcan_parse line = Ok (Some (f, ts)) /\
  (exists g whole, frame_line g None whole /\ line = firstn (length line) whole /\ length line < length whole)%nat.
Proof.
  exists {| r_id := 0x18EEFF21; r_data := [1; 2]; r_ext := true; r_fd := false |}, None,
    [84; 49; 56; 69; 69; 70; 70; 50; 49; 52; 48; 49; 48; 50].
  split; [reflexivity|].
  destruct (encoded (CFrame 0x18EEFF21 [1; 2; 250; 192] true false 0)) as (line & g & E & _ & F).
  - split; [reflexivity|]. split; [repeat constructor|cbn; lia].
  - reflexivity.
  - cbn. tauto.
  - exists g, line. split; [exact F|].
    assert (L : line = [84; 49; 56; 69; 69; 70; 70; 50; 49; 52; 48; 49; 48; 50; 102; 97; 99; 48]).
    { apply (app_inv_tail [CR]). vm_compute in E. injection E as E. symmetry. exact E. }
    rewrite L. split; [reflexivity|]. cbn. lia.
Qed.
Print Assumptions C81_cut_refuted.
Theorem C81_sign_refuted : exists f ts line, slcan_parse line = Ok (Some (f, ts)) /\ (r_id f < 0)%Z.
Proof.
  exists {| r_id := -0x10; r_data := []; r_ext := true; r_fd := false |}, None, [84; 32; 32; 45; 48; 120; 49; 95; 48; 48].
  split; vm_compute; reflexivity.
Qed.
Print Assumptions C81_sign_refuted.

(** A line that was cut off in its time stamp is read with a time made of the
    last digits of the data. *)
Definition timed_line : list N := [84; 49; 56; 69; 69; 70; 70; 50; 49; 50; 48; 49; 48; 50; 65; 66; 67; 68].
Definition timed_frame : rxframe := {| r_id := 0x18EEFF21; r_data := [1; 2]; r_ext := true; r_fd := false |}.
Lemma timed_line_ok : frame_line timed_frame (Some 0xABCD) timed_line.
Proof.
  destruct (regular_read timed_line timed_frame (Some 0xABCD%Z)) as (t & F & E).
  - exists 84, [49; 56; 69; 69; 70; 70; 50; 49], 50, [48; 49; 48; 50; 65; 66; 67; 68], 2, 2.
    split; [reflexivity|]. split; [left; reflexivity|]. split; [reflexivity|]. split.
    + repeat (apply Forall_cons; [eexists; apply hex_char; reflexivity|]). apply Forall_nil.
    + split; [apply hex_char; reflexivity|]. split; [reflexivity|]. right. reflexivity.
  - reflexivity.
  - destruct t as [t|]; [|discriminate]. injection E as E. replace 0xABCD with t by lia. exact F.
Qed.
Theorem C81_time_refuted : exists f t whole line t', frame_line f (Some t) whole /\
  line = firstn (length whole - 2) whole /\ slcan_parse line = Ok (Some (f, Some t')) /\ t' <> Z.of_N t.
Proof.
  exists timed_frame, 0xABCD, timed_line, (firstn 16 timed_line), 0x02AB%Z.
  split; [exact timed_line_ok|]. split; [reflexivity|]. split; [reflexivity|discriminate].
Qed.
Print Assumptions C81_time_refuted.

(** Exactly these lines are read, and as what. *)
Theorem C81_reads_partial : forall raw f ts, slcan_parse raw = Ok (Some (f, ts)) <-> read_as f ts raw.
Proof. exact read_lines. Qed.
Print Assumptions C81_reads_partial.
(** Lines of digits that are as long as they should be are read only if they
    are lines of the protocol, and as these. *)
Theorem C81_regular_partial : forall raw f ts, regular raw -> slcan_parse raw = Ok (Some (f, ts)) ->
  exists t, frame_line f t raw /\ ts = option_map Z.of_N t.
Proof. exact regular_read. Qed.
Print Assumptions C81_regular_partial.
(** What is accepted has bytes as data, not more than the format allows. *)
Theorem C81_accepted_partial : forall raw f ts, slcan_parse raw = Ok (Some (f, ts)) ->
  byte_string (r_data f) /\ (length (r_data f) <= if r_fd f then 64 else 8)%nat /\ (r_fd f = true -> r_ext f = true).
Proof. exact accepted. Qed.
Print Assumptions C81_accepted_partial.
Example C81_case : is_ok (slcan_parse line_5490) = true /\ slcan_parse [84; 48; 48; 48; 48; 48; 48; 48; 50; 57] = Err DriverError.
Proof. split; reflexivity. Qed.
(** The three wrappings, a sign, a prefix and an underscore in one line. *)
Example C81_loose_case :
  read_as {| r_id := 0x10; r_data := [0xFA]; r_ext := true; r_fd := false |} (Some (-1)%Z)
    [32; 7; 3; 84; 32; 43; 48; 120; 49; 95; 48; 32; 49; 102; 65; 90; 90; 32; 32; 45; 49; 3; 10].
Proof. apply read_lines. reflexivity. Qed.
Example C81_regular_case : regular timed_line /\ slcan_parse timed_line = Ok (Some (timed_frame, Some 0xABCD%Z)).
Proof.
  split; [|reflexivity].
  exists 84, [49; 56; 69; 69; 70; 70; 50; 49], 50, [48; 49; 48; 50; 65; 66; 67; 68], 2, 2.
  split; [reflexivity|]. split; [left; reflexivity|]. split; [reflexivity|]. split.
  - repeat (apply Forall_cons; [eexists; apply hex_char; reflexivity|]). apply Forall_nil.
  - split; [apply hex_char; reflexivity|]. split; [reflexivity|]. right. reflexivity.
Qed.

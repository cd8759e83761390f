(** C121, C122: the two processes of the SLCAN driver. A run is any
    interleaving of the main process, the transmitting worker and the receiving
    thread; what the port does at each call is any of [try]. *)
From Verif.Base Require Import Prelude.
From Verif.Model Require Import CanFrame TsEst Slcan SlcanCli SlcanIo.
From Verif.Spec Require Import PacketSpec SlcanSpec SlcanIoSpec LinkSpec.
From Verif.Proofs Require Import SlcanIoFacts.
From Verif.Properties Require Import TsProps.

Definition sf (n : N) : cframe := CFrame (0x18EEFF00 + n) [1; 2; n]%N true false 5.
Definition turn := HWorker Smooth false.
Definition turns (n : nat) := repeat turn n.
Definition io_case := io_run false 1000 1000 io_start.
Definition io_retry := io_run true 1000 1000 io_start.
Definition read_of (bs : list N) : list rxframe := delivered (rx_reads slcan_params rx_new [(bs, 5, 5)%Z]).

(** ** C121: SLCAN writes every accepted frame once and in order, also when closed *)

(** In every interleaving and whatever the port does, when the process was not
    killed and nothing is left to do: what was accepted was treated one by one
    in the order in which it was accepted. A line is missing or torn only where
    there is an exception. *)
Theorem C121_served_partial : forall retry tx_size rx_size l, unharmed l ->
  let s := io_run retry tx_size rx_size io_start l in idle_io s ->
  served retry True (taken_jobs (i_log s)) (i_out s) (complaints (i_log s)).
Proof. exact idle_served. Qed.
Print Assumptions C121_served_partial.

(** While the port works, what was written at any time are the lines of a
    first part of what was accepted. *)
Theorem C121_always_partial : forall retry tx_size rx_size l, unharmed l -> smooth l ->
  let s := io_run retry tx_size rx_size io_start l in
  exists done rest, taken_jobs (i_log s) = done ++ rest /\ ~ In JStop done /\ complaints (i_log s) = faults_of done /\
    (i_out s = lines_of done \/ (exists j, rest = j :: i_tx s /\ i_out s = lines_of (done ++ [j])) \/
     i_spot s = Gone /\ i_out s = lines_of done ++ closing).
Proof. exact always_smooth. Qed.
Print Assumptions C121_always_partial.

(** While the port works, three steps of the worker for each thing accepted
    are enough to write it. *)
Theorem C121_finishes_partial : forall retry tx_size rx_size l n, unharmed l -> smooth l ->
  ~ In JStop (taken_jobs (i_log (io_run retry tx_size rx_size io_start l))) -> attended l ->
  let s := io_run retry tx_size rx_size io_start l in (3 * length (i_tx s) + 2 <= n)%nat ->
  let s' := io_run retry tx_size rx_size s (repeat (HWorker Smooth false) n) in
  idle_io s' /\ i_out s' = lines_of (taken_jobs (i_log s)) /\ complaints (i_log s') = faults_of (taken_jobs (i_log s)).
Proof. exact worker_finishes. Qed.
Print Assumptions C121_finishes_partial.

(** [close] loses nothing: what was accepted before is written, then the
    channel is closed, and the process ends. *)
Theorem C121_closed_partial : forall retry tx_size rx_size l n, unharmed l -> attended l -> smooth l ->
  let s := io_run retry tx_size rx_size io_start l in In JStop (taken_jobs (i_log s)) -> (3 * length (i_tx s) + 2 <= n)%nat ->
  let s' := io_run retry tx_size rx_size s (repeat (HWorker Smooth false) n) in
  i_spot s' = Gone /\ exists before rest, taken_jobs (i_log s) = before ++ JStop :: rest /\ ~ In JStop before /\
    i_out s' = lines_of before ++ closing /\ complaints (i_log s') = faults_of before.
Proof. exact close_finishes. Qed.
Print Assumptions C121_closed_partial.

(** A process that ends while it has a parent and a receiving thread was asked
    to, and has treated everything accepted before, also if the port fails. *)
Theorem C121_ended_partial : forall retry tx_size rx_size l, unharmed l -> attended l ->
  let s := io_run retry tx_size rx_size io_start l in i_spot s = Gone ->
  exists done rest out tail, taken_jobs (i_log s) = done ++ JStop :: rest /\ ~ In JStop done /\
    served retry True done out (complaints (i_log s)) /\ i_out s = out ++ tail.
Proof. exact closed_served. Qed.
Print Assumptions C121_ended_partial.

(** Extended frames that fit on a bus, so written, are read at the other end
    in any pieces as the same frames, once each and in order. *)
Theorem C121_arrive_partial : forall retry tx_size rx_size l fs params reads, unharmed l -> smooth l ->
  let s := io_run retry tx_size rx_size io_start l in
  idle_io s \/ attended l /\ i_spot s = Gone ->
  (exists rest, taken_jobs (i_log s) = frame_jobs fs ++ rest /\ (rest = [] \/ exists more, rest = JStop :: more)) ->
  Forall sendable fs -> stream reads = i_out s ->
  Forall2 as_received fs (delivered (rx_reads params rx_new reads)).
Proof.
  intros retry tx_size rx_size l fs params reads U S s H (rest & T & R) F E.
  assert (NF : ~ In JStop (frame_jobs fs)).
  { intros K. unfold frame_jobs in K. apply in_map_iff in K as (f & K & _). discriminate. }
  destruct H as [H|(A & H)].
  - destruct (inv_io_run retry tx_size rx_size True True l io_start (inv_start_io _ _ _) (allowed_all l U))
      as (d & r & o & T2 & N2 & _ & P). fold s in T2, P. rewrite (proj1 H) in P. cbn [at_place] in P. destruct P as (-> & _).
    rewrite (proj2 H), app_nil_r in T2. destruct (idle_smooth retry tx_size rx_size l U S H) as (O & _). fold s in O.
    destruct R as [-> |(more & ->)].
    + rewrite app_nil_r in T. apply (frames_arrive fs [] params reads F); [auto|]. rewrite E, O, T, app_nil_r. reflexivity.
    + exfalso. apply N2. rewrite <- T2, T. apply in_or_app. right. left. reflexivity.
  - destruct (closed_smooth retry tx_size rx_size l U A S H) as (done & r & T' & N & _ & O). fold s in T', O.
    assert (done = frame_jobs fs) as ->.
    { destruct R as [-> |(more & ->)].
      - exfalso. rewrite app_nil_r in T. apply NF. rewrite <- T, T'. apply in_or_app. right. left. reflexivity.
      - rewrite T in T'. clear -T' N NF. revert done T' N. induction (frame_jobs fs) as [|j js IH]; intros done T' N.
        + destruct done as [|d done]; [reflexivity|]. injection T' as E _. exfalso. apply N. left. symmetry. exact E.
        + destruct done as [|d done].
          * exfalso. apply NF. left. injection T' as E _. exact E.
          * injection T' as -> T'. f_equal. apply IH; [intros K; apply NF; right; exact K|exact T'|intros K; apply N; right; exact K]. }
    apply (frames_arrive fs closing params reads F); [auto|]. rewrite E. exact O.
Qed.
Print Assumptions C121_arrive_partial.

(** The hooks are shown the accepted frames, once each and in order. *)
Theorem C121_hooks_partial : forall retry tx_size rx_size l,
  let s := io_run retry tx_size rx_size io_start l in hooked (i_log s) = frames_of (taken_jobs (i_log s)).
Proof. intros. apply (hooks_run retry tx_size rx_size l io_start). reflexivity. Qed.
Print Assumptions C121_hooks_partial.

Definition io_acts := [HSend (sf 1); turn; HSend (sf 2); turn; HPut XOther; turn; HExecute [115; 116; 97; 116]%N; turn; HSend (sf 3); HClose; HSend (sf 4)]
  ++ turns 4.
Definition io_fails := [HSend (sf 1); HSend (sf 2); turn; HWorker (Broken 5 OSError []) false; turn; turn; HWorker (Broken 0 OSError []) false; HSend (sf 3)] ++ turns 4.
Example C121_served_case : let s := io_case io_fails in
  unharmed io_fails /\ idle_io s /\ taken_jobs (i_log s) = [JFrame (sf 1); JFrame (sf 2); JFrame (sf 3)] /\
  complaints (i_log s) = [OSError; OSError] /\ length (i_out s) = 39%nat.
Proof.
  split; [|split; [|vm_compute; auto]].
  - intros K. vm_compute in K. intuition discriminate.
  - split; vm_compute; reflexivity.
Qed.
Example C121_closed_case : let s := io_case io_acts in
  unharmed io_acts /\ attended io_acts /\ smooth io_acts /\ length (i_tx s) = 3%nat /\
  taken_jobs (i_log s) = [JFrame (sf 1); JFrame (sf 2); JCommand [115; 116; 97; 116]%N; JFrame (sf 3); JStop; JFrame (sf 4)] /\
  hooked (i_log s) = [sf 1; sf 2; sf 3; sf 4] /\
  i_spot (io_run false 1000 1000 s (turns 14)) = Gone /\
  map r_id (read_of (i_out (io_run false 1000 1000 s (turns 14)))) = [0x18EEFF01; 0x18EEFF02; 0x18EEFF03]%Z.
Proof.
  split; [intros K; vm_compute in K; intuition discriminate|].
  split; [intros a K; vm_compute in K; intuition discriminate|].
  split; [intros n x again over K; vm_compute in K; intuition discriminate|].
  vm_compute. auto 10.
Qed.
Definition io_frames := [HSend (sf 1); turn; HSend (sf 2); turn; HClose] ++ turns 8.
Example C121_arrive_case : let s := io_case io_frames in
  unharmed io_frames /\ smooth io_frames /\ attended io_frames /\ i_spot s = Gone /\
  taken_jobs (i_log s) = frame_jobs [sf 1; sf 2] ++ [JStop] /\ Forall sendable [sf 1; sf 2].
Proof.
  split; [intros K; vm_compute in K; intuition discriminate|].
  split; [intros n x again over K; vm_compute in K; intuition discriminate|].
  split; [intros a K; vm_compute in K; intuition discriminate|].
  split; [vm_compute; reflexivity|]. split; [vm_compute; reflexivity|].
  constructor; [|constructor; [|constructor]]; (split; [split; [vm_compute; auto|split; [repeat constructor; vm_compute; auto|cbn; lia]]|split; [reflexivity|vm_compute; auto 10]]).
Qed.
Example C121_finishes_case : let l := [HSend (sf 1); turn; HSend (sf 2); HExecute [115; 116]%N] in
  unharmed l /\ smooth l /\ attended l /\ ~ In JStop (taken_jobs (i_log (io_case l))) /\ length (i_tx (io_case l)) = 2%nat.
Proof.
  split; [intros K; vm_compute in K; intuition discriminate|].
  split; [intros n x again over K; vm_compute in K; intuition discriminate|].
  split; [intros a K; vm_compute in K; intuition discriminate|].
  split; [intros K; vm_compute in K; intuition discriminate|]. reflexivity.
Qed.

(** A frame with a standard identifier is accepted and shown to the hooks, and
    never written, though the port works (411: two values for one place). *)
Theorem C121_standard_refuted : exists l f, unharmed l /\ smooth l /\ attended l /\ on_bus f /\
  let s := io_run false 1000 1000 io_start l in
  idle_io s /\ taken_jobs (i_log s) = [JFrame f] /\ hooked (i_log s) = [f] /\ i_out s = [] /\ complaints (i_log s) = [TypeError].
Proof.
  exists ([HSend (CFrame 0x123 [1]%N false false 5)] ++ turns 3), (CFrame 0x123 [1]%N false false 5).
  split; [intros K; vm_compute in K; intuition discriminate|].
  split; [intros n x again over K; vm_compute in K; intuition discriminate|].
  split; [intros a K; vm_compute in K; intuition discriminate|].
  split; [split; [vm_compute; auto|split; [repeat constructor; vm_compute; auto|cbn; lia]]|].
  vm_compute. auto 10.
Qed.
Print Assumptions C121_standard_refuted.

(** A write that fails midway spoils the frame after it too, for which there is
    no exception: its line is written whole, behind the torn one. *)
Theorem C121_torn_refuted : exists l, unharmed l /\ attended l /\
  let s := io_run false 1000 1000 io_start l in
  idle_io s /\ taken_jobs (i_log s) = [JFrame (sf 1); JFrame (sf 2)] /\ complaints (i_log s) = [OSError] /\
  read_of (i_out s) = [].
Proof.
  exists ([HSend (sf 1); HSend (sf 2); turn; HWorker (Broken 5 OSError []) false] ++ turns 3).
  split; [intros K; vm_compute in K; intuition discriminate|].
  split; [intros a K; vm_compute in K; intuition discriminate|].
  vm_compute. auto 10.
Qed.
Print Assumptions C121_torn_refuted.

(** With [auto_reopen], a write that fails after the line went out is made
    again: the frame is on the bus twice, and there is no exception. *)
Theorem C121_twice_refuted : exists l, unharmed l /\ attended l /\
  let s := io_run true 1000 1000 io_start l in
  idle_io s /\ taken_jobs (i_log s) = [JFrame (sf 1)] /\ complaints (i_log s) = [] /\
  map r_id (read_of (i_out s)) = [0x18EEFF01; 0x18EEFF01]%Z.
Proof.
  exists ([HSend (sf 1); turn; HWorker (Broken 17 OSError []) false] ++ turns 2).
  split; [intros K; vm_compute in K; intuition discriminate|].
  split; [intros a K; vm_compute in K; intuition discriminate|].
  vm_compute. auto 10.
Qed.
Print Assumptions C121_twice_refuted.

(** ** C122: what comes from the IO process reaches the program once, in order and in time *)

(** Over any calls of [receive], with any timeouts, if the callbacks do not
    raise: frames are returned and exceptions raised once each and in the order
    in which they came; what was not taken is left. *)
Theorem C122_order_partial : forall callback ws, quiet callback -> forall q now reqs,
  let cs := receive_all callback q now reqs ws in
  exists used, q = used ++ left_after q cs /\ flat_map meaning (map snd used) = flat_map given_by cs.
Proof. exact receive_order. Qed.
Print Assumptions C122_order_partial.

(** With a timeout above zero, or none: a frame that is there before the
    deadline is returned when it comes, though there are answers before it. *)
Theorem C122_prompt_partial : forall callback, quiet callback -> forall now timeout reqs answers t f rest,
  let w := wait_for now timeout in
  forallb (fun p => is_answer (snd p)) answers = true ->
  Forall (fun p => patient w (fst p)) answers -> patient w t -> patient w now ->
  let c := receive callback true (answers ++ (t, XFrame f) :: rest) now timeout reqs in
  c_end c = Gave f /\ c_left c = rest /\ c_when c = fold_left Z.max (map fst answers ++ [t]) now.
Proof. intros callback Q now timeout reqs answers t f rest w A F Pt Pn. exact (prompt callback _ Q now w reqs [] answers t f rest eq_refl A F Pt Pn). Qed.
Print Assumptions C122_prompt_partial.

(** With a timeout above zero the call ends at most a millisecond after it,
    and without an object not before it. With zero it ends within a
    millisecond. *)
Theorem C122_timeout_partial : forall callback q now timeout reqs, (0 < timeout)%Z ->
  let c := receive callback true q now (Some timeout) reqs in
  c_end c <> Stuck /\ (now <= c_when c <= now + timeout + 1000)%Z /\ (c_end c = Nothing -> (now + timeout <= c_when c)%Z).
Proof.
  intros callback q now timeout reqs H c. unfold c, receive, wait_for. replace (timeout =? 0)%Z with false by lia.
  apply until_ends. lia.
Qed.
Print Assumptions C122_timeout_partial.
Theorem C122_poll_partial : forall callback q now reqs, let c := receive callback true q now (Some 0%Z) reqs in
  c_end c <> Stuck /\ (now <= c_when c <= now + 1000)%Z.
Proof. intros callback q now reqs. exact (poll_ends callback q now reqs []). Qed.
Print Assumptions C122_poll_partial.

(** Called without a timeout as often as there are frames and exceptions, or
    with zero as often as there are objects that have come, [receive] gives
    all of them. *)
Theorem C122_forever_partial : forall callback ws, quiet callback -> forall q now reqs, Forall (fun w => snd w = None) ws ->
  (length (flat_map meaning (map snd q)) <= length ws)%nat ->
  flat_map given_by (receive_all callback q now reqs ws) = flat_map meaning (map snd q).
Proof. exact forever_all. Qed.
Print Assumptions C122_forever_partial.
Theorem C122_asked_partial : forall callback ws, quiet callback -> forall q now reqs,
  Forall (fun w => snd w = Some 0%Z /\ (0 <= fst w)%Z) ws -> Forall (fun p => (fst p <= now)%Z) q -> (length q <= length ws)%nat ->
  flat_map given_by (receive_all callback q now reqs ws) = flat_map meaning (map snd q).
Proof. exact poll_all. Qed.
Print Assumptions C122_asked_partial.

Definition no_error : nat -> answer -> option exn := fun _ _ => None.
Definition stat_answer : answer :=
  {| a_request := {| q_tag := 0; q_command := [115; 116]%N; q_deadline := 100 |}; a_lines := [[79; 75]]%N; a_expired := false |}.
Definition io_queue : arrivals :=
  [(10, XFrame (sf 1)); (20, XAnswer stat_answer); (3000, XFrame (sf 2)); (9000, XError OSError); (9000, XAnswer stat_answer); (50000, XFrame (sf 3))]%Z.
Example C122_case : quiet no_error /\
  map c_end (receive_all no_error io_queue 0 [([115; 116]%N, 7%nat)] [(0, Some 1000); (0, Some 5000); (0, Some 0); (0, None); (0, Some 1000); (0, None)]%Z)
    = [Gave (sf 1); Gave (sf 2); Nothing; Threw OSError; Nothing; Gave (sf 3)] /\
  map c_when (receive_all no_error io_queue 0 [([115; 116]%N, 7%nat)] [(0, Some 1000); (0, Some 5000); (0, Some 0); (0, None); (0, Some 1000); (0, None)]%Z)
    = [10; 3000; 4000; 9000; 10000; 50000]%Z /\
  flat_map given_by (receive_all no_error io_queue 0 [] (repeat (0, None)%Z 4)) = [inl (sf 1); inl (sf 2); inr OSError; inl (sf 3)] /\
  flat_map given_by (receive_all no_error io_queue 60000 [] (repeat (5, Some 0)%Z 6)) = [inl (sf 1); inl (sf 2); inr OSError; inl (sf 3)].
Proof. split; [intros t a; reflexivity|]. vm_compute. auto 10. Qed.
Example C122_prompt_case : let q := [(20, XAnswer stat_answer); (3000, XAnswer stat_answer)]%Z in
  forallb (fun p => is_answer (snd p)) q = true /\ Forall (fun p => patient (wait_for 5 (Some 5000)) (fst p))%Z q /\
  patient (wait_for 5 (Some 5000%Z)) 4000 /\ c_when (receive no_error true (q ++ [(4000, XFrame (sf 1))])%Z 5 (Some 5000%Z) []) = 4000%Z.
Proof. split; [reflexivity|]. split; [repeat constructor; vm_compute; reflexivity|]. split; vm_compute; reflexivity. Qed.

(** A call with zero returns nothing though a frame has come, if there is an
    answer before it. *)
Theorem C122_poll_refuted : exists callback q now reqs f, quiet callback /\ In (now, XFrame f) q /\
  c_end (receive callback true q now (Some 0%Z) reqs) = Nothing.
Proof.
  exists no_error, [(5, XAnswer stat_answer); (7, XFrame (sf 1))]%Z, 7%Z, [], (sf 1).
  split; [intros t a; reflexivity|]. split; [right; left; reflexivity|]. reflexivity.
Qed.
Print Assumptions C122_poll_refuted.

(** When the IO process has ended, frames it delivered before are not
    returned by any call. *)
Theorem C122_ended_refuted : exists q f, In (0%Z, XFrame f) q /\ forall callback now timeout reqs,
  let c := receive callback false q now timeout reqs in c_end c = Threw DriverError /\ c_left c = q.
Proof. exists [(0%Z, XFrame (sf 1))], (sf 1). split; [left; reflexivity|]. intros. split; reflexivity. Qed.
Print Assumptions C122_ended_refuted.

(** Properties of the command line of SLCAN adapters: C99 to C101. *)
From Verif.Base Require Import Prelude.
From Verif.Model Require Import TsEst Slcan Utf8 SlcanCli.
From Verif.Spec Require Import SlcanSpec SlcanCliSpec.
From Verif.Proofs Require Import SlcanFacts SlcanCliFacts SlcanCliTop SlcanCliExact SlcanCalls.
From Verif.Properties Require Import TsProps.
Local Open Scope N_scope.

(** T000000010: a frame without data, identifier 1 *)
Definition frame_1 : list N := [84; 48; 48; 48; 48; 48; 48; 48; 49; 48].
Definition frame_2 : list N := [84; 48; 48; 48; 48; 48; 48; 48; 50; 48].
(** The command "ls". *)
Definition ls (deadline : Z) : request := {| q_tag := 7; q_command := [108; 115]; q_deadline := deadline |}.
(** A reading at some time. *)
Definition reading_at (t : Z) (b : list N) : happening := Read {| rd_bytes := b; rd_mono := t; rd_real := t; rd_now := t |}.

(** ** C99

    The full statement is: while commands are executed, the frames delivered
    are those the adapter sent, in order. *)

(** It is false if the output of a command is not UTF-8: a frame after it in
    the same reading is lost. *)
Theorem C99_decoded_refuted : exists c l, possible l /\ Forall no_frame (text_lines (sent l)) /\ Forall sendable (asked l) /\
  bytes_read l = bytes_of (sent l) /\ length (frames_in (frame_lines (sent l))) = 2%nat /\
  map r_id (delivered (k_rx (cli_run c cli_new l))) = [2%Z] /\ rx_data (k_rx (cli_run c cli_new l)) = [].
Proof.
  set (items := [TextItem [108; 115]; TextItem [255]; TextItem [3]; FrameItem frame_1; TextItem [3]; FrameItem frame_2; TextItem []]).
  exists slcan_params, (Asked (ls 1000000) :: map Sent (firstn 5 items) ++ [reading_at 5 (bytes_of (firstn 5 items))]
    ++ map Sent (skipn 5 items) ++ [reading_at 6 (bytes_of (skipn 5 items))]).
  split; [apply possible_by; vm_compute; reflexivity|].
  split; [cbn; repeat constructor; intros x; vm_compute; discriminate|].
  split; [repeat constructor; vm_compute; discriminate|].
  vm_compute. auto.
Qed.
Print Assumptions C99_decoded_refuted.

(** And text that comes while no command is outstanding is read as a frame if
    it looks like one. *)
Theorem C99_text_refuted : exists c l, possible l /\ Forall decodable (text_lines (sent l)) /\ asked l = [] /\
  frame_lines (sent l) = [] /\ delivered (k_rx (cli_run c cli_new l)) <> [].
Proof.
  exists slcan_params, [Sent (TextItem frame_1); reading_at 5 (bytes_of [TextItem frame_1])].
  split; [apply possible_by; vm_compute; reflexivity|].
  split; [cbn; repeat constructor; eexists; vm_compute; reflexivity|].
  split; [reflexivity|]. split; [reflexivity|]. vm_compute. discriminate.
Qed.
Print Assumptions C99_text_refuted.

(** Otherwise, whatever commands are asked for, whatever text comes, whatever
    expires and however the stream is split: the frames are processed one after
    the other, each once and with the times of a reading, and a frame is
    processed when at least one byte after it has been read. There is no
    exception. *)
Theorem C99_frames_partial : forall c l, possible l -> Forall no_frame (text_lines (sent l)) ->
  Forall decodable (text_lines (sent l)) -> Forall sendable (asked l) ->
  exists n L, map fst L = frame_lines (firstn n (sent l)) /\ Forall (fun x => In (snd x) (times_of l)) L /\
    rx_out (k_rx (cli_run c cli_new l)) = rx_out (process_tagged c rx_new L) /\ k_errors (cli_run c cli_new l) = [] /\
    forall k, (length (bytes_of (firstn k (sent l))) < length (bytes_read l))%nat -> (k <= n)%nat.
Proof. exact frames_kept. Qed.
Print Assumptions C99_frames_partial.

(** So without time stamps of the adapter, what is delivered is what was
    sent. *)
Theorem C99_delivered_partial : forall c l, possible l -> Forall no_frame (text_lines (sent l)) ->
  Forall decodable (text_lines (sent l)) -> Forall sendable (asked l) -> no_times (frame_lines (sent l)) ->
  exists n, delivered (k_rx (cli_run c cli_new l)) = frames_in (frame_lines (firstn n (sent l))) /\
    forall k, (length (bytes_of (firstn k (sent l))) < length (bytes_read l))%nat -> (k <= n)%nat.
Proof.
  intros c l P NF D S T. destruct (frames_kept c l P NF D S) as (n & L & A & _ & B & _ & K). exists n. split; [|exact K].
  rewrite <- A. apply frames_untimed; [|exact B]. rewrite A. unfold no_times in *.
  rewrite <- (firstn_skipn n (sent l)), frames_app in T. apply Forall_app in T as (T & _). exact T.
Qed.
Print Assumptions C99_delivered_partial.

(** A frame between the lines of the output, cut in the middle of a line end,
    and one after the end mark. *)
Example C99_case :
  let items := [TextItem [108; 115]; FrameItem frame_1; TextItem [97]; TextItem [3]; FrameItem frame_2; FrameItem []] in
  let b := bytes_of items in
  let l := Asked (ls 1000000) :: map Sent items ++ [reading_at 5 (firstn 15 b); reading_at 6 (firstn 3 (skipn 15 b)); reading_at 7 (skipn 18 b)] in
  possible l /\ Forall no_frame (text_lines (sent l)) /\ Forall decodable (text_lines (sent l)) /\ Forall sendable (asked l) /\
  no_times (frame_lines (sent l)) /\ map r_id (delivered (k_rx (cli_run slcan_params cli_new l))) = [1; 2]%Z /\
  map a_lines (k_answers (cli_run slcan_params cli_new l)) = [[[97]]].
Proof.
  cbn zeta. split; [apply possible_by; vm_compute; reflexivity|].
  split; [cbn; repeat constructor; intros x; vm_compute; discriminate|].
  split; [cbn; repeat constructor; eexists; vm_compute; reflexivity|].
  split; [repeat constructor; vm_compute; discriminate|].
  split; [cbn; repeat constructor; intros f t; vm_compute; discriminate|].
  vm_compute. auto.
Qed.

(** ** C100

    The full statement is: the answer to a command holds the lines the
    adapter sent for it. *)

(** It is false after text has come while no command was outstanding: the
    next command's output comes in time, but nothing is answered until the
    request expires. *)
Theorem C100_output_refuted : exists c l q output, possible l /\ asked l = [q] /\ sendable q /\
  Forall no_frame (text_lines (sent l)) /\ Forall decodable (text_lines (sent l)) /\
  output_of q output (text_lines (sent l)) /\ bytes_read l = bytes_of (sent l) /\
  Forall (fun r => rd_now r < q_deadline q)%Z (readings l) /\
  k_answers (cli_run c cli_new l) = [] /\
  k_answers (cli_run c cli_new (l ++ [reading_at (q_deadline q) []])) = [{| a_request := q; a_lines := []; a_expired := true |}].
Proof.
  set (answer := [TextItem [108; 115]; TextItem [97]; TextItem [3]]).
  exists slcan_params, ([Sent (TextItem [104; 105]); reading_at 4 (bytes_of [TextItem [104; 105]]); Asked (ls 1000000)]
    ++ map Sent answer ++ [reading_at 5 (bytes_of answer)]), (ls 1000000), [[97]].
  split; [apply possible_by; vm_compute; reflexivity|]. split; [reflexivity|].
  split; [split; [vm_compute; reflexivity|vm_compute; discriminate]|].
  split; [cbn; repeat constructor; intros x; vm_compute; discriminate|].
  split; [cbn; repeat constructor; eexists; vm_compute; reflexivity|].
  split; [exists [[104; 105]], [108; 115], []; split; [reflexivity|]; split; [reflexivity|intros [E|[]]; discriminate]|].
  split; [reflexivity|]. split; [repeat constructor|]. split; vm_compute; reflexivity.
Qed.
Print Assumptions C100_output_refuted.

(** An answer never holds anything else, whatever comes and whenever. *)
Theorem C100_sound_partial : forall c l, possible l -> Forall no_frame (text_lines (sent l)) ->
  Forall decodable (text_lines (sent l)) -> Forall sendable (asked l) ->
  Forall (answered (text_lines (sent l))) (k_answers (cli_run c cli_new l)).
Proof. exact answers_sound. Qed.
Print Assumptions C100_sound_partial.

(** If all text is the output of commands, in the order in which they were
    asked for, and no request expires before its output was read, then the
    requests are answered in order, each with its output, as soon as the
    output has been read. *)
Theorem C100_exact_partial : forall c reply l, possible l -> obedient reply l -> in_time reply l ->
  Forall decodable (text_lines (sent l)) ->
  exists done rest, asked l = done ++ rest /\ Forall2 (right_answer reply) done (k_answers (cli_run c cli_new l)) /\
    k_errors (cli_run c cli_new l) = [] /\
    forall items whole, prefix items (sent l) -> prefix (bytes_of items) (bytes_read l) -> prefix whole (asked l) ->
      outputs reply whole (text_lines items) -> prefix whole done.
Proof. exact exact_answers. Qed.
Print Assumptions C100_exact_partial.

(** Two commands, the second one asked for before the output of the first one
    is complete; a third one without output after the first one's deadline. *)
Definition two_reply (q : request) : list (list N) := match q_tag q with 1%nat => [[97]; []] | 2%nat => [[98]] | _ => [] end.
Definition two_asked (tag : nat) (deadline : Z) : request := {| q_tag := tag; q_command := [108; 115]; q_deadline := deadline |}.
Definition two_run : list happening :=
  [Asked (two_asked 1 100); Sent (TextItem [108; 115]); Sent (TextItem [97]); reading_at 10 [108; 115; 13; 10; 97; 13];
   Asked (two_asked 2 100); Sent (TextItem []); Sent (TextItem [3]); reading_at 20 [10; 13; 10; 3; 13; 10];
   Sent (TextItem [108; 115]); Sent (TextItem [98]); Sent (TextItem [3]); reading_at 30 [108; 115; 13; 10; 98; 13; 10; 3; 13; 10];
   Asked (two_asked 3 1000); Sent (TextItem [108; 115]); reading_at 200 [108; 115]].
Example C100_case : possible two_run /\ obedient two_reply two_run /\ in_time two_reply two_run /\
  Forall decodable (text_lines (sent two_run)) /\
  map a_lines (k_answers (cli_run slcan_params cli_new two_run)) = [[[97]; []]; [[98]]] /\
  option_map q_tag (k_outstanding (cli_run slcan_params cli_new two_run)) = Some 3%nat.
Proof.
  assert (W : forall q, q_command q = [108; 115] -> q_tag q <> 0%nat -> whole_output two_reply q ([108; 115] :: two_reply q ++ [[END_OF_TEXT]])).
  { intros q C T. exists [108; 115]. rewrite C. split; [reflexivity|]. split; [reflexivity|].
    unfold two_reply. destruct (q_tag q) as [|[|[|n]]]; cbn; intros H; repeat destruct H as [H|H]; discriminate || contradiction. }
  assert (W1 := W (two_asked 1 100) eq_refl ltac:(discriminate)). assert (W2 := W (two_asked 2 100) eq_refl ltac:(discriminate)).
  assert (W3 := W (two_asked 3 1000) eq_refl ltac:(discriminate)). clear W.
  assert (O0 := outputs_none two_reply).
  assert (O1 := outputs_more _ _ _ _ _ W1 O0). assert (O12 := outputs_more _ _ _ _ _ W1 (outputs_more _ _ _ _ _ W2 O0)).
  assert (O123 := outputs_more _ _ _ _ _ W1 (outputs_more _ _ _ _ _ W2 (outputs_more _ _ _ _ _ W3 O0))).
  split; [apply possible_by; vm_compute; reflexivity|]. split.
  { intros a b E. apply prefix_cases in E. cbn in E.
    repeat (destruct E as [<-|E]; [first [exists []; split; [exact O0|eexists; reflexivity]
      | eexists; split; [exact O1|eexists; reflexivity] | eexists; split; [exact O12|eexists; reflexivity]
      | eexists; split; [exact O123|eexists; reflexivity]]|]). destruct E. }
  split.
  { intros a r b x q y E A LE. assert (Pre := E). apply prefix_cases in E. cbn in E.
    repeat (destruct E as [<-|E]; [match type of Pre with _ = ?p ++ _ => apply (f_equal (fun l => nth_error l (length p))) in Pre end;
      cbn in Pre; try discriminate Pre|]); try contradiction.
    all: injection Pre as <-; cbn [rd_now] in LE.
    all: destruct x as [|x0 [|x1 [|x2 [|x3 x]]]]; cbn in A; try discriminate A.
    all: try (exfalso; injection A; intros; subst; cbn in LE; lia).
    - assert (q = two_asked 1 100) by congruence. subst q.
      exists (map TextItem [[108; 115]; [97]; []; [3]]). split; [eexists; reflexivity|]. split; [eexists; reflexivity|]. exact O1.
    - assert (x0 = two_asked 1 100 /\ q = two_asked 2 100) as (-> & ->) by (split; congruence).
      exists (map TextItem [[108; 115]; [97]; []; [3]; [108; 115]; [98]; [3]]). split; [eexists; reflexivity|]. split; [eexists; reflexivity|]. exact O12. }
  split; [cbn; repeat constructor; eexists; vm_compute; reflexivity|]. vm_compute. auto.
Qed.

(** ** C101 *)

(** Callbacks are called in the order in which the commands were asked for,
    each at most once and with the answer to its own request. The answer says
    that the request expired only if the port was read after its deadline. *)
Theorem C101_own_answer : forall c l, let s := driver_run c driver_new l in
  prefix (map (fun x => a_request (snd x)) (d_calls s)) (all_requests l) /\
  Forall (fun x => fst x = q_tag (a_request (snd x))) (d_calls s) /\
  Forall (fun x => expired_at (port_times l) (snd x)) (d_calls s).
Proof.
  intros c l. cbn zeta. destruct (driver_holds c l) as (A & _ & B & C). split; [eexists; exact A|]. split; [exact B|].
  apply Forall_app in C as (C & _). exact (proj1 (Forall_map snd _ _) C).
Qed.
Print Assumptions C101_own_answer.

(** The requests are what the program asked for, in order, each command
    without the white space before it. *)
Theorem C101_requests : forall l, Forall2 made_of (executed l) (all_requests l).
Proof. exact requests_made. Qed.
Print Assumptions C101_requests.
Example C101_requests_case :
  map q_command (all_requests [Execute 1 [32; 9; 108; 115; 32] 100; Receive; Execute 2 [108] 100]) = [[108; 115; 32]; [108]].
Proof. reflexivity. Qed.

(** When all requests have been given to the adapter and their deadlines have
    passed, one more reading and taking what is in the queue calls the
    callbacks of all of them, whatever was received. *)
Theorem C101_all_called : forall c l r, d_tx (driver_run c driver_new l) = [] ->
  Forall (fun q => (q_deadline q <= rd_now r)%Z) (all_requests l) ->
  exists n, forall m, (n <= m)%nat -> let s := driver_run c driver_new (l ++ Port r :: repeat Receive m) in
    map (fun x => a_request (snd x)) (d_calls s) = all_requests l /\ d_requests s = [].
Proof. exact all_called. Qed.
Print Assumptions C101_all_called.

(** The same command twice; the first one is answered, the second expires. *)
Example C101_case :
  let port t b := Port {| rd_bytes := b; rd_mono := t; rd_real := t; rd_now := t |} in
  let l := [Execute 1 [32; 108; 115] 100; Execute 2 [108; 115] 100; Transmit; port 10%Z [108; 115; 13; 10; 3; 13; 10]; Transmit; Receive] in
  let r := {| rd_bytes := []; rd_mono := 100; rd_real := 100; rd_now := 100 |} in
  d_tx (driver_run slcan_params driver_new l) = [] /\ Forall (fun q => (q_deadline q <= rd_now r)%Z) (all_requests l) /\
  map (fun x => (fst x, a_expired (snd x))) (d_calls (driver_run slcan_params driver_new l)) = [(1%nat, false)] /\
  map (fun x => (fst x, a_expired (snd x))) (d_calls (driver_run slcan_params driver_new (l ++ Port r :: repeat Receive 1))) = [(1%nat, false); (2%nat, true)].
Proof. cbn zeta. split; [reflexivity|]. split; [repeat constructor; cbn; lia|]. split; vm_compute; reflexivity. Qed.

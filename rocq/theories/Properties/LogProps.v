(** Properties of the log file driver. *)
From Verif.Base Require Import Prelude Pack.
From Verif.Model Require Import Crc CanFrame FileLog.
From Verif.Spec Require Import CrcSpec PacketSpec LogSpec.
From Verif.Proofs Require Import LogFacts PacketLayout.
Local Open Scope Z_scope.

Definition example_log : list cframe :=
  [CFrame 0x1234567 [1; 2; 3]%N true false 5000000; CFrame 0x55 []%N false false 5000100;
   CFrame 0x1FFFFFFF [255; 0]%N true true 7000000].
Lemma example_loggable : Forall loggable example_log.
Proof. repeat constructor; cbn; lia. Qed.

(** C44. A recorded log opens, and calls of [receive] deliver its frames, in
    order, each with its identifier, format and data, at the recorded distance
    in time from the first one: the next frame whenever it is due. *)
Theorem C44_playback : forall f fs now start speed calls, Forall loggable (f :: fs) ->
  exists r, open_log (recorded (f :: fs)) now = Ok r /\
  exists out, snd (receive_all (recorded (f :: fs)) speed (set_start_timestamp r (Some start)) calls) = map Ok out /\
    plays speed (shifted start (f :: fs)) calls out.
Proof.
  intros f fs now start speed calls F.
  pose proof (playback f fs [] now start speed calls F) as P. rewrite app_nil_r in P. apply P. cbn. lia.
Qed.
Print Assumptions C44_playback.

(** Without pacing, as many calls as frames deliver them all. *)
Theorem C44_complete : forall f fs now start calls, Forall loggable (f :: fs) ->
  (length (f :: fs) <= length calls)%nat ->
  exists r, open_log (recorded (f :: fs)) now = Ok r /\
  snd (receive_all (recorded (f :: fs)) None (set_start_timestamp r (Some start)) calls) = map Ok (shifted start (f :: fs)).
Proof.
  intros f fs now start calls F L. destruct (C44_playback f fs now start None calls F) as (r & E & out & E2 & P).
  exists r. split; [exact E|]. rewrite E2. f_equal. eapply plays_all; [exact P|]. cbn [shifted]. rewrite map_length. exact L.
Qed.
Print Assumptions C44_complete.

(** Every loggable frame is recorded. *)
Theorem C44_recorded : forall f, loggable f -> exists b, record f = Ok b.
Proof. intros f H. destruct (record_shape f H) as (h & E & _). exists (h ++ c_data f). exact E. Qed.
Print Assumptions C44_recorded.

(** The bytes of a record are those that other programs expect. *)
Theorem C44_layout : forall f, loggable f -> exists ts crc,
  record f = Ok ([0x34; 0x29] ++ ts ++ crc ++
                 [N.of_nat (length (c_data f)) mod 256; N.of_nat (length (c_data f)) / 256; if c_fd f then 1 else 0; 0] ++
                 id_bytes f ++ c_data f)%N /\
  length ts = 8%nat /\ byte_string ts /\ Z.of_N (le_value ts) = c_ts f /\
  length crc = 2%nat /\ byte_string crc /\ le_value crc = crc16_from_bytes (c_data f) 0xFFFF.
Proof. exact record_layout. Qed.
Print Assumptions C44_layout.
Example C44_layout_case : record (CFrame 0x1234567 [1; 2]%N true true 1000) =
  Ok [0x34; 0x29; 0xE8; 3; 0; 0; 0; 0; 0; 0; 124; 14; 2; 0; 1; 0; 0x67; 0x45; 0x23; 0x81; 1; 2]%N.
Proof. vm_compute. reflexivity. Qed.

Example C44_case :
  exists r, open_log (recorded example_log) 100 = Ok r /\ get_start_timestamp r = 5000000 /\
  let calls := [(None, 90); (None, 100); (Some 40, 150); (Some 60, 150); (None, 1000); (None, 3000000); (None, 3000001)] in
  snd (receive_all (recorded example_log) (Some 1) r calls) =
  map Ok [CFrame 0x1234567 [1; 2; 3]%N true false 100; CFrame 0x55 []%N false false 200; CFrame 0x1FFFFFFF [255; 0]%N true true 2000100] /\
  snd (receive_all (recorded example_log) (Some 2) r [(None, 100); (Some 25, 150)]) =
  map Ok [CFrame 0x1234567 [1; 2; 3]%N true false 100; CFrame 0x55 []%N false false 200].
Proof. eexists. split; [vm_compute; reflexivity|]. vm_compute. repeat split. Qed.
Print Assumptions C44_case.

(** C45. Full claim: a log cut off after [n] bytes plays back its complete
    records. This is so if the cut is not within the data of a record. *)
Theorem C45_truncated_partial : forall fs n k now start speed calls,
  Forall loggable fs -> complete fs n k -> (n <= length (recorded fs))%nat ->
  (0 < k)%nat -> (n - length (recorded (firstn k fs)) < 20)%nat ->
  exists r, open_log (firstn n (recorded fs)) now = Ok r /\
  exists out, snd (receive_all (firstn n (recorded fs)) speed (set_start_timestamp r (Some start)) calls) = map Ok out /\
    plays speed (shifted start (firstn k fs)) calls out.
Proof. exact truncated. Qed.
Print Assumptions C45_truncated_partial.

(** Otherwise it cannot be opened, whatever it contains. *)
Theorem C45_truncated_refuted : forall fs n k now,
  Forall loggable fs -> complete fs n k -> (n <= length (recorded fs))%nat ->
  (20 <= n - length (recorded (firstn k fs)))%nat ->
  open_log (firstn n (recorded fs)) now = Err DriverError.
Proof. exact truncated_in_data. Qed.
Print Assumptions C45_truncated_refuted.

Example C45_case : exists r,
  complete example_log 45 2 /\ length (recorded (firstn 2 example_log)) = 43%nat /\
  open_log (firstn 45 (recorded example_log)) 100 = Ok r /\
  length (snd (receive_all (firstn 45 (recorded example_log)) None r [(None, 0); (None, 0); (None, 0)])) = 2%nat /\
  complete example_log 64 2 /\ open_log (firstn 64 (recorded example_log)) 100 = Err DriverError.
Proof.
  assert (C : forall n, (43 <= n < 65)%nat -> complete example_log n 2).
  { intros n H. split; [cbn; lia|]. split; [change (length (recorded (firstn 2 example_log))) with 43%nat; lia|].
    intros j J. assert (j = 3%nat) by (cbn in J; lia). subst j.
    change (length (recorded (firstn 3 example_log))) with 65%nat. lia. }
  eexists. split; [apply C; lia|]. split; [vm_compute; reflexivity|]. split; [vm_compute; reflexivity|].
  split; [vm_compute; reflexivity|]. split; [apply C; lia|]. vm_compute. reflexivity.
Qed.
Print Assumptions C45_case.

(** C46. The time of the last record is not known after opening any log. *)
Theorem C46_last_refuted : forall f fs now, Forall loggable (f :: fs) ->
  exists r, open_log (recorded (f :: fs)) now = Ok r /\
    get_last_timestamp r = None /\ get_last_timestamp r <> Some (c_ts (last fs f)).
Proof.
  intros f fs now F. pose proof (open_records f fs [] now F) as E. rewrite app_nil_r in E.
  eexists. split; [apply E; cbn; lia|]. split; [reflexivity|discriminate].
Qed.
Print Assumptions C46_last_refuted.

(** That of the first one is. *)
Theorem C46_first_partial : forall f fs now, Forall loggable (f :: fs) ->
  exists r, open_log (recorded (f :: fs)) now = Ok r /\ get_start_timestamp r = c_ts f.
Proof.
  intros f fs now F. pose proof (open_records f fs [] now F) as E. rewrite app_nil_r in E.
  eexists. split; [apply E; cbn; lia|reflexivity].
Qed.
Print Assumptions C46_first_partial.
Example C46_case : exists r, open_log (recorded example_log) 0 = Ok r /\ get_start_timestamp r = 5000000 /\
  get_last_timestamp r = None.
Proof. eexists. vm_compute. repeat split. Qed.

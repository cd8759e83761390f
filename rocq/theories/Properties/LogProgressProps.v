(** C147: how far the playback of a log is. *)
From Verif.Base Require Import Prelude.
From Verif.Model Require Import CanFrame FileLog LogProgress.
From Verif.Spec Require Import LogSpec LogProgressSpec.
From Verif.Proofs Require Import LogFacts LogProgressFacts.
Local Open Scope Z_scope.

(** When the end is reported, every frame of the log was delivered; also when
    the log ends in the middle of a header. *)
Theorem C147_end_partial : forall f gs tail now start speed calls r,
  Forall loggable (f :: gs) -> (length tail < 20)%nat ->
  open_log (recorded (f :: gs) ++ tail) now = Ok r ->
  let '(r', out) := receive_all (recorded (f :: gs) ++ tail) speed (set_start_timestamp r (Some start)) calls in
  end_of_stream r' = true -> out = map Ok (shifted start (f :: gs)).
Proof. exact end_all. Qed.
Print Assumptions C147_end_partial.

(** It is reported at the latest after two more calls. *)
Theorem C147_ends_partial : forall f gs tail now start speed calls t1 n1 t2 n2 r,
  Forall loggable (f :: gs) -> (length tail < 20)%nat ->
  open_log (recorded (f :: gs) ++ tail) now = Ok r ->
  let played := receive_all (recorded (f :: gs) ++ tail) speed (set_start_timestamp r (Some start)) in
  length (snd (played calls)) = length (f :: gs) ->
  end_of_stream (fst (played (calls ++ [(t1, n1); (t2, n2)]))) = true.
Proof. exact ends. Qed.
Print Assumptions C147_ends_partial.

(** For any file that could be opened: the progress is a percentage and does not
    fall, and the end stays the end. *)
Theorem C147_progress_partial : forall content now r speed a b, open_log content now = Ok r ->
  let ra := fst (receive_all content speed r a) in
  let rb := fst (receive_all content speed r (a ++ b)) in
  percentage (stream_progress content ra) /\
  at_most (stream_progress content ra) (stream_progress content rb) /\
  (end_of_stream ra = true -> end_of_stream rb = true).
Proof.
  intros content now r speed a b O ra rb. destruct (open_is content now r O) as (NE & P & _).
  assert (L : inside content r) by (unfold inside; rewrite P; apply Nat.le_0_l).
  destruct (run_moves content speed a r L) as (La & _ & _). unfold rb. rewrite (proj1 (run_app content speed a b r)). fold ra in La |- *.
  destruct (run_moves content speed b ra La) as (Lb & Pb & Eb).
  split; [apply progress_is; assumption|]. split; [apply progress_of; assumption|exact Eb].
Qed.
Print Assumptions C147_progress_partial.

(** It is the share of the frames delivered, or of these and the next one. *)
Theorem C147_counts_partial : forall f gs tail now start speed calls r,
  Forall loggable (f :: gs) -> (length tail < 20)%nat ->
  open_log (recorded (f :: gs) ++ tail) now = Ok r ->
  let content := recorded (f :: gs) ++ tail in
  let '(r', out) := receive_all content speed (set_start_timestamp r (Some start)) calls in
  (length out < length (f :: gs))%nat ->
  exists k, (k = length out \/ k = S (length out)) /\
    stream_progress content r' = (100 * Z.of_nat (length (recorded (firstn k (f :: gs)))), Z.of_nat (length content)).
Proof. exact counts. Qed.
Print Assumptions C147_counts_partial.

(** Two frames, the second a second after the first. *)
Definition two_frames : list cframe := [CFrame 0x55 [7]%N true false 0; CFrame 0x56 [8]%N true false 1000000].
Definition two_file : list N := Eval vm_compute in recorded two_frames.
Definition two_open : reader := Build_reader 0 false (Some 100) 0 None None.

(** A hundred percent is reported while the last frame is still to come. *)
Theorem C147_done_refuted : exists content now r calls, open_log content now = Ok r /\
  let '(r', out) := receive_all content (Some 1) r calls in
  at_most (100, 1) (stream_progress content r') /\
  exists f, snd (receive_all content (Some 1) r' [(None, 2000000)]) = [Ok f].
Proof.
  exists two_file, 100, two_open, [(None, 100); (None, 200)]. split; [vm_compute; reflexivity|].
  vm_compute. split; [intros H; discriminate H|]. eexists. reflexivity.
Qed.
Print Assumptions C147_done_refuted.

Definition cut_file : list N := Eval vm_compute in recorded two_frames ++ [0x34; 0x29; 5]%N.
Definition calls3 : list (option Z * Z) := [(None, 100); (None, 200); (None, 2000000)].
Example C147_case : Forall loggable two_frames /\ cut_file = recorded two_frames ++ [0x34; 0x29; 5]%N /\
  open_log cut_file 100 = Ok two_open /\
  let s k := fst (receive_all cut_file (Some 1) two_open (firstn k (calls3 ++ [(None, 2000000); (None, 2000000)]))) in
  map (fun k => stream_progress cut_file (s k)) [0; 1; 2; 3; 4; 5]%nat =
    [(0, 45); (2100, 45); (4200, 45); (4200, 45); (4500, 45); (100, 1)] /\
  map (fun k => end_of_stream (s k)) [3; 4; 5]%nat = [false; false; true] /\
  length (snd (receive_all cut_file (Some 1) two_open calls3)) = 2%nat.
Proof. split; [repeat constructor; cbn; lia|]. vm_compute. repeat split. Qed.

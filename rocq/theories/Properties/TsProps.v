(** Properties of time stamp estimation: C52, C53, C80. Estimates are
    multiplied by [e_scale]. *)
From Verif.Base Require Import Prelude.
From Verif.Model Require Import TsEst.
From Verif.Spec Require Import TsSpec.
From Verif.Proofs Require Import TsFacts.
Local Open Scope Z_scope.

(** The estimator of SLCAN (slcan.py 69-71, 56), in microseconds. *)
Definition slcan_params : est_params :=
  {| e_period := Some 60000000; e_rate := 200; e_scale := 1000000; e_fixed := 200; e_resync := 100000 |}.
(** The default (timestamp_estimator.py 87-88). *)
Definition default_params : est_params :=
  {| e_period := None; e_rate := 200; e_scale := 1000000; e_fixed := 0; e_resync := 1000000 |}.

(** ** C52

    The full statement is: the estimate is never later than the arrival, and
    no more than the drift allowance above what the best sample gives. *)

(** It is false with a fixed delay, which is added instead of subtracted. *)
Theorem C52_not_later_refuted : exists c samples a b s' e,
  0 <= e_fixed c /\ es_update c (fst (es_run c es_new samples)) a b = (s', Ok e) /\ ~ et_time e <= e_scale c * b.
Proof.
  exists slcan_params, [], 5000000, 7000000. eexists _, _. split; [discriminate|]. split; [reflexivity|]. vm_compute. auto.
Qed.
Print Assumptions C52_not_later_refuted.

(** It holds up to the fixed delay. *)
Theorem C52_not_later_partial : forall c samples a b s' e, 0 <= e_resync c ->
  es_update c (fst (es_run c es_new samples)) a b = (s', Ok e) ->
  et_time e <= e_scale c * (b + e_fixed c).
Proof.
  intros c samples a b s' e RS E. destruct (estimates c samples a b s' e RS E) as (I & _ & U).
  specialize (U _ I). cbn [fst snd] in U. lia.
Qed.
Print Assumptions C52_not_later_partial.

(** The estimate is the least one of the bounds given by the samples since
    the estimator started over: arrival plus the source time passed since, at
    the fastest rate. *)
Theorem C52_best : forall c samples a b s' e, 0 <= e_resync c ->
  es_update c (fst (es_run c es_new samples)) a b = (s', Ok e) ->
  let w := history c (samples ++ [(a, b)]) in
  let bound x := e_scale c * (snd x + e_fixed c) + (e_scale c + e_rate c) * (et_source e - fst x) in
  In (et_source e, b) w /\
  (exists x, In x w /\ fst x <= et_source e /\ et_time e = bound x) /\
  (forall x, In x w -> et_time e <= bound x).
Proof. exact estimates. Qed.
Print Assumptions C52_best.

(** If the rate of the source clock is within the limits and nothing arrives
    before it was sent, the estimate is not before the true time, and not
    more after it than the delay of any of these samples plus the drift
    allowance since (besides the fixed delay). *)
Theorem C52_bounds : forall c samples a b s' e tau, 0 <= e_resync c -> 0 <= e_rate c -> 0 < e_scale c ->
  es_update c (fst (es_run c es_new samples)) a b = (s', Ok e) ->
  let w := history c (samples ++ [(a, b)]) in
  clock_map (e_rate c) (e_scale c) tau -> (forall x, In x w -> tau (fst x) <= snd x) ->
  e_scale c * (tau (et_source e) + e_fixed c) <= et_time e /\
  forall x, In x w -> fst x <= et_source e ->
    et_time e <= e_scale c * (tau (et_source e) + e_fixed c) + e_scale c * (snd x - tau (fst x)) +
                 2 * e_rate c * (et_source e - fst x).
Proof. exact estimate_bounds. Qed.
Print Assumptions C52_bounds.

(** Delays of 500, 100 and 900: the second sample is the best one. *)
Example C52_case :
  let samples := [(0, 1000500); (1000, 1001100)] in
  clock_map (e_rate default_params) (e_scale default_params) (fun p => p + 1000000) /\
  (exists s', es_update default_params (fst (es_run default_params es_new samples)) 2000 1002900 =
    (s', Ok {| et_time := 1002100200000; et_source := 2000; et_resync := false |})) /\
  history default_params (samples ++ [(2000, 1002900)]) = [(0, 1000500); (1000, 1001100); (2000, 1002900)].
Proof.
  split; [intros p p' H; unfold default_params, e_rate, e_scale; lia|]. split; [eexists; vm_compute; reflexivity|]. vm_compute. reflexivity.
Qed.

(** ** C53 *)

(** Samples of a clock that overflows are resolved to the true differences. *)
Theorem C53_unwrap : forall period s0 q0 l, 0 < period -> steady period ((s0, q0) :: l) ->
  snd (rs_run (Some period) rs_new (observed period ((s0, q0) :: l))) =
  map (fun x => Ok (fst x - s0 + s0 mod period)) ((s0, q0) :: l).
Proof. exact unwrap. Qed.
Print Assumptions C53_unwrap.
Example C53_case : let l := [(59000, 3000); (61000, 4990); (181000, 124900); (600500, 544000)] in
  steady 60000 l /\ observed 60000 l = [(59000, 3000); (1000, 4990); (1000, 124900); (500, 544000)] /\
  snd (rs_run (Some 60000) rs_new (observed 60000 l)) = [Ok 59000; Ok 61000; Ok 181000; Ok 600500].
Proof. intros l. unfold l. split; [unfold steady, steady_from; lia|]. split; vm_compute; reflexivity. Qed.

(** ** C80

    The full statement is: no update of the estimator fails. *)

(** It is false if the source clock goes back a little (more than a little
    starts the estimator over), *)
Theorem C80_source_refuted : exists c samples, 0 < e_resync c /\
  In (Err AssertionError) (snd (es_run c es_new samples)).
Proof. exists slcan_params, [(5000000, 9000000); (4999000, 9000000)]. split; [reflexivity|]. vm_compute. auto. Qed.
Print Assumptions C80_source_refuted.

(** or if the local clock does. *)
Theorem C80_target_refuted : exists c samples, 0 < e_resync c /\ forward samples /\
  In (Err AssertionError) (snd (es_run c es_new samples)).
Proof.
  exists slcan_params, [(5000000, 9000000); (5001000, 8999999)]. split; [reflexivity|]. split; [cbn; lia|]. vm_compute. auto.
Qed.
Print Assumptions C80_target_refuted.

(** It holds with clocks that do not go back, as long as the delay changes by
    less than half the period between two samples. *)
Theorem C80_total_partial : forall c period l, e_period c = Some period -> 0 < period -> 0 <= e_resync c ->
  steady period l -> forward l ->
  Forall (fun r => is_ok r = true) (snd (es_run c es_new (observed period l))).
Proof. exact no_failure. Qed.
Print Assumptions C80_total_partial.
Example C80_case : let l := [(59000000, 3000000); (61000000, 4990000); (181000000, 124900000)] in
  steady 60000000 l /\ forward l /\
  map (fun r => match r with Ok e => et_time e | Err _ => 0 end) (snd (es_run slcan_params es_new (observed 60000000 l))) =
    [3000200000000; 4990200000000; 124900200000000] .
Proof. intros l. unfold l. split; [unfold steady, steady_from; lia|]. split; [cbn; lia|]. vm_compute. reflexivity. Qed.

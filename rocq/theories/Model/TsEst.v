(** Time stamp estimation (dronecan/driver/timestamp_estimator.py). Times are
    whole numbers of some unit and the arithmetic is exact: rounding of floats
    is left out. The rate error is a fraction [e_rate / e_scale]; estimates
    are multiplied by [e_scale]. *)
From Verif.Base Require Import Prelude.
Local Open Scope Z_scope.

(** [round(a / b, 0)], ties to even, for a positive [b]. *)
Definition round_div (a b : Z) : Z :=
  let q := a / b in
  let r := 2 * (a mod b) in
  if r <? b then q else if b <? r then q + 1 else if Z.even q then q else q + 1.

(** timestamp_estimator.py 36-40: the resolver; [None] is "not started". *)
Record resolver := { rs_time : option Z; rs_src : Z; rs_tgt : Z }.
Definition rs_new : resolver := {| rs_time := None; rs_src := 0; rs_tgt := 0 |}.

(** timestamp_estimator.py 50-77: [update]. [period] is [None] if the clock
    does not overflow. The target sample is kept before the assertion. *)
Definition rs_update (period : option Z) (s : resolver) (source target : Z) : resolver * res Z :=
  match rs_time s, period with
  | Some time, Some p =>
      let tgt_delta := target - rs_tgt s in
      if tgt_delta <? 0
      then ({| rs_time := Some time; rs_src := rs_src s; rs_tgt := target |}, Err AssertionError)
      else
        let src_delta := source - rs_src s in
        let full_cycles := round_div (tgt_delta - src_delta) p in
        let time := time + full_cycles * p + src_delta in
        ({| rs_time := Some time; rs_src := source; rs_tgt := target |}, Ok time)
  | _, _ => ({| rs_time := Some source; rs_src := source; rs_tgt := target |}, Ok source)
  end.

(** timestamp_estimator.py 108-121: the parameters, after the defaults were
    put in. *)
Record est_params := { e_period : option Z; e_rate : Z; e_scale : Z; e_fixed : Z; e_resync : Z }.

(** timestamp_estimator.py 124-132: [_p] and [_q]. *)
Record estimator := { es_resolver : resolver; es_anchor : option (Z * Z); es_resyncs : nat }.
Definition es_new : estimator := {| es_resolver := rs_new; es_anchor := None; es_resyncs := 0 |}.

(** timestamp_estimator.py 141-178: [update]; the estimate is multiplied by
    [e_scale]. Also returned are the resolved source time and whether it
    started over. *)
Record estimate := { et_time : Z; et_source : Z; et_resync : bool }.
Definition es_update (c : est_params) (s : estimator) (source target : Z) : estimator * res estimate :=
  match rs_update (e_period c) (es_resolver s) source target with
  | (rs, Err x) => ({| es_resolver := rs; es_anchor := es_anchor s; es_resyncs := es_resyncs s |}, Err x)
  | (rs, Ok pi) =>
      let (p, q) := match es_anchor s with Some a => a | None => (pi, target) end in
      let delay := Z.abs ((pi - p) - (target - q)) in
      let start_over := e_resync c <? delay in
      (* a reset resolver returns the sample *)
      let rs := if start_over then fst (rs_update (e_period c) rs_new source target) else rs in
      let pi := if start_over then source else pi in
      let p := if start_over then source else p in
      let q := if start_over then target else q in
      let resyncs := if start_over then S (es_resyncs s) else es_resyncs s in
      if pi <? p
      then ({| es_resolver := rs; es_anchor := Some (p, q); es_resyncs := resyncs |}, Err AssertionError)
      else
        let offset := e_scale c * (p - q - e_fixed c) - e_rate c * (pi - p) in
        let new_offset := e_scale c * (pi - target - e_fixed c) in
        let better := offset <=? new_offset in
        ({| es_resolver := rs; es_anchor := Some (if better then (pi, target) else (p, q)); es_resyncs := resyncs |},
         Ok {| et_time := e_scale c * pi - (if better then new_offset else offset); et_source := pi; et_resync := start_over |})
  end.

(** A sequence of calls. *)
Fixpoint es_run (c : est_params) (s : estimator) (samples : list (Z * Z)) : estimator * list (res estimate) :=
  match samples with
  | [] => (s, [])
  | (a, b) :: r => let (s1, e) := es_update c s a b in
                   let (s2, es) := es_run c s1 r in (s2, e :: es)
  end.
Fixpoint rs_run (period : option Z) (s : resolver) (samples : list (Z * Z)) : resolver * list (res Z) :=
  match samples with
  | [] => (s, [])
  | (a, b) :: r => let (s1, e) := rs_update period s a b in
                   let (s2, es) := rs_run period s1 r in (s2, e :: es)
  end.

(** What time stamp estimation should give. *)
From Verif.Base Require Import Prelude.
From Verif.Model Require Import TsEst.
Local Open Scope Z_scope.

(** The samples, with resolved source times, since the estimator last
    started over. *)
Fixpoint segment (w : list (Z * Z)) (l : list ((Z * Z) * res estimate)) : list (Z * Z) :=
  match l with
  | [] => w
  | ((_, q), Ok e) :: r => segment (if et_resync e then [(et_source e, q)] else w ++ [(et_source e, q)]) r
  | (_, Err _) :: r => segment w r
  end.
Definition history (c : est_params) (samples : list (Z * Z)) : list (Z * Z) :=
  segment [] (combine samples (snd (es_run c es_new samples))).

(** True source times with arrival times, such that neither goes back and the
    transport delay changes by less than half a [period] between two. *)
Fixpoint steady_from (period s0 q0 : Z) (l : list (Z * Z)) : Prop :=
  match l with
  | [] => True
  | (s, q) :: r => q0 <= q /\ 2 * Z.abs ((q - q0) - (s - s0)) < period /\ steady_from period s q r
  end.
Definition steady (period : Z) (l : list (Z * Z)) : Prop :=
  match l with [] => True | (s, q) :: r => steady_from period s q r end.
Fixpoint forward_from (s0 : Z) (l : list (Z * Z)) : Prop :=
  match l with [] => True | (s, _) :: r => s0 <= s /\ forward_from s r end.
Definition forward (l : list (Z * Z)) : Prop :=
  match l with [] => True | (s, _) :: r => forward_from s r end.
(** What is observed of them. *)
Definition observed (period : Z) (l : list (Z * Z)) : list (Z * Z) := map (fun x => (fst x mod period, snd x)) l.

(** [tau] gives the local time of each source time, with a rate error of at
    most [rate / scale]. *)
Definition clock_map (rate scale : Z) (tau : Z -> Z) : Prop :=
  forall p p', p <= p' ->
    (scale - rate) * (p' - p) <= scale * (tau p' - tau p) <= (scale + rate) * (p' - p).

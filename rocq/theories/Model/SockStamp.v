(** The time stamps of frames that come from a socket
    (dronecan/driver/socketcan.py 203-220, 272-302; the same code is in
    python_can.py 57-75). Times are in microseconds, the arithmetic is exact as
    in TsEst.v. *)
From Verif.Base Require Import Prelude.
From Verif.Model Require Import TsEst.
Local Open Scope Z_scope.

(** socketcan.py 203-213: a rate error of 100 ppm, a delay of a microsecond, 50
    milliseconds until it starts over, no overflow. *)
Definition sock_params : est_params :=
  {| e_period := None; e_rate := 100; e_scale := 1000000; e_fixed := 1; e_resync := 50000 |}.

(** What is read for a frame: [time.monotonic] and [time.time], one after the
    other, and the time the kernel gave, on the clock of [time.time]. *)
Record reading := Reading { r_mono : Z; r_real : Z; r_kernel : Z }.

(** 215-220: [_convert_real_to_monotonic]; times a million. *)
Definition convert (s : estimator) (r : reading) : estimator * res Z :=
  match es_update sock_params s (r_mono r) (r_real r) with
  | (s', Err x) => (s', Err x)
  | (s', Ok e) => (s', Ok (e_scale sock_params * (r_kernel r + r_mono r) - et_time e))
  end.
(** The frames of a socket, one after the other. *)
Fixpoint stamps (s : estimator) (l : list reading) : list (res Z) :=
  match l with
  | [] => []
  | r :: l' => let (s', x) := convert s r in x :: stamps s' l'
  end.

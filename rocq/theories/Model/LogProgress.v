(** How far the playback of a log is (dronecan/driver/file.py 123-133), for a
    driver that was opened with [readonly]; see FileLog.v. *)
From Verif.Base Require Import Prelude.
From Verif.Model Require Import CanFrame FileLog.
Local Open Scope Z_scope.

(** 123-126 *)
Definition end_of_stream (r : reader) : bool := r_eof r.
(** 128-133: the percentage as numerator and denominator. *)
Definition stream_progress (content : list N) (r : reader) : Z * Z :=
  if r_eof r then (100, 1) else (100 * Z.of_nat (r_pos r), Z.of_nat (length content)).

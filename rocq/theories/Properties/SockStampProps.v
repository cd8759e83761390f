(** C146: time stamps of frames from a socket. *)
From Verif.Base Require Import Prelude.
From Verif.Model Require Import TsEst SockStamp.
From Verif.Spec Require Import SockStampSpec.
From Verif.Proofs Require Import SockStampFacts.
Local Open Scope Z_scope.

(** With a monotonic clock no conversion raises, whatever the other clock does;
    the stamp is at most a microsecond before, and less than 50 milliseconds
    after, the time of the kernel moved by the difference of the clocks as just
    read. Stamps are times a million. *)
Theorem C146_within_partial : forall l t, monotonic t l ->
  Forall2 (fun r x => exists z, x = Ok z /\
    1000000 * (direct r - 1) <= z <= 1000000 * (direct r - 1 + 50000)) l (stamps es_new l).
Proof. exact within. Qed.
Print Assumptions C146_within_partial.

(** When the clocks run evenly, and [time.time] is read up to [d] microseconds
    after [time.monotonic], the stamp is the time of the kernel on the monotonic
    clock less one microsecond, and less up to [d]: never later. *)
Theorem C146_even_partial : forall c d l t, monotonic t l -> even c d l ->
  Forall2 (fun r x => exists z, x = Ok z /\
    1000000 * (r_kernel r - c - d - 1) <= z <= 1000000 * (r_kernel r - c - 1)) l (stamps es_new l).
Proof. exact even_stamps. Qed.
Print Assumptions C146_even_partial.

(** The clock is set forward by 40 milliseconds between two frames. *)
Definition set_forward : list reading :=
  [ {| r_mono := 7000000; r_real := 1700000000000000; r_kernel := 1699999999999990 |};
    {| r_mono := 8000000; r_real := 1700000001040000; r_kernel := 1700000001039990 |} ].
(** A frame can be stamped with a time that is still to come, though the kernel
    stamped it before it was read. *)
Theorem C146_not_later_refuted : exists l, monotonic 0 l /\ Forall (fun r => r_kernel r <= r_real r) l /\
  exists i r z, nth_error l i = Some r /\ nth_error (stamps es_new l) i = Some (Ok z) /\ 1000000 * r_mono r < z.
Proof.
  exists set_forward. split; [cbn; lia|]. split; [repeat constructor; cbn; lia|].
  exists 1%nat, {| r_mono := 8000000; r_real := 1700000001040000; r_kernel := 1700000001039990 |}, 8039889000000.
  vm_compute. repeat split.
Qed.
Print Assumptions C146_not_later_refuted.

(** The second frame waits in the socket for two seconds, and the process is
    interrupted for 200 microseconds between reading the clocks. *)
Definition interrupted : list reading :=
  [ {| r_mono := 1000000; r_real := 1001000; r_kernel := 1000000 |};
    {| r_mono := 3000000; r_real := 3001200; r_kernel := 1000001 |} ].
(** Frames that the kernel stamped in order can get stamps out of order, though
    both clocks run evenly. *)
Theorem C146_order_refuted : exists l c d, monotonic 0 l /\ even c d l /\
  exists r1 r2 z1 z2, l = [r1; r2] /\ r_kernel r1 < r_kernel r2 /\ stamps es_new l = [Ok z1; Ok z2] /\ z2 < z1.
Proof.
  exists interrupted, 1000, 200. split; [cbn; lia|]. split; [repeat constructor; cbn; lia|].
  eexists _, _, 998999000000, 998800000000. split; [reflexivity|]. vm_compute. repeat split.
Qed.
Print Assumptions C146_order_refuted.

(** The clock is set back by 49 milliseconds, then forward by a second. *)
Definition set_twice : list reading :=
  [ {| r_mono := 0; r_real := 500000; r_kernel := 499000 |};
    {| r_mono := 1000000; r_real := 1451000; r_kernel := 1450000 |};
    {| r_mono := 2000000; r_real := 3451000; r_kernel := 3450000 |} ].
Example C146_within_case : monotonic 0 set_twice /\
  stamps es_new set_twice = [Ok (-1001000000); Ok 998999000000; Ok 1998999000000].
Proof. split; [cbn; lia|]. vm_compute. reflexivity. Qed.
Example C146_even_case : monotonic 0 interrupted /\ even 1000 200 interrupted /\
  stamps es_new interrupted = [Ok 998999000000; Ok 998800000000].
Proof. split; [cbn; lia|]. split; [repeat constructor; cbn; lia|]. vm_compute. reflexivity. Qed.

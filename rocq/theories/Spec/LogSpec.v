(** What a log file promises. *)
From Verif.Base Require Import Prelude.
From Verif.Model Require Import CanFrame FileLog.
From Verif.Spec Require Import CrcSpec.
Local Open Scope Z_scope.

(** A CAN frame: 29 bit identifier, bytes, a time stamp that fits. *)
Definition loggable (f : cframe) : Prop :=
  (c_id f < 2 ^ 29)%N /\ byte_string (c_data f) /\ (N.of_nat (length (c_data f)) < 65536)%N /\ 0 <= c_ts f < 2 ^ 64.

(** The same frame at another time. *)
Definition at_time (ts : Z) (f : cframe) : cframe :=
  {| c_id := c_id f; c_data := c_data f; c_ext := c_ext f; c_fd := c_fd f; c_ts := ts |}.
(** Played back from local time [start], the first frame first. *)
Definition shifted (start : Z) (fs : list cframe) : list cframe :=
  match fs with
  | [] => []
  | f0 :: _ => map (fun f => at_time (start + (c_ts f - c_ts f0)) f) fs
  end.

(** What calls with a timeout at a time deliver: the next frame if it is due
    or becomes due before the timeout, sped up. *)
Definition due (speed timeout : option Z) (now : Z) (f : cframe) : Prop :=
  match speed with
  | None => True
  | Some v => c_ts f <= now \/ exists t, timeout = Some t /\ c_ts f - now <= t * v
  end.
Inductive plays (speed : option Z) : list cframe -> list (option Z * Z) -> list cframe -> Prop :=
| plays_end fs : plays speed fs [] []
| plays_over calls : plays speed [] calls []
| plays_due f fs t now calls out : due speed t now f -> plays speed fs calls out ->
    plays speed (f :: fs) ((t, now) :: calls) (f :: out)
| plays_wait f fs t now calls out : ~ due speed t now f -> plays speed (f :: fs) calls out ->
    plays speed (f :: fs) ((t, now) :: calls) out.

(** The first [k] records are complete in the first [n] bytes, and no more. *)
Definition complete (fs : list cframe) (n k : nat) : Prop :=
  (k <= length fs)%nat /\ (length (recorded (firstn k fs)) <= n)%nat /\
  forall j, (k < j <= length fs)%nat -> (n < length (recorded (firstn j fs)))%nat.

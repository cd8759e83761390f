(** dronecan/driver/common.py: CAN frames as the drivers see them. *)
From Verif.Base Require Import Prelude.
Local Open Scope N_scope.

(** common.py 26-40: [CANFrame]. The monotonic time stamp is a number of
    microseconds; the real time stamp is left out. *)
Record cframe := CFrame {
  c_id : N;
  c_data : list N;
  c_ext : bool;
  c_fd : bool;
  c_ts : Z
}.

(** common.py 56-73: [dlc_to_datalength]. *)
Definition dlc_to_datalength (dlc : N) : N :=
  if dlc <=? 8 then dlc
  else if dlc =? 9 then 12
  else if dlc =? 10 then 16
  else if dlc =? 11 then 20
  else if dlc =? 12 then 24
  else if dlc =? 13 then 32
  else if dlc =? 14 then 48
  else 64.
(** common.py 75-90: [datalength_to_dlc]. *)
Definition datalength_to_dlc (len : N) : N :=
  if len <=? 8 then len
  else if len <=? 12 then 9
  else if len <=? 16 then 10
  else if len <=? 20 then 11
  else if len <=? 24 then 12
  else if len <=? 32 then 13
  else if len <=? 48 then 14
  else 15.

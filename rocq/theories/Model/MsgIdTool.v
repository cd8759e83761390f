(** tools/dronecan_msgid_decode.py: the numbers it prints for an identifier. *)
From Verif.Base Require Import Prelude.
From Verif.Model Require Import Slcan Parser.
Local Open Scope N_scope.

(** dronecan_msgid_decode.py 52-62: with the source and the priority, either
    destination, request or response and service type, or the message type. *)
Inductive printed := PrintedService (dest : N) (request : bool) (type : N) | PrintedMessage (type : N).
Definition decode_msgid (x : N) : N * N * printed :=
  let source := N.land (N.shiftr x 0) 0x7F in
  let priority := N.land (N.shiftr x 24) 0x1F in
  (source, priority,
   if negb (N.land (N.shiftr x 7) 0x1 =? 0) then
     PrintedService (N.land (N.shiftr x 8) 0x7F) (negb (N.land (N.shiftr x 15) 0x1 =? 0)) (N.land (N.shiftr x 16) 0xFF)
   else PrintedMessage (N.land (N.shiftr x 8) 0xFFFF)).

(** dronecan_msgid_decode.py 15-21: [num], the identifier on the command line. White
    space of [str.strip] and of [int] is told apart as in Model/Slcan and Model/Parser. *)
Definition num (s : text) : res Z :=
  match py_int 10 s with Ok z => Ok z | Err _ => int16 s end.
(** The tool. No function looks at other than the low 29 bits, so that a
    negative number is as good as its remainder. *)
Definition decode_argument (s : text) : res (N * N * printed) :=
  z <- num s ;; Ok (decode_msgid (Z.to_N (z mod 2 ^ 29))).

(** What the log message monitor promises. *)
From Coq Require Import String.
From Verif.Base Require Import Prelude Bits.
From Verif.Model Require Import Types Codec Utf8 MsgId Frames TransferManager Node LogMonitor.
From Verif.Spec Require Import CodecSpec NodeSpec StreamSpec CanlogSpec.
Open Scope list_scope.
Local Open Scope N_scope.

(** A log message: level, source and text. *)
Record log_message := LogMessage { lm_level : N; lm_source : list N; lm_text : list N }.
(** The type has a level in a structure of its own, and two arrays of bytes. *)
Definition log_type (dt : datatype) : Prop :=
  exists k n cm more rest, dt_fields dt = TComp false (TComp false (TPrim k n cm :: more) :: rest) /\
    data_field 1 dt /\ data_field 2 dt.
(** The value is this log message, with texts in UTF-8. *)
Definition says (v : value) (m : log_message) : Prop :=
  exists level more act vs act', v = VComp (VComp (VPrim level :: more) act :: vs) act' /\ level <> [] /\ N_of_bits level = lm_level m /\
    (exists bytes, utf8_encode (lm_source m) = Ok bytes /\ holds 1 v bytes) /\
    (exists bytes, utf8_encode (lm_text m) = Ok bytes /\ holds 2 v bytes).
(** The line for it, from node [a]: the number has three digits. *)
Definition line_for (a : N) (m : log_message) (line : list N) : Prop :=
  exists x y z, x < 10 /\ y < 10 /\ z < 10 /\ a = 100 * x + 10 * y + z /\
    line = ascii_codes "LogMessageMonitor [#" ++ [48 + x; 48 + y; 48 + z] ++ ascii_codes ":" ++ lm_source m ++ ascii_codes "] " ++ lm_text m.
(** The logger is called at the level of the message with its line. *)
Definition entry_for (a : N) (m : log_message) (e : N * list N) : Prop := fst e = lm_level m /\ line_for a m (snd e).

(** CAN identifiers as the DroneCAN specification lays them out. *)
From Verif.Base Require Import Prelude.
From Verif.Model Require Import MsgId.
Local Open Scope N_scope.

(** The headers that the specification admits: messages from a node, anonymous
    messages, and service transfers. *)
Inductive legal : header -> Prop :=
| legal_message p s d : p < 32 -> 1 <= s < 128 -> d < 2 ^ 16 ->
    legal (Header p false false (Some s) None d None)
| legal_anonymous p d disc : p < 32 -> d < 4 -> disc < 2 ^ 14 ->
    legal (Header p false false (Some 0) None d (Some disc))
| legal_service p r s dst d : p < 32 -> s < 128 -> 1 <= dst < 128 -> d < 2 ^ 8 ->
    legal (Header p true r (Some s) (Some dst) d None).

(** Field positions: priority at bit 24; messages: data type at bit 8;
    anonymous: discriminator at 10, data type at 8; services: data type at 16,
    request flag at 15, destination at 8, service flag at 7; source at 0. *)
Definition can_id (h : header) : N :=
  let num o := match o with Some x => x | None => 0 end in
  h_priority h * 2 ^ 24 +
  (if h_service h then
     h_dtid h * 2 ^ 16 + (if h_request h then 2 ^ 15 else 0) +
     num (h_dest h) * 2 ^ 8 + 2 ^ 7
   else if num (h_source h) =? 0 then
     num (h_discriminator h) * 2 ^ 10 + h_dtid h * 2 ^ 8
   else h_dtid h * 2 ^ 8) +
  num (h_source h).

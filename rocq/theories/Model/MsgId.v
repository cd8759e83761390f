(** CAN identifiers: the [message_id] property of [Transfer] in
    dronecan/transport.py. *)
From Verif.Base Require Import Prelude Bits.
Local Open Scope N_scope.

(** The attributes of a [Transfer] (transport.py 679-697) that the identifier
    carries. [None] is Python's [None]. Simplification: they are natural
    numbers (the code never produces negative ones). *)
Record header := Header {
  h_priority : N;
  h_service : bool;            (* service_not_message *)
  h_request : bool;            (* request_not_response *)
  h_source : option N;
  h_dest : option N;
  h_dtid : N;
  h_discriminator : option N
}.

(** transport.py 682-692: the attributes of [Transfer()]. The data type id of
    a fresh transfer is [None]; every use overwrites it first. *)
Definition fresh_header : header := Header 31 false false (Some 0) None 0 None.

Definition int_of_bool (b : bool) : N := if b then 1 else 0.

(** transport.py 720-746: the [message_id] getter. A comparison of [None] with
    a number raises [TypeError]. *)
Definition message_id (h : header) : res N :=
  let source := match h_source h with Some s => s | None => 0 end in
  let id := N.lor (N.lor (N.shiftl (N.land (h_priority h) 0x1F) 24)
                         (N.shiftl (int_of_bool (h_service h)) 7)) source in
  if h_service h then
    if negb (h_dtid h <=? 0xFF) then Err AssertionError
    else match h_dest h with
         | None => Err TypeError
         | Some dest =>
             if negb ((1 <=? dest) && (dest <=? 0x7F)) then Err AssertionError
             else
               let id := N.lor id (N.shiftl (h_dtid h) 16) in
               let id := N.lor id (N.shiftl (int_of_bool (h_request h)) 15) in
               Ok (N.lor id (N.shiftl dest 8))
         end
  else if match h_source h with Some s => s =? 0 | None => false end then
    match h_dest h, h_discriminator h with
    | None, Some d =>
        let id := N.lor id (N.shiftl d 10) in
        Ok (N.lor id (N.shiftl (N.land (h_dtid h) 0x3) 8))
    | _, _ => Err AssertionError
    end
  else if negb (h_dtid h <=? 0xFFFF) then Err AssertionError
  else Ok (N.lor id (N.shiftl (h_dtid h) 8)).

(** [bool(x & m)] *)
Definition flag (x m : N) : bool := negb (N.land x m =? 0).

(** transport.py 748-763: the [message_id] setter. Attributes that the branch
    does not mention keep their value. *)
Definition set_message_id (h : header) (value : N) : header :=
  let priority := N.land (N.shiftr value 24) 0x1F in
  let service := flag value 0x80 in
  let source := N.land value 0x7F in
  if service then
    Header priority service (flag value 0x8000) (Some source)
      (Some (N.land (N.shiftr value 8) 0x7F)) (N.land (N.shiftr value 16) 0xFF)
      (h_discriminator h)
  else if source =? 0 then
    Header priority service (h_request h) (Some source) (h_dest h)
      (N.land (N.shiftr value 8) 0x3) (Some (N.land (N.shiftr value 10) 0x3FFF))
  else
    Header priority service (h_request h) (Some source) (h_dest h)
      (N.land (N.shiftr value 8) 0xFFFF) (h_discriminator h).

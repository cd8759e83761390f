(** What an adapter with a command line sends, and what becomes of it. *)
From Verif.Base Require Import Prelude.
From Verif.Model Require Import TsEst Slcan Utf8 SlcanCli.
From Verif.Spec Require Import SlcanSpec.
Local Open Scope N_scope.

(** The adapter sends lines of the SLCAN protocol, ended by CR, and lines of
    text, ended by CR LF. *)
Inductive item := FrameItem (line : list N) | TextItem (line : list N).
Definition item_line (i : item) : list N := match i with FrameItem l | TextItem l => l end.
Definition item_bytes (i : item) : list N :=
  match i with FrameItem l => l ++ [13] | TextItem l => l ++ [13; 10] end.
Definition bytes_of (l : list item) : list N := flat_map item_bytes l.
Definition plain (i : item) : Prop := ~ In 13 (item_line i) /\ ~ In 10 (item_line i).
Definition frame_lines (l : list item) : list (list N) :=
  flat_map (fun i => match i with FrameItem x => [x] | TextItem _ => [] end) l.
Definition text_lines (l : list item) : list (list N) :=
  flat_map (fun i => match i with FrameItem _ => [] | TextItem x => [x] end) l.

(** What happens: the transmitting thread announces and sends a command; the
    adapter sends something; the port is read. *)
Inductive happening := Asked (q : request) | Sent (i : item) | Read (r : reading).
Definition asked (l : list happening) : list request :=
  flat_map (fun h => match h with Asked q => [q] | _ => [] end) l.
Definition sent (l : list happening) : list item :=
  flat_map (fun h => match h with Sent i => [i] | _ => [] end) l.
Definition readings (l : list happening) : list reading :=
  flat_map (fun h => match h with Read r => [r] | _ => [] end) l.
Definition bytes_read (l : list happening) : list N := flat_map rd_bytes (readings l).
Definition prefix {A} (a b : list A) : Prop := exists rest, b = a ++ rest.

(** The local times of the readings. *)
Definition times_of (l : list happening) : list (Z * Z) := map (fun r => (rd_mono r, rd_real r)) (readings l).

(** Only what was sent is read, in order. *)
Definition possible (l : list happening) : Prop :=
  Forall plain (sent l) /\ forall a b, l = a ++ b -> prefix (bytes_read a) (bytes_of (sent a)).

Section Receiver.
  Variable params : est_params.
  Definition happens (s : cli) (h : happening) : cli :=
    match h with Asked q => cli_queue s q | Sent _ => s | Read r => cli_read params s r end.
  Definition cli_run (s : cli) (l : list happening) : cli := fold_left happens l s.
End Receiver.

(** Text is not read as a frame. *)
Definition no_frame (line : list N) : Prop := forall x, slcan_parse line <> Ok (Some x).
Definition decodable (line : list N) : Prop := exists t, utf8_decode line = Ok t.
(** A command can be encoded and does not begin with a line feed (white space
    is removed when it is asked for). *)
Definition sendable (q : request) : Prop := is_ok (utf8_encode (q_command q)) = true /\ hd 0 (q_command q) <> LF.

(** [output] stands between the echo of the command and the next end mark. *)
Definition output_of (q : request) (output : list (list N)) (texts : list (list N)) : Prop :=
  exists before echo after, texts = before ++ echo :: output ++ [3] :: after /\
    utf8_encode (q_command q) = Ok echo /\ ~ In [3] output.

(** An answer holds the output of its command, decoded, or says that the request
    expired. *)
Definition answered (texts : list (list N)) (a : answer) : Prop :=
  a_expired a = true \/ exists output, decode_lines output = Ok (a_lines a) /\ output_of (a_request a) output texts.

(** Everything that an adapter sends for a command. *)
Definition whole_output (reply : request -> list (list N)) (q : request) (texts : list (list N)) : Prop :=
  exists echo, utf8_encode (q_command q) = Ok echo /\ texts = echo :: reply q ++ [[3]] /\
    ~ In [3] (reply q).
Inductive outputs (reply : request -> list (list N)) : list request -> list (list N) -> Prop :=
| outputs_none : outputs reply [] []
| outputs_more q r t ts : whole_output reply q t -> outputs reply r ts -> outputs reply (q :: r) (t ++ ts).

(** All text is output of commands, in the order in which they were asked
    for and never before. *)
Definition obedient (reply : request -> list (list N)) (l : list happening) : Prop :=
  forall a b, l = a ++ b -> exists all, outputs reply (asked a) all /\ prefix (text_lines (sent a)) all.
(** No request expires before its output has been read. *)
Definition in_time (reply : request -> list (list N)) (l : list happening) : Prop :=
  forall a r b before q after, l = a ++ Read r :: b -> asked a = before ++ q :: after -> (q_deadline q <= rd_now r)%Z ->
    exists items, prefix items (sent a) /\ prefix (bytes_of items) (bytes_read a) /\ outputs reply (before ++ [q]) (text_lines items).

(** The answer to a request. *)
Definition right_answer (reply : request -> list (list N)) (q : request) (a : answer) : Prop :=
  a_request a = q /\ a_expired a = false /\ decode_lines (reply q) = Ok (a_lines a).

(** ** With the main process *)
(** The commands asked for, and the times at which the port was read. *)
Definition all_requests (l : list event) : list request :=
  flat_map (fun e => match e with Execute t cmd d => [request_new t cmd d] | _ => [] end) l.
Definition port_times (l : list event) : list Z := flat_map (fun e => match e with Port r => [rd_now r] | _ => [] end) l.
(** An answer says that the request expired only if it did. *)
Definition expired_at (times : list Z) (a : answer) : Prop :=
  a_expired a = true -> exists now, In now times /\ (q_deadline (a_request a) <= now)%Z.
(** What the program asked for, and the request made of it: the command
    without the white space before it. *)
Definition executed (l : list event) : list (nat * list N * Z) :=
  flat_map (fun e => match e with Execute t cmd d => [(t, cmd, d)] | _ => [] end) l.
Definition white : list N :=
  [9; 10; 11; 12; 13; 28; 29; 30; 31; 32; 0x85; 0xA0; 0x1680; 0x2000; 0x2001; 0x2002; 0x2003; 0x2004; 0x2005; 0x2006; 0x2007;
   0x2008; 0x2009; 0x200A; 0x2028; 0x2029; 0x202F; 0x205F; 0x3000].
Definition made_of (x : nat * list N * Z) (q : request) : Prop :=
  let '(tag, command, deadline) := x in
  q_tag q = tag /\ q_deadline q = deadline /\
  exists b, command = b ++ q_command q /\ Forall (fun c => In c white) b /\
    match q_command q with c :: _ => ~ In c white | [] => True end.

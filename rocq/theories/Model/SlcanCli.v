(** SLCAN (dronecan/driver/slcan.py): the receiving thread with command line
    requests, and their way from and to the main process. Texts are lists of
    code points, bytes are numbers and times are in microseconds. *)
From Verif.Base Require Import Prelude.
From Verif.Model Require Import TsEst Slcan Utf8.
Local Open Scope N_scope.

Definition LF : N := 10.

(** slcan.py 163-174: a request to execute a command. [q_tag] is not in the
    program: it tells requests with the same text apart. *)
Record request := { q_tag : nat; q_command : list N; q_deadline : Z }.

(** slcan.py 177-186: the response; [a_request] stands for the command text,
    which is all the program keeps of the request. *)
Record answer := { a_request : request; a_lines : list (list N); a_expired : bool }.

(** slcan.py 172-174 *)
Definition expired (now : Z) (q : request) : bool := (q_deadline q <=? now)%Z.

(** [' \t\n\r\x0b\x0c'] and the other characters [str.lstrip] removes. *)
Definition is_blank (c : N) : bool :=
  (c =? 32) || (9 <=? c) && (c <=? 13) || (28 <=? c) && (c <=? 31) || (c =? 0x85) || (c =? 0xA0) || (c =? 0x1680)
  || (0x2000 <=? c) && (c <=? 0x200A) || (c =? 0x2028) || (c =? 0x2029) || (c =? 0x202F) || (c =? 0x205F) || (c =? 0x3000).
(** slcan.py 166-170: the constructor. *)
Definition request_new (tag : nat) (command : list N) (deadline : Z) : request :=
  {| q_tag := tag; q_command := drop_while is_blank command; q_deadline := deadline |}.

(** [data.split(b'\r\n')] *)
Fixpoint split_crlf (l : list N) : list (list N) :=
  match l with
  | [] => [[]]
  | b :: r =>
      match r with
      | [] => [[b]]
      | c :: r' =>
          if (b =? CR) && (c =? LF) then [] :: split_crlf r'
          else match split_crlf r with p :: ps => (b :: p) :: ps | [] => [[b]] end
      end
  end.

Fixpoint list_eqb (a b : list N) : bool :=
  match a, b with
  | [], [] => true
  | x :: a, y :: b => (x =? y) && list_eqb a b
  | _, _ => false
  end.

(** slcan.py 179-185: the lines are decoded. *)
Fixpoint decode_lines (l : list (list N)) : res (list (list N)) :=
  match l with
  | [] => Ok []
  | x :: r => t <- utf8_decode x ;; ts <- decode_lines r ;; Ok (t :: ts)
  end.

(** slcan.py 197, 300-306: the receiver. [k_pending] is the queue of
    requests from the transmitting thread. The queue to the main process is
    kept by kind: the frames (in [k_rx]), the answers and the exceptions, each
    in order. *)
Record cli := {
  k_rx : rx_worker;
  k_outstanding : option request;
  k_lines : list (list N);
  k_pending : list request;
  k_answers : list answer;
  k_errors : list exn
}.
Definition cli_new : cli :=
  {| k_rx := rx_new; k_outstanding := None; k_lines := []; k_pending := []; k_answers := []; k_errors := [] |}.
Definition with_rx (s : cli) (r : rx_worker) : cli :=
  {| k_rx := r; k_outstanding := k_outstanding s; k_lines := k_lines s; k_pending := k_pending s;
     k_answers := k_answers s; k_errors := k_errors s |}.
Definition with_data (s : cli) (d : list N) : cli :=
  with_rx s {| rx_data := d; rx_mono := rx_mono (k_rx s); rx_real := rx_real (k_rx s); rx_out := rx_out (k_rx s) |}.
Definition with_error (s : cli) (x : exn) : cli :=
  {| k_rx := k_rx s; k_outstanding := k_outstanding s; k_lines := k_lines s; k_pending := k_pending s;
     k_answers := k_answers s; k_errors := k_errors s ++ [x] |}.
(** slcan.py 423: the transmitting thread announces a request. *)
Definition cli_queue (s : cli) (q : request) : cli :=
  {| k_rx := k_rx s; k_outstanding := k_outstanding s; k_lines := k_lines s; k_pending := k_pending s ++ [q];
     k_answers := k_answers s; k_errors := k_errors s |}.

(** slcan.py 308-323: with no request outstanding, the next one that is not
    expired is fetched. *)
Fixpoint fetch (now : Z) (pending : list request) : option request * list request * list answer :=
  match pending with
  | [] => (None, [], [])
  | q :: r =>
      if expired now q
      then let '(c, p, a) := fetch now r in (c, p, {| a_request := q; a_lines := []; a_expired := true |} :: a)
      else (Some q, r, [])
  end.
(** The lines are emptied when a request is fetched. All requests are
    compared with the same time. *)
Definition cli_check (s : cli) (now : Z) : cli :=
  let start_over (before : list answer) :=
    let '(c, p, a) := fetch now (k_pending s) in
    {| k_rx := k_rx s; k_outstanding := c;
       k_lines := match k_pending s with [] => k_lines s | _ => [] end;
       k_pending := p; k_answers := k_answers s ++ before ++ a; k_errors := k_errors s |} in
  match k_outstanding s with
  | None => start_over []
  | Some q => if expired now q then start_over [{| a_request := q; a_lines := []; a_expired := true |}] else s
  end.

(** slcan.py 346-372: a line of the command line. With an exception the
    state is as it was. *)
Definition cli_text (s : cli) (line : list N) : res cli :=
  match k_lines s with
  | [] =>
      match k_outstanding s with
      | None => Ok s
      | Some q =>
          echo <- utf8_encode (q_command q) ;;
          if list_eqb line echo
          then Ok {| k_rx := k_rx s; k_outstanding := k_outstanding s; k_lines := [line]; k_pending := k_pending s;
                     k_answers := k_answers s; k_errors := k_errors s |}
          else Ok s
      end
  | _ :: output =>
      if list_eqb line [END_OF_TEXT]
      then
        match k_outstanding s with
        | None => Err AttributeError
        | Some q =>
            lines <- decode_lines output ;;
            Ok {| k_rx := k_rx s;
                  k_outstanding := match k_pending s with [] => None | n :: _ => Some n end;
                  k_lines := []; k_pending := tl (k_pending s);
                  k_answers := k_answers s ++ [{| a_request := q; a_lines := lines; a_expired := false |}];
                  k_errors := k_errors s |}
        end
      else Ok {| k_rx := k_rx s; k_outstanding := k_outstanding s; k_lines := k_lines s ++ [line];
                 k_pending := k_pending s; k_answers := k_answers s; k_errors := k_errors s |}
  end.

Section Receiver.
  Variable params : est_params.

  (** slcan.py 338-372: the mix of lines; the exception ends it. *)
  Fixpoint cli_pieces (s : cli) (pieces : list (list N)) (tm tr : Z) : cli * option exn :=
    match pieces with
    | [] => (s, None)
    | p :: r =>
        let tmp := split_cr p in
        let s1 := with_rx s (process_lines params (k_rx s) (removelast tmp) tm tr) in
        match cli_text s1 (last tmp []) with
        | Ok s2 => cli_pieces s2 r tm tr
        | Err x => (s1, Some x)
        end
    end.

  (** A reading: the bytes, the local times and the time at which expiry is
      checked. *)
  Record reading := { rd_bytes : list N; rd_mono : Z; rd_real : Z; rd_now : Z }.

  (** slcan.py 302-396: one iteration of [run]. Giving up after 1000 errors is
      left out. *)
  Definition cli_read (s : cli) (r : reading) : cli :=
    let data := rx_data (k_rx s) ++ rd_bytes r in
    let tm := rd_mono r in
    let tr := rd_real r in
    let s1 := cli_check s (rd_now r) in
    match k_outstanding s1 with
    | None =>
        let pieces := split_cr data in
        let s2 := with_data s1 (last pieces []) in
        with_rx s2 (process_lines params (k_rx s2) (removelast pieces) tm tr)
    | Some _ =>
        let pieces := split_crlf data in
        let data := last pieces [] in
        match cli_pieces (with_data s1 data) (removelast pieces) tm tr with
        | (s2, Some x) => with_error s2 x
        | (s2, None) =>
            let lines := split_cr (removelast data) in
            let last_byte := skipn (length data - 1) data in
            let s3 := with_data s2 (last lines [] ++ last_byte) in
            with_rx s3 (process_lines params (k_rx s3) (removelast lines) tm tr)
        end
    end.

  (** ** With the main process *)

  (** slcan.py 714: the requests whose callback is still to be called
      ([_cli_command_requests]; the callback is given by the request's tag),
      the queue to the transmitting thread, and the calls made. *)
  Record driver := {
    d_requests : list (list N * nat);
    d_tx : list request;
    d_cli : cli;
    d_calls : list (nat * answer)
  }.
  Definition driver_new : driver := {| d_requests := []; d_tx := []; d_cli := cli_new; d_calls := [] |}.

  (** slcan.py 844-852: a response is taken to the first stored request with
      its text; those before it are dropped. *)
  Fixpoint match_response (requests : list (list N * nat)) (a : answer) : list (list N * nat) * list (nat * answer) :=
    match requests with
    | [] => ([], [])
    | (command, callback) :: r =>
        if list_eqb command (q_command (a_request a)) then (r, [(callback, a)]) else match_response r a
    end.

  (** What can happen, in any order: the program asks for a command (slcan.py
      872-890, unless the queue is full); the transmitting thread takes the
      next request (434-435, 420-425; the queue's frames are left out); the
      port is read; the main process takes the next response (844-852). *)
  Inductive event :=
  | Execute (tag : nat) (command : list N) (deadline : Z)
  | Transmit
  | Port (r : reading)
  | Receive.

  Definition driver_step (s : driver) (e : event) : driver :=
    match e with
    | Execute tag command deadline =>
        let q := request_new tag command deadline in
        {| d_requests := d_requests s ++ [(q_command q, tag)]; d_tx := d_tx s ++ [q]; d_cli := d_cli s; d_calls := d_calls s |}
    | Transmit =>
        match d_tx s with
        | [] => s
        | q :: r => {| d_requests := d_requests s; d_tx := r; d_cli := cli_queue (d_cli s) q; d_calls := d_calls s |}
        end
    | Port r => {| d_requests := d_requests s; d_tx := d_tx s; d_cli := cli_read (d_cli s) r; d_calls := d_calls s |}
    | Receive =>
        let k := d_cli s in
        match k_answers k with
        | [] => s
        | a :: rest =>
            let (requests, calls) := match_response (d_requests s) a in
            {| d_requests := requests; d_tx := d_tx s;
               d_cli := {| k_rx := k_rx k; k_outstanding := k_outstanding k; k_lines := k_lines k;
                           k_pending := k_pending k; k_answers := rest; k_errors := k_errors k |};
               d_calls := d_calls s ++ calls |}
        end
    end.
  Definition driver_run (s : driver) (l : list event) : driver := fold_left driver_step l s.
End Receiver.

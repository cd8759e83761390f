(** SLCAN (dronecan/driver/slcan.py): the lines exchanged with the adapter and
    the receiving thread in normal mode (no command line request
    outstanding). Bytes are numbers; times are in microseconds. *)
From Verif.Base Require Import Prelude.
From Verif.Model Require Import CanFrame TsEst.
Local Open Scope N_scope.

Definition CR : N := 13.
Definition NACK : N := 7.
Definition END_OF_TEXT : N := 3.

(** ** Python's text functions on bytes *)

Fixpoint drop_while {A} (p : A -> bool) (l : list A) : list A :=
  match l with [] => [] | x :: r => if p x then drop_while p r else l end.
(** [bytes.strip] *)
Definition strip (p : N -> bool) (l : list N) : list N := rev (drop_while p (rev (drop_while p l))).
(** The default of [bytes.strip], and what [int] skips. *)
Definition is_space (b : N) : bool := (b =? 32) || (9 <=? b) && (b <=? 13).
Definition hex_value (b : N) : option N :=
  if (48 <=? b) && (b <=? 57) then Some (b - 48)
  else if (65 <=? b) && (b <=? 70) then Some (b - 55)
  else if (97 <=? b) && (b <=? 102) then Some (b - 87)
  else None.
Definition hex_digit (upper : bool) (d : N) : N := if d <? 10 then 48 + d else if upper then 55 + d else 87 + d.

(** Digits with single underscores between them; [digit]: the last one was a
    digit. *)
Fixpoint scan_hex (l : list N) (acc : N) (digit : bool) : option (N * list N) :=
  match l with
  | [] => if digit then Some (acc, []) else None
  | b :: r =>
      if b =? 95 then if digit then scan_hex r acc false else None
      else match hex_value b with
           | Some d => scan_hex r (16 * acc + d) true
           | None => if digit then Some (acc, l) else None
           end
  end.
(** [int(b, 16)]: white space around, a sign, the prefix 0x and underscores
    are accepted. *)
Definition int16 (b : list N) : res Z :=
  let s := drop_while is_space b in
  let '(neg, s) := match s with
                   | 43 :: r => (false, r)
                   | 45 :: r => (true, r)
                   | _ => (false, s)
                   end in
  let s := match s with
           | 48 :: x :: r => if (x =? 120) || (x =? 88)
                             then match r with 95 :: r' => r' | _ => r end else s
           | _ => s
           end in
  match scan_hex s 0 false with
  | Some (n, rest) => if forallb is_space rest then Ok (if neg then - Z.of_N n else Z.of_N n)%Z else Err ValueError
  | None => Err ValueError
  end.
(** [binascii.a2b_hex] *)
Fixpoint a2b_hex (l : list N) : res (list N) :=
  match l with
  | [] => Ok []
  | [_] => Err ValueError
  | a :: b :: r => match hex_value a, hex_value b with
                   | Some x, Some y => t <- a2b_hex r ;; Ok (16 * x + y :: t)
                   | _, _ => Err ValueError
                   end
  end.
(** [width] digits of a number *)
Fixpoint hex_fixed (upper : bool) (width : nat) (n : N) : list N :=
  match width with
  | O => []
  | S w => hex_fixed upper w (n / 16) ++ [hex_digit upper (n mod 16)]
  end.
(** ['%0<width>X'] *)
Definition hex_min (width : nat) (n : N) : list N :=
  hex_fixed true (Nat.max width (N.to_nat (N.log2 n / 4 + 1))) n.
(** [binascii.b2a_hex] *)
Definition b2a_hex (b : list N) : list N := flat_map (hex_fixed false 2) b.

(** ** Transmission *)

(** slcan.py 409-414: the line written for a frame. For a standard frame the
    format ['t%03X'] is given two arguments, the first one a string. *)
Definition slcan_encode (f : cframe) : res (list N) :=
  if c_ext f then
    Ok ([if c_fd f then 68 else 84] ++ hex_min 8 (c_id f)
        ++ hex_min 1 (datalength_to_dlc (N.of_nat (length (c_data f)))) ++ b2a_hex (c_data f) ++ [CR])
  else Err TypeError.

(** ** Reception *)

(** The identifier is an integer, of either sign. *)
Record rxframe := { r_id : Z; r_data : list N; r_ext : bool; r_fd : bool }.

(** slcan.py 243-283: what is read from a line before the time stamp is
    converted: nothing, or a frame and the adapter's time in milliseconds. *)
Definition slcan_parse (raw : list N) : res (option (rxframe * option Z)) :=
  let line := strip (N.eqb END_OF_TEXT) (strip (N.eqb NACK) (strip is_space raw)) in
  let line_len := length line in
  let header :=
    match line with
    | [] => None
    | b :: _ => if b =? 84 then Some (8%nat, false)
                else if b =? 116 then Some (3%nat, false)
                else if b =? 68 then Some (8%nat, true)
                else None
    end in
  match header with
  | None => Ok None
  | Some (id_len, canfd) =>
      packet_id <- int16 (firstn id_len (skipn 1 line)) ;;
      match nth_error line (1 + id_len) with
      | None => Err IndexError
      | Some c =>
          match hex_value c with
          | None => Err ValueError
          | Some dlc =>
              let packet_len := N.to_nat (dlc_to_datalength dlc) in
              if (if canfd then 64 <? packet_len else 8 <? packet_len)%nat then Err DriverError
              else
                let with_timestamp := (2 + id_len + packet_len * 2 <? line_len)%nat in
                packet_data <- a2b_hex (firstn (packet_len * 2) (skipn (2 + id_len) line)) ;;
                ts <- (if with_timestamp
                       then t <- int16 (skipn (line_len - 4) line) ;; Ok (Some t)
                       else Ok None) ;;
                Ok (Some ({| r_id := packet_id; r_data := packet_data; r_ext := (id_len =? 8)%nat; r_fd := canfd |}, ts))
          end
      end
  end.

(** slcan.py 207-218: the receiver; [rx_out] is the queue to the main
    process, taken not to be full. Estimates are multiplied by [e_scale]. *)
Record rx_worker := {
  rx_data : list N;
  rx_mono : estimator;
  rx_real : estimator;
  rx_out : list (rxframe * Z * Z)
}.
Definition rx_new : rx_worker := {| rx_data := []; rx_mono := es_new; rx_real := es_new; rx_out := [] |}.

Section Receiver.
  Variable params : est_params.

  (** slcan.py 243-289: [_process_slcan_line]. *)
  Definition process_line (s : rx_worker) (line : list N) (tm tr : Z) : rx_worker * res unit :=
    match slcan_parse line with
    | Err x => (s, Err x)
    | Ok None => (s, Ok tt)
    | Ok (Some (f, None)) =>
        ({| rx_data := rx_data s; rx_mono := rx_mono s; rx_real := rx_real s;
            rx_out := rx_out s ++ [(f, e_scale params * tm, e_scale params * tr)%Z] |}, Ok tt)
    | Ok (Some (f, Some ts)) =>
        match es_update params (rx_mono s) (ts * 1000) tm with
        | (em, Err x) => ({| rx_data := rx_data s; rx_mono := em; rx_real := rx_real s; rx_out := rx_out s |}, Err x)
        | (em, Ok m) =>
            match es_update params (rx_real s) (ts * 1000) tr with
            | (er, Err x) => ({| rx_data := rx_data s; rx_mono := em; rx_real := er; rx_out := rx_out s |}, Err x)
            | (er, Ok r) => ({| rx_data := rx_data s; rx_mono := em; rx_real := er;
                                rx_out := rx_out s ++ [(f, et_time m, et_time r)] |}, Ok tt)
            end
        end
    end.

  (** slcan.py 291-297: [_process_many_slcan_lines]; exceptions are caught. *)
  Fixpoint process_lines (s : rx_worker) (lines : list (list N)) (tm tr : Z) : rx_worker :=
    match lines with
    | [] => s
    | l :: r => process_lines (fst (process_line s l tm tr)) r tm tr
    end.

  (** [data.split(b'\r')] *)
  Fixpoint split_cr (l : list N) : list (list N) :=
    match l with
    | [] => [[]]
    | b :: r => if b =? CR then [] :: split_cr r
                else match split_cr r with p :: ps => (b :: p) :: ps | [] => [[b]] end
    end.

  (** slcan.py 310-343: one reading of the port in normal mode. *)
  Definition rx_read (s : rx_worker) (read : list N * Z * Z) : rx_worker :=
    let '(new_data, tm, tr) := read in
    let pieces := split_cr (rx_data s ++ new_data) in
    process_lines {| rx_data := last pieces []; rx_mono := rx_mono s; rx_real := rx_real s; rx_out := rx_out s |}
                  (removelast pieces) tm tr.
  Fixpoint rx_reads (s : rx_worker) (reads : list (list N * Z * Z)) : rx_worker :=
    match reads with [] => s | r :: rs => rx_reads (rx_read s r) rs end.
End Receiver.

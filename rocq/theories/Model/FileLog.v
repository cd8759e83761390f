(** dronecan/driver/file.py: the driver that records to and plays back from a
    log file.
    Simplifications: times are whole microseconds, so that the conversions to
    and from floating point seconds are exact; a frame whose local time would
    be exactly zero is not given the present time instead (common.py 32); the
    file does not change while it is read. *)
From Verif.Base Require Import Prelude Pack.
From Verif.Model Require Import Crc CanFrame.
Local Open Scope N_scope.

(** 27-28 *)
Definition FILE_MAGIC : N := 0x2934.
Definition FILE_FLAG_CANFD : N := 1.

(** ** Recording *)

(** 162-185: [send_frame]: what is appended to the file. [struct.pack] raises
    if a field does not fit. *)
Definition record (f : cframe) : res (list N) :=
  let flags := if c_fd f then FILE_FLAG_CANFD else 0 in
  let msgid := if c_ext f then N.lor (c_id f) (N.shiftl 1 31) else c_id f in
  let crc := crc16_from_bytes (c_data f) 0xFFFF in
  b1 <- pack_le 2 (Z.of_N FILE_MAGIC) ;;
  b2 <- pack_le 8 (c_ts f) ;;
  b3 <- pack_le 2 (Z.of_N crc) ;;
  b4 <- pack_le 2 (Z.of_nat (length (c_data f))) ;;
  b5 <- pack_le 2 (Z.of_N flags) ;;
  b6 <- pack_le 4 (Z.of_N msgid) ;;
  Ok (b1 ++ b2 ++ b3 ++ b4 ++ b5 ++ b6 ++ c_data f).
(** A file recorded by successive calls; a call that raises appends nothing. *)
Definition recorded (fs : list cframe) : list N :=
  flat_map (fun f => match record f with Ok b => b | Err _ => [] end) fs.

(** ** Playing back *)

(** The open file: position, [eof], [start_monotonic_ts],
    [start_file_monotonic_ts], [end_file_monotonic_ts] and [curr_frame]. *)
Record reader := {
  r_pos : nat;
  r_eof : bool;
  r_start : option Z;
  r_first : Z;
  r_end : option Z;
  r_curr : option cframe
}.
Definition with_pos (r : reader) (pos : nat) (eof : bool) : reader :=
  {| r_pos := pos; r_eof := eof; r_start := r_start r; r_first := r_first r; r_end := r_end r; r_curr := r_curr r |}.

(** [bytes[i:j]] of a header *)
Definition field (i n : nat) (b : list N) : N := le_value (firstn n (skipn i b)).

Section Reading.
  Variable content : list N.

  (** 67-93: [_read_frame]: the frame and its time stamp. *)
  Definition read_frame (r : reader) : reader * res (option (cframe * Z)) :=
    if (length content <=? r_pos r)%nat then (with_pos r (r_pos r) true, Ok None)
    else
      let header := firstn 20 (skipn (r_pos r) content) in
      let pos := (r_pos r + length header)%nat in
      let r := with_pos r pos (r_eof r) in
      if (length header <? 20)%nat then (r, Ok None)
      else if negb (field 0 2 header =? FILE_MAGIC) then (r, Err DriverError)
      else
        let len := N.to_nat (field 12 2 header) in
        let data := firstn len (skipn pos content) in
        let r := with_pos r (pos + length data) (r_eof r) in
        if (length data <? len)%nat then (r, Err DriverError)
        else if negb (field 10 2 header =? crc16_from_bytes data 0xFFFF) then (r, Err DriverError)
        else
          let timestamp := Z.of_N (field 2 8 header) in
          let flags := field 14 2 header in
          let msgid := field 16 4 header in
          match r_start r with
          | None => (r, Err TypeError)
          | Some start =>
              (r, Ok (Some ({| c_id := N.land msgid 0x1FFFFFFF; c_data := data;
                               c_ext := negb (N.land msgid (N.shiftl 1 31) =? 0);
                               c_fd := negb (N.land flags FILE_FLAG_CANFD =? 0);
                               c_ts := (start + timestamp - r_first r)%Z |}, timestamp)))
          end.

  (** 105-109: the loop of [set_first_and_last_timestamp]; every frame takes
      20 bytes, so the length of the file is enough fuel. *)
  Fixpoint scan (fuel : nat) (r : reader) : res reader :=
    match fuel with
    | O => Err RuntimeError
    | S fuel =>
        let '(r, x) := read_frame r in
        o <- x ;;
        let r := {| r_pos := r_pos r; r_eof := r_eof r; r_start := r_start r; r_first := r_first r;
                    r_end := match o with Some (_, ts) => Some ts | None => None end; r_curr := r_curr r |} in
        match o with None => Ok r | Some _ => scan fuel r end
    end.
  (** 95-112: [set_first_and_last_timestamp], and 42-52: the constructor, with
      the clock reading of line 49. *)
  Definition open_log (now : Z) : res reader :=
    let r := {| r_pos := 0; r_eof := false; r_start := Some now; r_first := 0; r_end := None; r_curr := None |} in
    let '(r, x) := read_frame r in
    o <- x ;;
    match o with
    | None => Err DriverError
    | Some (_, ts) =>
        r <- scan (S (length content))
               {| r_pos := r_pos r; r_eof := r_eof r; r_start := r_start r; r_first := ts; r_end := None; r_curr := None |} ;;
        Ok (with_pos r 0 false)
    end.

  (** 117-118, 114-115 *)
  Definition get_last_timestamp (r : reader) : option Z := r_end r.
  Definition get_start_timestamp (r : reader) : Z := r_first r.
  (** 120-121 *)
  Definition set_start_timestamp (r : reader) (ts : option Z) : reader :=
    {| r_pos := r_pos r; r_eof := r_eof r; r_start := ts; r_first := r_first r; r_end := r_end r; r_curr := r_curr r |}.

  (** 135-160: [receive] at clock reading [now]. [speed] is the speed-up
      factor (positive), or [None] for -1: all at once. *)
  Variable speed : option Z.
  Definition receive (r : reader) (timeout : option Z) (now : Z) : reader * res (option cframe) :=
    if r_eof r then (r, Ok None)
    else
      let r := match r_start r with None => set_start_timestamp r (Some now) | Some _ => r end in
      let '(r, x) :=
        match r_curr r with
        | Some f => (r, Ok (Some f))
        | None =>
            let '(r, x) := read_frame r in
            ({| r_pos := r_pos r; r_eof := r_eof r; r_start := r_start r; r_first := r_first r; r_end := r_end r;
                r_curr := match x with Ok (Some (f, _)) => Some f | _ => None end |},
             match x with Ok (Some (f, _)) => Ok (Some f) | Ok None => Ok None | Err e => Err e end)
        end in
      match x with
      | Err e => (r, Err e)
      | Ok None => (r, Ok None)
      | Ok (Some f) =>
          let wait := match speed with None => false | Some _ => (now <? c_ts f)%Z end in
          let soon := match speed, timeout with
                      | Some v, Some t => (c_ts f - now <=? t * v)%Z
                      | _, _ => false
                      end in
          if wait && negb soon then (r, Ok None)
          else ({| r_pos := r_pos r; r_eof := r_eof r; r_start := r_start r; r_first := r_first r; r_end := r_end r;
                   r_curr := None |}, Ok (Some f))
      end.

  (** Successive calls: what they deliver. *)
  Fixpoint receive_all (r : reader) (calls : list (option Z * Z)) : reader * list (res cframe) :=
    match calls with
    | [] => (r, [])
    | (t, now) :: calls =>
        let '(r, x) := receive r t now in
        let '(r, out) := receive_all r calls in
        (r, match x with Ok None => out | Ok (Some f) => Ok f :: out | Err e => Err e :: out end)
    end.
End Reading.

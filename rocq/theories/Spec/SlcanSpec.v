(** Lines of the SLCAN protocol. *)
From Verif.Base Require Import Prelude.
From Verif.Model Require Import CanFrame TsEst Slcan.
From Verif.Spec Require Import PacketSpec TsSpec.
Local Open Scope N_scope.

(** ['0'..'9' 'A'..'F'] and ['0'..'9' 'a'..'f'] *)
Definition upper_digits : list N := [48; 49; 50; 51; 52; 53; 54; 55; 56; 57; 65; 66; 67; 68; 69; 70].
Definition lower_digits : list N := [48; 49; 50; 51; 52; 53; 54; 55; 56; 57; 97; 98; 99; 100; 101; 102].
Definition digit_char (c d : N) : Prop :=
  nth_error upper_digits (N.to_nat d) = Some c \/ nth_error lower_digits (N.to_nat d) = Some c.
(** [l] is the number [n] in hexadecimal. *)
Definition text (l : list N) (n : N) : Prop :=
  exists ds, Forall2 digit_char l ds /\ n = fold_left (fun a d => 16 * a + d) ds 0.

(** Type, identifier, length code, data, and possibly the adapter's time. *)
Definition frame_line (f : rxframe) (ts : option N) (line : list N) : Prop :=
  exists idt c pairs tail dlc,
    line = (if r_fd f then 68 else if r_ext f then 84 else 116) :: idt ++ c :: concat pairs ++ tail /\
    (r_fd f = true -> r_ext f = true) /\
    length idt = (if r_ext f then 8 else 3)%nat /\ (exists n, r_id f = Z.of_N n /\ text idt n) /\
    text [c] dlc /\ nth_error legal_lengths (N.to_nat dlc) = Some (N.of_nat (length (r_data f))) /\
    (r_fd f = false -> length (r_data f) <= 8)%nat /\
    Forall2 (fun p b => length p = 2%nat /\ text p b) pairs (r_data f) /\
    match ts with None => tail = [] | Some t => length tail = 4%nat /\ text tail t end.

(** The same frame. *)
Definition as_received (f : cframe) (g : rxframe) : Prop :=
  r_id g = Z.of_N (c_id f) /\ r_data g = c_data f /\ r_ext g = c_ext f /\ r_fd g = c_fd f.

(** The lines of a stream that are complete. *)
Fixpoint complete_lines (cur : list N) (l : list N) : list (list N) :=
  match l with
  | [] => []
  | b :: r => if b =? 13 then cur :: complete_lines [] r else complete_lines (cur ++ [b]) r
  end.
(** The frames in them. *)
Definition frames_in (lines : list (list N)) : list rxframe :=
  flat_map (fun l => match slcan_parse l with Ok (Some (f, _)) => [f] | _ => [] end) lines.
(** The adapter's times in them, in microseconds. *)
Definition times_in (lines : list (list N * (Z * Z))) : list (Z * (Z * Z)) :=
  flat_map (fun l => match slcan_parse (fst l) with Ok (Some (_, Some t)) => [(t * 1000, snd l)%Z] | _ => [] end) lines.
Definition no_times (lines : list (list N)) : Prop :=
  Forall (fun l => forall f t, slcan_parse l <> Ok (Some (f, Some t))) lines.
Definition delivered (s : rx_worker) : list rxframe := map (fun x => fst (fst x)) (rx_out s).
(** What follows them. *)
Fixpoint remainder (cur : list N) (l : list N) : list N :=
  match l with
  | [] => cur
  | b :: r => if b =? 13 then remainder [] r else remainder (cur ++ [b]) r
  end.
(** Each line with the times of the reading that completed it. *)
Fixpoint tagged (cur : list N) (reads : list (list N * Z * Z)) : list (list N * (Z * Z)) :=
  match reads with
  | [] => []
  | (d, tm, tr) :: r => map (fun l => (l, (tm, tr))) (complete_lines cur d) ++ tagged (remainder cur d) r
  end.
Definition stream (reads : list (list N * Z * Z)) : list N := concat (map (fun r => fst (fst r)) reads).
(** Processing one line after the other. *)
Fixpoint process_tagged (params : est_params) (s : rx_worker) (l : list (list N * (Z * Z))) : rx_worker :=
  match l with
  | [] => s
  | (line, (tm, tr)) :: r => process_tagged params (fst (process_line params s line tm tr)) r
  end.

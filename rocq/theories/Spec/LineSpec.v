(** The lines that are read as SLCAN frames: what is passed over around them,
    and what is taken for numbers, data and the adapter's time in them. *)
From Verif.Base Require Import Prelude Bits.
From Verif.Model Require Import Slcan.
From Verif.Spec Require Import PacketSpec GrammarSpec SlcanSpec.
Open Scope list_scope.
Open Scope N_scope.

Definition white (c : N) : Prop := c = 32 \/ 9 <= c <= 13.
(** [s] is [t] with characters of the kind [p] around it, and [t] neither
    begins nor ends with one. *)
Definition peeled (p : N -> Prop) (s t : list N) : Prop :=
  exists a b, s = a ++ t ++ b /\ Forall p (a ++ b) /\
    (t = [] \/ ((exists x r, t = x :: r /\ ~ p x) /\ exists q y, t = q ++ [y] /\ ~ p y)).
(** A hexadecimal number, perhaps with white space around it, a sign, 0x and
    underscores between the digits. *)
Definition loose_number (s : list N) (z : Z) : Prop :=
  exists a m b, s = a ++ m ++ b /\ Forall white (a ++ b) /\ hex_integer m z.

(** Type, identifier, length code, data, and anything. The data may end early
    if the line ends there. If anything follows the data, then the last four
    characters of the line are the time, whatever they belong to. *)
Definition loose_line (f : rxframe) (ts : option Z) (line : list N) : Prop :=
  exists idt c pairs rest dlc n,
    line = (if r_fd f then 68 else if r_ext f then 84 else 116) :: idt ++ c :: concat pairs ++ rest /\
    (r_fd f = true -> r_ext f = true) /\
    length idt = (if r_ext f then 8 else 3)%nat /\ loose_number idt (r_id f) /\
    digit_char c dlc /\ nth_error legal_lengths (N.to_nat dlc) = Some n /\ (r_fd f = false -> n <= 8) /\
    Forall2 (fun p b => length p = 2%nat /\ SlcanSpec.text p b) pairs (r_data f) /\
    (N.of_nat (length (r_data f)) = n \/ N.of_nat (length (r_data f)) < n /\ rest = []) /\
    match ts with
    | None => rest = []
    | Some t => rest <> [] /\ exists front tail, line = front ++ tail /\ length tail = 4%nat /\ loose_number tail t
    end.
(** White space, then bells, then end-of-text marks are taken off. *)
Definition read_as (f : rxframe) (ts : option Z) (raw : list N) : Prop :=
  exists a b line, peeled white raw a /\ peeled (eq 7) a b /\ peeled (eq 3) b line /\ loose_line f ts line.

(** A type letter and digits, as many as the length code tells, with four
    more for the time or none. *)
Definition regular (raw : list N) : Prop :=
  exists k idt c l dlc n, raw = k :: idt ++ c :: l /\ (k = 84 \/ k = 116 \/ k = 68) /\
    length idt = (if (k =? 116)%N then 3 else 8)%nat /\
    Forall (fun x => exists d, digit_char x d) (idt ++ c :: l) /\
    digit_char c dlc /\ nth_error legal_lengths (N.to_nat dlc) = Some n /\
    (N.of_nat (length l) = 2 * n \/ N.of_nat (length l) = 2 * n + 4).

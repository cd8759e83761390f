(** What the RTCM dump promises. *)
From Coq Require Import Sorting.Sorted.
From Verif.Base Require Import Prelude.
From Verif.Model Require Import RtcmDump.
Local Open Scope Z_scope.

(** The decoder never raises. *)
Definition never_raises {D} (read : D -> N -> D * option bool) : Prop := forall d b, snd (read d b) <> None.
(** What the decoder makes of a stream of bytes: each packet, with the number of
    bytes so far at which there was neither a packet nor the beginning of one. *)
Fixpoint decoded {D} (read : D -> N -> D * option bool) (packet : D -> pkey) (is_empty : D -> bool)
    (d : D) (lost : N) (bs : list N) : list (pkey * N) :=
  match bs with
  | [] => []
  | b :: bs' =>
      match read d b with
      | (d, Some true) => (packet d, lost) :: decoded read packet is_empty d lost bs'
      | (d, _) => decoded read packet is_empty d (if is_empty d then lost + 1 else lost)%N bs'
      end
  end.

(** Every reading of the clock is later than the one before, and intervals
    longer than nothing stay so. *)
Definition later_each_time (clk : nat -> Z) : Prop := forall n, clk n < clk (S n).
Definition positive_intervals {F} (diff : Z -> Z -> F) (blend : F -> F -> F) (is_zero : F -> bool) : Prop :=
  exists pos : F -> Prop, (forall a b, b < a -> pos (diff a b)) /\ (forall f g, pos f -> pos g -> pos (blend f g)) /\
    (forall f, pos f -> is_zero f = false).

(** The packets fall into stretches, each ended by the first packet that comes
    two seconds or more after the last one reported; [n] packets are past. *)
Fixpoint stretches (clk : nat -> Z) (second last : Z) (n : nat) (cur : list pkey) (ps : list (pkey * N)) : list (list pkey * N) :=
  match ps with
  | [] => []
  | (k, lost) :: ps' =>
      if 2 * second <=? clk n - last then (cur ++ [k], lost) :: stretches clk second (clk n) (S n) [] ps'
      else stretches clk second last (S n) (cur ++ [k]) ps'
  end.
(** How often a packet of this kind is in the list. *)
Definition times (k : pkey) (w : list pkey) : nat := length (filter (pkey_eqb k) w).

(** A row: the kind of packet, the interval and the number. *)
Definition row (F : Type) : Type := (pkey * option F * N)%type.
Definition row_key {F} (r : row F) : pkey := fst (fst r).
Definition row_line {F} (r : row F) : line F := LRow (fst (row_key r)) (snd (row_key r)) (snd (fst r)) (snd r).
Definition before (a b : pkey) : Prop := (fst a < fst b \/ fst a = fst b /\ snd a < snd b)%N.
(** The rows [rs] and the total are right for the stretch [w]: each row has the
    number of packets of its kind in the stretch; the rows are in order, one for
    each kind; there is one for each kind that was there twice and for each in
    [due]; the total is the length of one packet of each kind that was there. *)
Definition rows_right {F} (w : list pkey) (due : list pkey) (rs : list (row F)) (total : N) : Prop :=
  Forall (fun r => snd r = N.of_nat (times (row_key r) w) /\ (snd (fst r) = None <-> snd r = 0%N)) rs /\
  StronglySorted before (map row_key rs) /\
  (forall k, (2 <= times k w)%nat \/ In k due -> In k (map row_key rs)) /\
  total = fold_right N.add 0%N (map (fun r => if N.eqb (snd r) 0 then 0%N else snd (row_key r)) rs).
(** The output is one report for each stretch; a kind that has a number other
    than 0 in one report is due in the next. *)
Fixpoint reports_right {F} (due : list pkey) (ws : list (list pkey * N)) (out : list (line F)) : Prop :=
  match ws with
  | [] => out = []
  | (w, lost) :: ws' => exists rs total rest,
      out = LLost lost :: map row_line rs ++ LTotal total :: rest /\ rows_right w due rs total /\
      reports_right (map row_key (filter (fun r => negb (N.eqb (snd r) 0)) rs)) ws' rest
  end.

(** With a decoder that may raise: the packets up to where it does, the decoder
    then, and whether it got to the end. *)
Fixpoint until_raise {D} (read : D -> N -> D * option bool) (packet : D -> pkey) (d : D) (bs : list N) : list pkey * D * bool :=
  match bs with
  | [] => ([], d, true)
  | b :: bs' =>
      let (d, r) := read d b in
      match r with
      | None => ([], d, false)
      | Some here =>
          let '(ps, d', whole) := until_raise read packet d bs' in
          ((if here then [packet d] else []) ++ ps, d', whole)
      end
  end.
(** What is listed of the messages, and what of them is written to the file:
    those decoded to the end. *)
Fixpoint listed_written {D} (read : D -> N -> D * option bool) (packet : D -> pkey) (d : D) (msgs : list (list N)) : list pkey * list N :=
  match msgs with
  | [] => ([], [])
  | m :: msgs' =>
      let '(ps, d, whole) := until_raise read packet d m in
      let (qs, file) := listed_written read packet d msgs' in
      (ps ++ qs, (if whole then m else []) ++ file)
  end.

(** examples/rtcm_dump.py: the RTCM data heard is decoded, counted and written
    to a file.
    Simplifications: the decoder (MAVProxy, not in this repository) and the
    arithmetic on the intervals are parameters; [time.time] is read off [clk],
    one value per reading; a line printed is one item of [rt_out], and the rate
    printed is kept as the interval it is computed from. *)
From Verif.Base Require Import Prelude.
Local Open Scope Z_scope.

(** (pkt_id, pkt_len), 41. *)
Definition pkey : Type := (N * N)%type.
Definition pkey_eqb (a b : pkey) : bool := (N.eqb (fst a) (fst b) && N.eqb (snd a) (snd b))%bool.
(** [sorted] of a list of tuples. *)
Definition pkey_leb (a b : pkey) : bool := (N.ltb (fst a) (fst b) || N.eqb (fst a) (fst b) && N.leb (snd a) (snd b))%bool.
Fixpoint insert_key (x : pkey) (l : list pkey) : list pkey :=
  match l with
  | [] => [x]
  | y :: r => if pkey_leb x y then x :: l else y :: insert_key x r
  end.
Definition sorted_keys (l : list pkey) : list pkey := fold_right insert_key [] l.

(** The lines printed: 60, 69 (with no interval if the rate is 0.0), 72 and 80. *)
Inductive line (F : Type) : Type :=
| LLost (n : N)
| LRow (id len : N) (interval : option F) (count : N)
| LTotal (n : N)
| LPacket (len id : N).
Arguments LLost {F}. Arguments LRow {F}. Arguments LTotal {F}. Arguments LPacket {F}.

(** The globals of 25-32, the output, and how often the clock was read. *)
Record rtcm (D F : Type) : Type := Rtcm {
  rt_dec : D;
  rt_last : list (pkey * Z);
  rt_deltas : list (pkey * F);
  rt_counts : list (pkey * N);
  rt_stats : Z;
  rt_lost : N;
  rt_file : list N;
  rt_out : list (line F);
  rt_reads : nat }.
Arguments Rtcm {D F}. Arguments rt_dec {D F}. Arguments rt_last {D F}. Arguments rt_deltas {D F}. Arguments rt_counts {D F}.
Arguments rt_stats {D F}. Arguments rt_lost {D F}. Arguments rt_file {D F}. Arguments rt_out {D F}. Arguments rt_reads {D F}.

Section RtcmDump.
  (** [decoder.read]: [None] if it raises, else whether a packet is complete;
      [get_packet_ID] and the length of [get_packet]; whether [pkt] is empty. *)
  Variables (D F : Type).
  Variable read : D -> N -> D * option bool.
  Variable packet : D -> pkey.
  Variable is_empty : D -> bool.
  (** 51: [now - last]; 56: the weighted sum; whether [1.0/x] raises. *)
  Variable diff : Z -> Z -> F.
  Variable blend : F -> F -> F.
  Variable is_zero : F -> bool.
  Variable clk : nat -> Z.
  Variable second : Z.
  (** --stats *)
  Variable stats : bool.

  Definition print (s : rtcm D F) (l : line F) : rtcm D F :=
    Rtcm (rt_dec s) (rt_last s) (rt_deltas s) (rt_counts s) (rt_stats s) (rt_lost s) (rt_file s) (rt_out s ++ [l]) (rt_reads s).
  Definition set_counts (s : rtcm D F) (c : list (pkey * N)) : rtcm D F :=
    Rtcm (rt_dec s) (rt_last s) (rt_deltas s) c (rt_stats s) (rt_lost s) (rt_file s) (rt_out s) (rt_reads s).

  (** 62-71: the rows of the report; [None] for ZeroDivisionError. A key of
      [deltas] is there when it is looked up. *)
  Fixpoint rows (ks : list pkey) (s : rtcm D F) (total : N) : rtcm D F * option N :=
    match ks with
    | [] => (s, Some total)
    | k :: ks' =>
        match dget pkey_eqb (rt_counts s) k with
        | None =>
            let s := set_counts s (dset pkey_eqb (rt_counts s) k 0%N) in
            rows ks' (print s (LRow (fst k) (snd k) None 0)) total
        | Some c =>
            match dget pkey_eqb (rt_deltas s) k with
            | None => (s, None)
            | Some f =>
                if is_zero f then (s, None)
                else rows ks' (print s (LRow (fst k) (snd k) (Some f) c)) (if (0 <? c)%N then total + snd k else total)%N
            end
        end
    end.
  (** 73-77: [None] for KeyError. *)
  Fixpoint forget (ks : list pkey) (s : rtcm D F) : option (rtcm D F) :=
    match ks with
    | [] => Some s
    | k :: ks' =>
        match dget pkey_eqb (rt_counts s) k with
        | None => None
        | Some c =>
            if N.eqb c 0 then
              match dget pkey_eqb (rt_last s) k with
              | None => None
              | Some _ =>
                  forget ks' (Rtcm (rt_dec s) (ddel pkey_eqb (rt_last s) k) (ddel pkey_eqb (rt_deltas s) k) (rt_counts s)
                                   (rt_stats s) (rt_lost s) (rt_file s) (rt_out s) (rt_reads s))
              end
            else forget ks' s
        end
    end.
  (** 59-78; the flag says that nothing was raised. *)
  Definition report (s : rtcm D F) (now : Z) : rtcm D F * bool :=
    let s := Rtcm (rt_dec s) (rt_last s) (rt_deltas s) (rt_counts s) now (rt_lost s) (rt_file s)
                  (rt_out s ++ [LLost (rt_lost s)]) (rt_reads s) in
    match rows (sorted_keys (map fst (rt_deltas s))) s 0 with
    | (s, None) => (s, false)
    | (s, Some total) =>
        let s := print s (LTotal total) in
        match forget (sorted_keys (map fst (rt_deltas s))) s with
        | None => (s, false)
        | Some s => (set_counts s [], true)
        end
    end.
  (** 42-80 *)
  Definition on_packet (s : rtcm D F) (k : pkey) : rtcm D F * bool :=
    let counts := dset pkey_eqb (rt_counts s) k (match dget pkey_eqb (rt_counts s) k with None => 1 | Some c => c + 1 end)%N in
    let now := clk (rt_reads s) in
    let deltas :=
      match dget pkey_eqb (rt_last s) k with
      | None => rt_deltas s
      | Some l => dset pkey_eqb (rt_deltas s) k
                    (match dget pkey_eqb (rt_deltas s) k with None => diff now l | Some f => blend f (diff now l) end)
      end in
    let s := Rtcm (rt_dec s) (dset pkey_eqb (rt_last s) k now) deltas counts (rt_stats s) (rt_lost s) (rt_file s) (rt_out s) (S (rt_reads s)) in
    if stats then
      if 2 * second <=? now - rt_stats s then report s now else (s, true)
    else (print s (LPacket (snd k) (fst k)), true).
  (** 38-39 and 81-82: one byte. *)
  Definition on_byte (s : rtcm D F) (b : N) : rtcm D F * bool :=
    let (d, r) := read (rt_dec s) b in
    let lost := match r with Some false => if is_empty d then (rt_lost s + 1)%N else rt_lost s | _ => rt_lost s end in
    let s := Rtcm d (rt_last s) (rt_deltas s) (rt_counts s) (rt_stats s) lost (rt_file s) (rt_out s) (rt_reads s) in
    match r with
    | None => (s, false)
    | Some true => on_packet s (packet d)
    | Some false => (s, true)
    end.
  Fixpoint on_bytes (s : rtcm D F) (data : list N) : rtcm D F * bool :=
    match data with
    | [] => (s, true)
    | b :: data' => match on_byte s b with (s, true) => on_bytes s data' | (s, false) => (s, false) end
    end.
  (** 34-84: the data is written when all of it was decoded. The caller catches
      what is raised (node.py 200-204, and 94-97 here). *)
  Definition handle_rtcm (s : rtcm D F) (data : list N) : rtcm D F :=
    match on_bytes s data with
    | (s, false) => s
    | (s, true) =>
        Rtcm (rt_dec s) (rt_last s) (rt_deltas s) (rt_counts s) (rt_stats s) (rt_lost s) (rt_file s ++ data) (rt_out s) (rt_reads s)
    end.
  (** 25-32 with a new decoder [d], and then the messages heard. *)
  Definition dump_start (d : D) : rtcm D F := Rtcm d [] [] [] 0 0 [] [] 0.
  Definition dump (d : D) (msgs : list (list N)) : rtcm D F := fold_left handle_rtcm msgs (dump_start d).
End RtcmDump.

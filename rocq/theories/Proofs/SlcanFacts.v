(** Facts of SLCAN. *)
From Verif.Base Require Import Prelude.
From Verif.Model Require Import CanFrame TsEst Slcan.
From Verif.Spec Require Import CrcSpec PacketSpec TsSpec SlcanSpec.
From Verif.Proofs Require Import PacketFacts TsFacts LogFacts.
Local Open Scope N_scope.

(** Digits. *)
Definition char_list : list N := upper_digits ++ lower_digits.
Lemma digit_in c d : digit_char c d -> In c char_list.
Proof. intros [H|H]; apply nth_error_In in H; unfold char_list; apply in_or_app; auto. Qed.
Lemma digit_value c d : digit_char c d -> hex_value c = Some d /\ d < 16.
Proof.
  unfold digit_char. intros H.
  assert (L : (N.to_nat d < 16)%nat).
  { destruct H as [H|H]; [change 16%nat with (length upper_digits)|change 16%nat with (length lower_digits)];
      apply nth_error_Some; congruence. }
  assert (D : d < 16) by lia. split; [|exact D].
  assert (I : In d (map N.of_nat (seq 0 16))).
  { replace d with (N.of_nat (N.to_nat d)) by lia. apply in_map. apply in_seq. lia. }
  cbn [seq map In N.of_nat] in I.
  repeat (destruct I as [I|I]; [subst d; cbn in H; destruct H as [H|H]; injection H as <-; reflexivity|]). contradiction.
Qed.
Lemma digit_plain c : In c char_list ->
  is_space c = false /\ (NACK =? c) = false /\ (END_OF_TEXT =? c) = false /\ (c =? 95) = false /\
  (c =? 120) = false /\ (c =? 88) = false /\ c <> CR.
Proof.
  intros I. unfold char_list, upper_digits, lower_digits in I. cbn [app In] in I.
  repeat (destruct I as [I|I]; [subst c; repeat split; discriminate|]). contradiction.
Qed.

Lemma text_chars l n : text l n -> Forall (fun c => In c char_list) l.
Proof.
  intros (ds & F & _). induction F as [|c d l ds H F IH]; constructor; [eapply digit_in; exact H|exact IH].
Qed.

Lemma scan_text l ds : Forall2 digit_char l ds -> forall acc b, b = true \/ l <> [] ->
  scan_hex l acc b = Some (fold_left (fun a d => 16 * a + d) ds acc, []).
Proof.
  induction 1 as [|c d l ds H F IH]; intros acc b N; cbn [scan_hex fold_left].
  - destruct N as [->|N]; [reflexivity|contradiction].
  - destruct (digit_plain c (digit_in c d H)) as (_ & _ & _ & -> & _). destruct (digit_value c d H) as (-> & _).
    apply IH. left. reflexivity.
Qed.

Lemma int16_text l n : text l n -> l <> [] -> int16 l = Ok (Z.of_N n).
Proof.
  intros T N. pose proof (text_chars l n T) as C. destruct T as (ds & F & ->).
  assert (S : scan_hex l 0 false = Some (fold_left (fun a d => 16 * a + d) ds 0, [])) by (apply scan_text; auto).
  unfold int16. destruct l as [|c l]; [contradiction|]. apply Forall_cons_iff in C as (Hc & Hl).
  cbn [drop_while]. destruct (digit_plain c Hc) as (-> & _).
  assert (Z0 : forall x, scan_hex (c :: l) 0 false = Some x ->
     match scan_hex (c :: l) 0 false with
     | Some (n, rest) => if forallb is_space rest then Ok (Z.of_N n) else Err ValueError
     | None => Err ValueError end = match x with (n, rest) => if forallb is_space rest then Ok (Z.of_N n) else Err ValueError end).
  { intros x ->. reflexivity. }
  assert (X : match l with x :: r => (x =? 120) || (x =? 88) = false | [] => True end).
  { destruct l as [|x r]; [exact I|]. apply Forall_cons_iff in Hl as (Hx & _).
    destruct (digit_plain x Hx) as (_ & _ & _ & _ & -> & -> & _). reflexivity. }
  unfold char_list, upper_digits, lower_digits in Hc. cbn [app In] in Hc.
  repeat (destruct Hc as [Hc|Hc]; [subst c; first
    [ rewrite (Z0 _ S); reflexivity
    | destruct l as [|x r]; [rewrite (Z0 _ S); reflexivity|rewrite X; rewrite (Z0 _ S); reflexivity] ]|]).
  contradiction.
Qed.

Lemma a2b_text pairs data : Forall2 (fun p b => length p = 2%nat /\ text p b) pairs data ->
  a2b_hex (concat pairs) = Ok data /\ length (concat pairs) = (length data * 2)%nat /\
  Forall (fun c => In c char_list) (concat pairs).
Proof.
  induction 1 as [|p b pairs data (L & T) F (IH & IL & IC)]; [cbn; auto|].
  pose proof (text_chars p b T) as C. cbn [concat]. rewrite Forall_app. split; [|split; [rewrite app_length, IL, L; cbn; lia|auto]].
  destruct p as [|x [|y [|]]]; cbn in L; try discriminate. destruct T as (ds & G & ->).
  destruct ds as [|d [|e [|]]]; try (inversion G; fail).
  - inversion G; subst. inversion H4.
  - inversion G as [|? ? ? ? G1 G2]; subst. inversion G2 as [|? ? ? ? G3 G4]; subst.
    cbn [app a2b_hex fold_left]. destruct (digit_value _ _ G1) as (-> & _). destruct (digit_value _ _ G3) as (-> & _).
    rewrite IH. reflexivity.
  - inversion G as [|? ? ? ? G1 G2]; subst. inversion G2 as [|? ? ? ? G3 G4]; subst. inversion G4.
Qed.

Lemma drop_while_none {A} (p : A -> bool) l : Forall (fun x => p x = false) l -> drop_while p l = l.
Proof. intros F. destruct l as [|x l]; [reflexivity|]. apply Forall_cons_iff in F as (H & _). cbn. rewrite H. reflexivity. Qed.
Lemma strip_none p l : Forall (fun x => p x = false) l -> strip p l = l.
Proof.
  intros F. unfold strip. rewrite (drop_while_none p l F). rewrite drop_while_none by (apply Forall_rev; exact F).
  apply rev_involutive.
Qed.

(** Lines of the protocol are read. *)
Lemma line_parsed f ts line : frame_line f ts line ->
  slcan_parse line = Ok (Some (f, option_map Z.of_N ts)) /\ ~ In CR line.
Proof.
  intros (idt & c & pairs & tail & dlc & E & FD & LI & (n & EI & TI) & TC & LD & L8 & PA & TS).
  destruct (a2b_text _ _ PA) as (A1 & A2 & A3).
  assert (TL : Forall (fun c => In c char_list) tail).
  { destruct ts as [t|]; [exact (text_chars _ _ (proj2 TS))|subst tail; constructor]. }
  assert (CH : Forall (fun c => In c char_list) (idt ++ c :: concat pairs ++ tail)).
  { apply Forall_app. split; [eapply text_chars; exact TI|]. constructor.
    - apply text_chars in TC. apply Forall_cons_iff in TC as (X & _). exact X.
    - apply Forall_app. auto. }
  set (k := if r_fd f then 68 else if r_ext f then 84 else 116) in *.
  assert (PL : Forall (fun c => is_space c = false /\ (NACK =? c) = false /\ (END_OF_TEXT =? c) = false /\ c <> CR) line).
  { subst line. constructor.
    - subst k. destruct (r_fd f), (r_ext f); repeat split; discriminate.
    - eapply Forall_impl; [|exact CH]. intros x Hx. destruct (digit_plain x Hx) as (X1 & X2 & X3 & _ & _ & _ & X4). auto. }
  split; [|intros I; rewrite Forall_forall in PL; destruct (PL _ I) as (_ & _ & _ & X); apply X; reflexivity].
  assert (ST : strip (N.eqb END_OF_TEXT) (strip (N.eqb NACK) (strip is_space line)) = line).
  { rewrite (strip_none is_space line) by (eapply Forall_impl; [|exact PL]; intros x (X & _); exact X).
    rewrite (strip_none (N.eqb NACK) line) by (eapply Forall_impl; [|exact PL]; intros x (_ & X & _); exact X).
    apply strip_none. eapply Forall_impl; [|exact PL]. intros x (_ & _ & X & _). exact X. }
  unfold slcan_parse. rewrite ST.
  set (il := if r_ext f then 8%nat else 3%nat) in *.
  assert (HD : match line with
    | [] => None
    | b :: _ => if b =? 84 then Some (8%nat, false) else if b =? 116 then Some (3%nat, false)
                else if b =? 68 then Some (8%nat, true) else None end = Some (il, r_fd f)).
  { subst line k il. destruct (r_fd f) eqn:F1; [rewrite (FD eq_refl); reflexivity|]. destruct (r_ext f); reflexivity. }
  cbn zeta. rewrite HD.
  assert (P1 : firstn il (skipn 1 line) = idt).
  { rewrite E. cbn [skipn]. apply firstn_app_at. symmetry; exact LI. }
  assert (P2 : nth_error line (1 + il) = Some c).
  { rewrite E. cbn [Nat.add nth_error]. rewrite nth_error_app2 by lia. rewrite LI, Nat.sub_diag. reflexivity. }
  assert (P3 : skipn (2 + il) line = concat pairs ++ tail).
  { rewrite E. change (k :: idt ++ c :: concat pairs ++ tail) with ((k :: idt) ++ [c] ++ concat pairs ++ tail).
    rewrite app_assoc. apply skipn_app_at. rewrite app_length. cbn [length]. lia. }
  assert (P4 : length line = (2 + il + length (r_data f) * 2 + length tail)%nat).
  { rewrite E. cbn [length]. rewrite app_length. cbn [length]. rewrite app_length. lia. }
  assert (NE : idt <> []) by (intros X; rewrite X in LI; unfold il in LI; destruct (r_ext f); discriminate).
  rewrite P1, (int16_text idt n TI NE). cbn [bind]. rewrite P2.
  destruct TC as (ds & G & ED). destruct ds as [|d [|]]; [inversion G| |inversion G as [|? ? ? ? ? G2]; inversion G2].
  inversion G as [|? ? ? ? G1 _]; subst. cbn [fold_left] in *. destruct (digit_value _ _ G1) as (V & D16). rewrite V.
  replace (16 * 0 + d) with d in LD by lia.
  assert (DL : dlc_to_datalength d = N.of_nat (length (r_data f))).
  { assert (M : nth_error (map dlc_to_datalength [0; 1; 2; 3; 4; 5; 6; 7; 8; 9; 10; 11; 12; 13; 14; 15]) (N.to_nat d) = Some (dlc_to_datalength d)).
    { apply map_nth_error. change [0; 1; 2; 3; 4; 5; 6; 7; 8; 9; 10; 11; 12; 13; 14; 15] with (map N.of_nat (seq 0 16)).
      rewrite (map_nth_error N.of_nat (N.to_nat d) (seq 0 16) (d := N.to_nat d)); [f_equal; lia|].
      rewrite nth_error_nth' with (d := 0%nat); [f_equal; apply seq_nth; lia|rewrite seq_length; lia]. }
    rewrite dlc_values in M. congruence. }
  rewrite DL, Nat2N.id.
  assert (B64 : (length (r_data f) <= 64)%nat).
  { assert (dlc_to_datalength d <= 64) by (unfold dlc_to_datalength; dif; lia). lia. }
  replace (if r_fd f then (64 <? length (r_data f))%nat else (8 <? length (r_data f))%nat) with false.
  2:{ destruct (r_fd f); [|specialize (L8 eq_refl)]; lia. }
  rewrite P3, firstn_app_at by lia. rewrite A1. cbn [bind]. rewrite P4.
  assert (R : {| r_id := Z.of_N n; r_data := r_data f; r_ext := (il =? 8)%nat; r_fd := r_fd f |} = f).
  { destruct f as [i dd ee ff]. cbn in *. subst il i. f_equal. destruct ee; reflexivity. }
  destruct ts as [t|].
  - destruct TS as (T4 & TT). rewrite T4. replace (_ <? _)%nat with true by lia.
    assert (P5 : skipn (2 + il + length (r_data f) * 2 + 4 - 4) (k :: idt ++ c :: concat pairs ++ tail) = tail).
    { change (k :: idt ++ c :: concat pairs ++ tail) with ((k :: idt) ++ [c] ++ concat pairs ++ tail).
      rewrite !app_assoc. apply skipn_app_at. rewrite !app_length. cbn [length]. lia. }
    rewrite P5. rewrite (int16_text tail t TT) by (intros X; subst tail; discriminate). cbn [bind option_map].
    rewrite R. reflexivity.
  - subst tail. cbn [length]. replace (_ <? _)%nat with false by lia. cbn [bind option_map]. rewrite R. reflexivity.
Qed.

(** Printed numbers. *)
Lemma digit_printed upper d : d < 16 -> digit_char (hex_digit upper d) d.
Proof.
  intros D. assert (I : In d (map N.of_nat (seq 0 16))).
  { replace d with (N.of_nat (N.to_nat d)) by lia. apply in_map. apply in_seq. lia. }
  cbn [seq map In N.of_nat] in I. unfold digit_char.
  repeat (destruct I as [I|I]; [subst d; destruct upper; cbn; auto|]). contradiction.
Qed.
Lemma fixed_text upper w : forall n, n < 16 ^ N.of_nat w ->
  length (hex_fixed upper w n) = w /\ text (hex_fixed upper w n) n.
Proof.
  induction w as [|w IH]; intros n H.
  - split; [reflexivity|]. exists []. split; [constructor|]. cbn in *. lia.
  - cbn [hex_fixed]. rewrite Nat2N.inj_succ, N.pow_succ_r' in H.
    destruct (IH (n / 16)) as (L & ds & F & V); [apply N.div_lt_upper_bound; lia|].
    split; [rewrite app_length; cbn [length]; lia|]. exists (ds ++ [n mod 16]). split.
    + apply Forall2_app; [exact F|]. constructor; [|constructor]. apply digit_printed. apply N.mod_lt. lia.
    + rewrite fold_left_app. cbn [fold_left]. rewrite <- V. pose proof (N.div_mod n 16). lia.
Qed.
Lemma log_digits n w : n < 16 ^ N.of_nat w -> (1 <= w)%nat -> (N.to_nat (N.log2 n / 4 + 1) <= w)%nat.
Proof.
  intros H W. destruct (N.eq_dec n 0) as [->|NZ]; [change (N.log2 0 / 4 + 1) with 1; lia|].
  assert (P : 16 ^ N.of_nat w = 2 ^ (4 * N.of_nat w)) by (change 16 with (2 ^ 4); rewrite <- N.pow_mul_r; reflexivity).
  rewrite P in H. apply N.log2_lt_pow2 in H; [|lia].
  assert (N.log2 n / 4 < N.of_nat w) by (apply N.div_lt_upper_bound; lia). lia.
Qed.
Lemma min_text w n : n < 16 ^ N.of_nat w -> (1 <= w)%nat -> length (hex_min w n) = w /\ text (hex_min w n) n.
Proof.
  intros H W. unfold hex_min. rewrite Nat.max_l by (apply log_digits; assumption). apply fixed_text. exact H.
Qed.
Lemma data_pairs data : byte_string data -> exists pairs, b2a_hex data = concat pairs /\
  Forall2 (fun p b => length p = 2%nat /\ text p b) pairs data.
Proof.
  intros B. exists (map (hex_fixed false 2) data). split; [unfold b2a_hex; apply flat_map_concat_map|].
  induction B as [|b data Hb B IH]; constructor; [|exact IH]. apply fixed_text. exact Hb.
Qed.

(** What is sent is a line of the protocol. *)
Lemma encoded f : on_bus f -> c_ext f = true -> In (N.of_nat (length (c_data f))) legal_lengths ->
  exists line g, slcan_encode f = Ok (line ++ [CR]) /\ as_received f g /\ frame_line g None line.
Proof.
  intros (HI & HD & HL) EX LE. destruct (data_pairs (c_data f) HD) as (pairs & EP & PA).
  set (len := N.of_nat (length (c_data f))) in *. set (dlc := datalength_to_dlc len).
  assert (D15 : dlc <= 15).
  { apply dlc_smallest. unfold len. destruct (c_fd f); lia. }
  destruct (min_text 8 (c_id f)) as (L8 & T8); [change (16 ^ N.of_nat 8) with (2 ^ 32); lia|lia|].
  destruct (min_text 1 dlc) as (L1 & T1); [change (16 ^ N.of_nat 1) with 16; lia|lia|].
  destruct (hex_min 1 dlc) as [|c [|]] eqn:HM; try discriminate. clear L1.
  exists ((if c_fd f then 68 else 84) :: hex_min 8 (c_id f) ++ c :: concat pairs).
  exists {| r_id := Z.of_N (c_id f); r_data := c_data f; r_ext := true; r_fd := c_fd f |}.
  split; [|split].
  - unfold slcan_encode. rewrite EX. fold len dlc. rewrite HM, EP. cbn [app].
    rewrite <- app_assoc. cbn [app]. reflexivity.
  - repeat split. cbn. congruence.
  - exists (hex_min 8 (c_id f)), c, pairs, [], dlc. cbn [r_id r_data r_ext r_fd].
    split; [rewrite app_nil_r; reflexivity|]. split; [reflexivity|]. split; [exact L8|].
    split; [exists (c_id f); auto|]. split; [exact T1|]. split; [|split; [|split; [exact PA|reflexivity]]].
    + fold len. pose proof (dlc_exact len LE) as X. fold dlc in X. rewrite <- X, <- dlc_values.
      apply map_nth_error. change [0; 1; 2; 3; 4; 5; 6; 7; 8; 9; 10; 11; 12; 13; 14; 15] with (map N.of_nat (seq 0 16)).
      rewrite (map_nth_error N.of_nat (N.to_nat dlc) (seq 0 16) (d := N.to_nat dlc)); [f_equal; lia|].
      rewrite nth_error_nth' with (d := 0%nat); [f_equal; apply seq_nth; lia|rewrite seq_length; lia].
    + intros E. rewrite E in HL. exact HL.
Qed.

(** ** The receiver *)

Definition set_data (s : rx_worker) (d : list N) : rx_worker :=
  {| rx_data := d; rx_mono := rx_mono s; rx_real := rx_real s; rx_out := rx_out s |}.
Lemma set_data_twice s d d' : set_data (set_data s d) d' = set_data s d'.
Proof. reflexivity. Qed.
Lemma set_data_same s : set_data s (rx_data s) = s.
Proof. destruct s; reflexivity. Qed.

Lemma complete_app l1 : forall cur l2,
  complete_lines cur (l1 ++ l2) = complete_lines cur l1 ++ complete_lines (remainder cur l1) l2 /\
  remainder cur (l1 ++ l2) = remainder (remainder cur l1) l2.
Proof.
  induction l1 as [|b l1 IH]; intros cur l2; cbn; [auto|]. destruct (b =? 13).
  - destruct (IH [] l2) as (A & B). rewrite A, B. auto.
  - apply IH.
Qed.
Lemma remainder_clean l : forall cur, ~ In CR cur -> ~ In CR (remainder cur l).
Proof.
  induction l as [|b l IH]; intros cur H; cbn; [exact H|]. destruct (b =? 13) eqn:E; apply IH; [intros []|].
  rewrite in_app_iff. intros [I|[I|[]]]; [contradiction|]. subst b. discriminate.
Qed.

Lemma split_nonempty l : split_cr l <> [].
Proof. destruct l as [|b l]; cbn; [discriminate|]. destruct (b =? CR); [discriminate|]. destruct (split_cr l); discriminate. Qed.
Lemma split_lines l : forall cur, ~ In CR cur -> split_cr (cur ++ l) = complete_lines cur l ++ [remainder cur l].
Proof.
  assert (S : forall cur l, ~ In CR cur -> split_cr (cur ++ l) =
     match split_cr l with p :: ps => (cur ++ p) :: ps | [] => [] end).
  { clear. induction cur as [|c cur IH]; intros l H; cbn.
    - pose proof (split_nonempty l). destruct (split_cr l); [contradiction|reflexivity].
    - replace (c =? CR) with false by (symmetry; apply N.eqb_neq; intros X; apply H; left; exact X).
      rewrite IH by (intros I; apply H; right; exact I). pose proof (split_nonempty l). destruct (split_cr l); [contradiction|reflexivity]. }
  induction l as [|b l IH]; intros cur H.
  - rewrite S by exact H. cbn. rewrite app_nil_r. reflexivity.
  - cbn [complete_lines remainder]. change (b =? 13) with (b =? CR). destruct (b =? CR) eqn:E.
    + rewrite S by exact H. cbn [split_cr]. rewrite E. rewrite app_nil_r. specialize (IH [] (fun x => x)). cbn [app] in IH |- *.
      rewrite IH. reflexivity.
    + specialize (IH (cur ++ [b])). rewrite <- app_assoc in IH. cbn [app] in IH. apply IH.
      rewrite in_app_iff. intros [I|[I|[]]]; [contradiction|]. subst b. discriminate.
Qed.

Lemma tagged_lines reads : forall cur, map fst (tagged cur reads) = complete_lines cur (stream reads).
Proof.
  induction reads as [|[[d tm] tr] reads IH]; intros cur; [reflexivity|]. cbn [tagged]. rewrite map_app, IH, map_map.
  unfold stream. cbn [map concat fst]. rewrite (proj1 (complete_app d cur _)). f_equal. apply map_id.
Qed.
Lemma tagged_times reads : forall cur, Forall (fun x => In (snd x) (map (fun r => (snd (fst r), snd r)) reads)) (tagged cur reads).
Proof.
  induction reads as [|[[d tm] tr] reads IH]; intros cur; [constructor|]. cbn [tagged]. apply Forall_app. split.
  - apply Forall_forall. intros x I. apply in_map_iff in I as (l & <- & _). left. reflexivity.
  - eapply Forall_impl; [|apply IH]. intros x I. right. exact I.
Qed.

Section Receiver.
  Variable c : est_params.

  Lemma process_data s line tm tr d :
    fst (process_line c (set_data s d) line tm tr) = set_data (fst (process_line c s line tm tr)) d.
  Proof.
    unfold process_line. destruct (slcan_parse line) as [[[f [ts|]]|]|]; try reflexivity. cbn [set_data rx_mono rx_real rx_data rx_out].
    destruct (es_update c (rx_mono s) _ _) as [em [m|]]; [|reflexivity].
    destruct (es_update c (rx_real s) _ _) as [er [r|]]; reflexivity.
  Qed.
  Lemma process_tagged_data l : forall s d, process_tagged c (set_data s d) l = set_data (process_tagged c s l) d.
  Proof.
    induction l as [|[line [tm tr]] l IH]; intros s d; cbn [process_tagged]; [reflexivity|]. rewrite process_data. apply IH.
  Qed.
  Lemma process_tagged_app l1 : forall s l2, process_tagged c s (l1 ++ l2) = process_tagged c (process_tagged c s l1) l2.
  Proof. induction l1 as [|[line [tm tr]] l1 IH]; intros s l2; cbn; auto. Qed.
  Lemma process_lines_tagged lines tm tr : forall s,
    process_lines c s lines tm tr = process_tagged c s (map (fun l => (l, (tm, tr))) lines).
  Proof. induction lines as [|l lines IH]; intros s; cbn; auto. Qed.

  (** Readings only determine the times. *)
  Lemma reads_tagged reads : forall s, ~ In CR (rx_data s) ->
    rx_reads c s reads = set_data (process_tagged c s (tagged (rx_data s) reads)) (remainder (rx_data s) (stream reads)).
  Proof.
    induction reads as [|[[d tm] tr] reads IH]; intros s H.
    - cbn. rewrite set_data_same. reflexivity.
    - cbn [rx_reads tagged]. unfold rx_read. rewrite (split_lines d (rx_data s) H).
      rewrite last_last, removelast_last, process_lines_tagged. change {| rx_data := remainder (rx_data s) d; rx_mono := rx_mono s; rx_real := rx_real s; rx_out := rx_out s |}
        with (set_data s (remainder (rx_data s) d)).
      rewrite process_tagged_data. set (s1 := process_tagged c s _).
      rewrite IH by (cbn; apply remainder_clean; exact H). cbn [set_data rx_data].
      rewrite process_tagged_data, set_data_twice, process_tagged_app. fold s1. f_equal.
      unfold stream. cbn [map concat fst]. rewrite (proj2 (complete_app d (rx_data s) _)). reflexivity.
  Qed.

  (** Lines that are not frames have no effect. *)
  Lemma not_a_frame s line tm tr : (forall x, slcan_parse line <> Ok (Some x)) -> fst (process_line c s line tm tr) = s.
  Proof.
    intros H. unfold process_line. destruct (slcan_parse line) as [[[f ts]|]|x]; [exfalso; eapply H; reflexivity|reflexivity|reflexivity].
  Qed.

  (** Without time stamps every frame is delivered. *)
  Lemma untimed l : forall s, no_times (map fst l) ->
    delivered (process_tagged c s l) = delivered s ++ frames_in (map fst l).
  Proof.
    induction l as [|[line [tm tr]] l IH]; intros s H; [cbn; rewrite app_nil_r; reflexivity|].
    cbn [map fst] in H. apply Forall_cons_iff in H as (H1 & H2). cbn [process_tagged map fst]. rewrite IH by exact H2.
    unfold frames_in. cbn [flat_map]. rewrite app_assoc. f_equal. unfold process_line.
    destruct (slcan_parse line) as [[[f [ts|]]|]|x]; cbn [fst]; try (rewrite app_nil_r; reflexivity).
    - exfalso. eapply H1; reflexivity.
    - unfold delivered. cbn [rx_out]. rewrite map_app. reflexivity.
  Qed.

  (** With time stamps they are if the estimators do not fail. *)
  Lemma timed l : forall s,
    Forall (fun r => is_ok r = true) (snd (es_run c (rx_mono s) (map (fun x => (fst x, fst (snd x))) (times_in l)))) ->
    Forall (fun r => is_ok r = true) (snd (es_run c (rx_real s) (map (fun x => (fst x, snd (snd x))) (times_in l)))) ->
    delivered (process_tagged c s l) = delivered s ++ frames_in (map fst l).
  Proof.
    induction l as [|[line [tm tr]] l IH]; intros s; [cbn; rewrite app_nil_r; reflexivity|].
    unfold times_in, frames_in. cbn [flat_map process_tagged map fst]. fold (times_in l). fold (frames_in (map fst l)).
    unfold process_line. destruct (slcan_parse line) as [[[f [ts|]]|]|x]; cbn [snd app fst].
    - cbn [map fst snd es_run].
      destruct (es_update c (rx_mono s) (ts * 1000) tm) as [em m] eqn:E1.
      destruct (es_update c (rx_real s) (ts * 1000) tr) as [er r] eqn:E2.
      destruct (es_run c em _) as [em' ms] eqn:R1. destruct (es_run c er _) as [er' rs] eqn:R2. cbn [snd].
      intros F1 F2. apply Forall_cons_iff in F1 as (O1 & F1). apply Forall_cons_iff in F2 as (O2 & F2).
      destruct m as [m|]; [|discriminate]. destruct r as [r|]; [|discriminate]. cbn [fst].
      rewrite IH; cbn [rx_mono rx_real]; [|rewrite R1; exact F1|rewrite R2; exact F2].
      unfold delivered. cbn [rx_out]. rewrite map_app, <- app_assoc. reflexivity.
    - intros F1 F2. rewrite IH by assumption. unfold delivered. cbn [rx_out]. rewrite map_app, <- app_assoc. reflexivity.
    - apply IH.
    - apply IH.
  Qed.
End Receiver.

(** What is accepted at all. *)
Lemma hex_value_small b d : hex_value b = Some d -> d < 16.
Proof. unfold hex_value. dif; intros E; try discriminate E; injection E as <-; lia. Qed.
Lemma a2b_some n : forall l d, (length l <= n)%nat -> a2b_hex l = Ok d -> byte_string d /\ length l = (length d * 2)%nat.
Proof.
  induction n as [|n IH]; intros l d L; destruct l as [|a [|b l]]; cbn [a2b_hex length] in *; try discriminate; try lia.
  - intros E. injection E as <-. split; [constructor|reflexivity].
  - intros E. injection E as <-. split; [constructor|reflexivity].
  - destruct (hex_value a) as [x|] eqn:X; [|discriminate]. destruct (hex_value b) as [y|] eqn:Y; [|discriminate].
    intros E. apply bind_ok in E as (t & T & E). assert (Ed : d = 16 * x + y :: t) by congruence. subst d. destruct (IH l t) as (B & Q); [lia|exact T|].
    apply hex_value_small in X, Y. split; [|cbn [length]; lia]. constructor; [cbn beta; lia|exact B].
Qed.
Lemma accepted raw f ts : slcan_parse raw = Ok (Some (f, ts)) ->
  byte_string (r_data f) /\ (length (r_data f) <= if r_fd f then 64 else 8)%nat /\ (r_fd f = true -> r_ext f = true).
Proof.
  unfold slcan_parse. cbn zeta. set (line := strip _ _). clearbody line.
  assert (K : forall id_len canfd, (canfd = true -> id_len = 8%nat) ->
    (packet_id <- int16 (firstn id_len (skipn 1 line)) ;;
      match nth_error line (1 + id_len) with
      | None => Err IndexError
      | Some c =>
          match hex_value c with
          | None => Err ValueError
          | Some dlc =>
              if (if canfd then 64 <? N.to_nat (dlc_to_datalength dlc) else 8 <? N.to_nat (dlc_to_datalength dlc))%nat then Err DriverError
              else
                packet_data <- a2b_hex (firstn (N.to_nat (dlc_to_datalength dlc) * 2) (skipn (2 + id_len) line)) ;;
                ts <- (if (2 + id_len + N.to_nat (dlc_to_datalength dlc) * 2 <? length line)%nat
                       then t <- int16 (skipn (length line - 4) line) ;; Ok (Some t)
                       else Ok None) ;;
                Ok (Some ({| r_id := packet_id; r_data := packet_data; r_ext := (id_len =? 8)%nat; r_fd := canfd |}, ts))
          end
      end) = Ok (Some (f, ts)) ->
    byte_string (r_data f) /\ (length (r_data f) <= if r_fd f then 64 else 8)%nat /\ (r_fd f = true -> r_ext f = true)).
  { intros id_len canfd HF E. apply bind_ok in E as (i & _ & E). destruct (nth_error _ _) as [c|]; [|discriminate].
    destruct (hex_value c) as [dlc|]; [|discriminate].
    set (pl := N.to_nat (dlc_to_datalength dlc)) in *. clearbody pl.
    destruct (if canfd then _ else _) eqn:B; [discriminate|].
    apply bind_ok in E as (d & D & E). apply bind_ok in E as (t & _ & E). injection E as <- _. cbn [r_data r_fd r_ext].
    destruct (a2b_some _ _ _ (le_n _) D) as (Y & L). split; [exact Y|]. split.
    - rewrite firstn_length in L. destruct canfd; lia.
    - intros F. rewrite (HF F). reflexivity. }
  destruct line as [|b line']; [discriminate|]. set (line := b :: line') in *.
  destruct (b =? 84); [exact (K 8%nat false ltac:(discriminate))|].
  destruct (b =? 116); [exact (K 3%nat false ltac:(discriminate))|].
  destruct (b =? 68); [exact (K 8%nat true (fun _ => eq_refl))|]. discriminate.
Qed.
